(** Facts about B64Msg. *)
From Coq Require Import String.
From Verif Require Import Base Base_facts Base64 Codec_facts B64Msg.
Local Open Scope Z_scope.
Local Open Scope list_scope.

Lemma val_pad : b64_val b64_pad = None. Proof. reflexivity. Qed.
Lemma symbols_pad t : forall q, (q = 2 \/ q = 3)%nat ->
  b64_symbols true (S q mod 4) t = if forallb (fun c => c =? b64_pad) t && (q + S (length t) <=? 4)%nat then Some [] else None.
Proof.
  intros q [-> | ->].
  - change (3 mod 4)%nat with 3%nat. destruct t as [|a t]; [reflexivity|]. cbn [b64_symbols forallb].
    destruct (a =? b64_pad); cbn [andb]; [|reflexivity]. change (3 <? 2)%nat with false. cbv iota. change (4 mod 4)%nat with 0%nat.
    destruct t as [|b t]; [reflexivity|]. cbn [b64_symbols forallb length]. destruct (b =? b64_pad); cbn [andb]; [|reflexivity].
    change (0 <? 2)%nat with true. cbv iota. destruct (forallb _ t); [|reflexivity]. cbn [andb]. reflexivity.
  - change (4 mod 4)%nat with 0%nat. destruct t as [|a t]; [reflexivity|]. cbn [b64_symbols forallb length].
    destruct (a =? b64_pad); cbn [andb]; [|reflexivity]. change (0 <? 2)%nat with true. cbv iota. destruct (forallb _ t); reflexivity.
Qed.
Lemma symbols_run s : forall pos, (pos < 4)%nat ->
  b64_symbols false pos s =
  if b64_tail_ok ((pos + b64_run s) mod 4) (skipn (b64_run s) s) then Some (map b64_value (firstn (b64_run s) s)) else None.
Proof.
  induction s as [|c t IH]; intros pos Hp; [reflexivity|]. cbn [b64_symbols b64_run].
  destruct (b64_val c) as [v|] eqn:V.
  - destruct (Z.eqb_spec c b64_pad) as [->|N]; [discriminate V|].
    rewrite IH by (apply Nat.mod_upper_bound; discriminate). rewrite Nat.add_mod_idemp_l by discriminate.
    cbn [skipn firstn map]. replace (pos + S (b64_run t))%nat with (S pos + b64_run t)%nat by lia.
    destruct (b64_tail_ok _ _); [|reflexivity]. unfold b64_value at 2. rewrite V. reflexivity.
  - cbn [skipn firstn map b64_tail_ok forallb length]. rewrite Nat.add_0_r, (Nat.mod_small pos) by exact Hp.
    destruct (Z.eqb_spec c b64_pad) as [->|N].
    + destruct (Nat.ltb_spec pos 2) as [L|L].
      * rewrite (proj2 (Nat.leb_gt 2 pos)) by exact L. destruct (forallb _ t); reflexivity.
      * rewrite (proj2 (Nat.leb_le 2 pos)) by exact L. rewrite symbols_pad by lia. cbn [andb]. rewrite Bool.andb_true_r. reflexivity.
    + reflexivity.
Qed.
Lemma quads_none vs : Forall (fun v => 0 <= v < 64) vs -> (length vs mod 4 <> 1)%nat ->
  ((exists bs, b64_quads vs = Some bs) <-> last vs 0 mod b64_spare (length vs) = 0) /\ ((exists bs, b64_quads vs = Some bs) \/ b64_quads vs = None).
Proof.
  intros H. split; [|destruct (b64_quads vs); eauto]. revert H H0.
  induction vs as [|a|a b|a b c|a b c d l IH] using list_ind4; intros HF L.
  - split; [reflexivity|]. intros _. now exists [].
  - exfalso. apply L. reflexivity.
  - cbn [b64_quads last length]. change (b64_spare 2) with 16. destruct (Z.eqb_spec (b mod 16) 0) as [E|E].
    + split; [intros _; exact E|intros _; eexists; reflexivity].
    + split; [intros [bs X]; discriminate X|intros X; contradiction].
  - cbn [b64_quads last length]. change (b64_spare 3) with 4. destruct (Z.eqb_spec (c mod 4) 0) as [E|E].
    + split; [intros _; exact E|intros _; eexists; reflexivity].
    + split; [intros [bs X]; discriminate X|intros X; contradiction].
  - assert (LM : (length (a :: b :: c :: d :: l) mod 4 = length l mod 4)%nat).
    { cbn [length]. replace (S (S (S (S (length l))))) with (length l + 1 * 4)%nat by lia. apply Nat.mod_add. discriminate. }
    assert (SP : b64_spare (length (a :: b :: c :: d :: l)) = b64_spare (length l)) by (unfold b64_spare; now rewrite LM).
    rewrite SP. rewrite LM in L. assert (HL : Forall (fun v => 0 <= v < 64) l) by (do 4 apply Forall_inv_tail in HF; exact HF).
    specialize (IH HL L). destruct l as [|e l].
    + change (b64_spare (length [])) with 1. rewrite Z.mod_1_r. cbn [b64_quads]. split; [reflexivity|]. intros _. eexists. reflexivity.
    + change (last (a :: b :: c :: d :: e :: l) 0) with (last (e :: l) 0). rewrite <- IH. change (b64_quads (a :: b :: c :: d :: e :: l)) with
        (match b64_quads (e :: l) with Some out => Some (a * 4 + b / 16 :: b mod 16 * 16 + c / 4 :: c mod 4 * 64 + d :: out) | None => None end).
      destruct (b64_quads (e :: l)) as [out|]; split; intros [bs X]; try discriminate X; eexists; reflexivity.
Qed.
Lemma value_range c : 0 <= b64_value c < 64.
Proof. unfold b64_value. destruct (b64_val c) as [v|] eqn:E; [eapply b64_val_range; exact E|lia]. Qed.
Lemma run_le s : (b64_run s <= length s)%nat.
Proof. induction s as [|c t IH]; cbn [b64_run length]; [lia|]. destruct (b64_val c); lia. Qed.
Lemma run_before s : forall j, (j < b64_run s)%nat -> exists c v, nth_error s j = Some c /\ b64_val c = Some v.
Proof.
  induction s as [|c t IH]; intros j H; cbn [b64_run] in H; [lia|]. destruct (b64_val c) as [v|] eqn:E; [|lia].
  destruct j as [|j]; [exists c, v; split; [reflexivity|exact E]|]. apply IH. lia.
Qed.
Lemma run_at s : (b64_run s < length s)%nat -> exists c t, skipn (b64_run s) s = c :: t /\ nth_error s (b64_run s) = Some c /\ nth (b64_run s) s 0 = c /\ b64_val c = None.
Proof.
  induction s as [|c t IH]; cbn [b64_run length]; intros H; [lia|]. destruct (b64_val c) as [v|] eqn:E.
  - cbn [skipn nth_error nth]. apply IH. lia.
  - exists c, t. repeat split. exact E.
Qed.
Lemma run_char s k : (k <= length s)%nat -> (forall j, (j < k)%nat -> exists c v, nth_error s j = Some c /\ b64_val c = Some v) ->
  (forall c, nth_error s k = Some c -> b64_val c = None) -> b64_run s = k.
Proof.
  revert k. induction s as [|c t IH]; intros k L B A; cbn [length] in L; [cbn; lia|]. cbn [b64_run]. destruct k as [|k].
  - rewrite (A c eq_refl). reflexivity.
  - destruct (B 0%nat ltac:(lia)) as (c' & v & E & V). injection E as <-. rewrite V. f_equal. apply IH; [lia| |].
    + intros j Hj. destruct (B (S j) ltac:(lia)) as (c' & v' & E' & V'). exists c', v'. split; assumption.
    + intros x Hx. apply (A x). exact Hx.
Qed.
Lemma tail_length s : b64_tail_ok (b64_run s mod 4) (skipn (b64_run s) s) = true -> (length s mod 4 <> 1)%nat -> (b64_run s mod 4 <> 1)%nat.
Proof.
  intros T L E. pose proof (run_le s). destruct (skipn (b64_run s) s) as [|c t] eqn:K.
  - apply (f_equal (@length Z)) in K. rewrite skipn_length in K. cbn [length] in K. apply L. replace (length s) with (b64_run s) by lia. exact E.
  - cbn [b64_tail_ok] in T. rewrite E in T. rewrite !Bool.andb_true_iff in T. destruct T as [[_ T] _]. discriminate T.
Qed.
(** Decoding succeeds exactly if no error is found. *)
Lemma decode_shape s : (exists bs, b64_decode s = Ok bs) <->
  (length s mod 4 <> 1)%nat /\ b64_tail_ok (b64_run s mod 4) (skipn (b64_run s) s) = true /\
  b64_value (nth (b64_run s - 1) s 0) mod b64_spare (b64_run s) = 0.
Proof.
  unfold b64_decode. destruct (Nat.eqb_spec (length s mod 4) 1) as [E|E].
  - split; [intros [bs H]; discriminate H|]. intros (H & _). contradiction.
  - rewrite symbols_run by lia. cbn [Nat.add]. destruct (b64_tail_ok _ _) eqn:T.
    + pose proof (tail_length s T E) as K. pose proof (run_le s) as RL.
      set (vs := map b64_value (firstn (b64_run s) s)).
      assert (LV : length vs = b64_run s) by (unfold vs; rewrite map_length, firstn_length; lia).
      destruct (quads_none vs) as [Q D].
      { apply Forall_forall. intros v Hv. apply in_map_iff in Hv as (c & <- & _). apply value_range. }
      { rewrite LV. exact K. }
      rewrite LV in Q.
      assert (LL : last vs 0 mod b64_spare (b64_run s) = b64_value (nth (b64_run s - 1) s 0) mod b64_spare (b64_run s)).
      { destruct (Nat.eq_dec (b64_run s) 0) as [Z|Z].
        - rewrite Z. change (b64_spare 0) with 1. now rewrite !Z.mod_1_r.
        - f_equal. assert (NL : last vs 0 = nth (length vs - 1) vs 0).
          { clear. induction vs as [|a [|b l] IH]; try reflexivity. change (last (a :: b :: l) 0) with (last (b :: l) 0). rewrite IH. cbn [length]. rewrite !Nat.sub_succ, !Nat.sub_0_r. reflexivity. }
          rewrite NL, LV. unfold vs. rewrite (nth_indep _ 0 (b64_value 0)) by (rewrite map_length, firstn_length; lia). rewrite map_nth. f_equal.
          assert (H : (b64_run s - 1 < b64_run s)%nat) by lia. revert H. generalize (b64_run s - 1)%nat. generalize (b64_run s). clear. intros n i H.
          revert i n H. induction s as [|c t IH]; intros [|i] [|n] H; cbn [firstn nth]; try lia; try reflexivity. apply IH. lia. }
      rewrite <- LL, <- Q. split.
      * intros H. split; [exact E|]. split; [reflexivity|]. destruct D as [D|D]; [exact D|]. rewrite D in H. destruct H as [bs H]. discriminate H.
      * intros (_ & _ & bs & H). rewrite H. now exists bs.
    + split; [intros [bs H]; discriminate H|]. intros (_ & H & _). discriminate H.
Qed.
