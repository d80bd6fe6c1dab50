(** Lemmas about Fmt.v and the chunking functions of Db.v. *)
From Verif Require Import Base Base_facts Fmt Db Spec.
From Coq Require Import ZifyBool ZifyNat.
Local Open Scope Z_scope.
Ltac Zify.zify_post_hook ::= Z.div_mod_to_equations.

Lemma map_seq_shift {A} (f : nat -> A) a n :
  map f (seq a n) = map (fun i => f (a + i)%nat) (seq 0 n).
Proof.
  revert f a; induction n as [|n IH]; intros f a; simpl; auto. f_equal; [f_equal; lia|].
  rewrite (IH f), (IH _ 1%nat). apply map_ext. intros i. f_equal. lia.
Qed.

(** ** bits_value *)
Lemma bits_value_range bits : 0 <= bits_value bits < 2 ^ Z.of_nat (length bits).
Proof.
  induction bits as [|b t IH].
  - simpl; lia.
  - cbn [bits_value length]. rewrite Nat2Z.inj_succ, Z.pow_succ_r by lia.
    destruct b; simpl Z.b2z; lia.
Qed.

Lemma bits_value_testbit bits i :
  Z.testbit (bits_value bits) (Z.of_nat i) = nth i bits false.
Proof.
  revert i; induction bits as [|b t IH]; intros [|i].
  - apply Z.bits_0.
  - apply Z.bits_0.
  - cbn [bits_value nth]. change (Z.of_nat 0) with 0.
    rewrite Z.add_comm. apply Z.testbit_0_r.
  - cbn [bits_value nth]. rewrite Nat2Z.inj_succ, Z.add_comm.
    rewrite Z.testbit_succ_r by lia. apply IH.
Qed.

Lemma low_bits_value l n : low_bits (bits_value l) n = fit n l.
Proof.
  unfold low_bits, fit. apply (list_eq_nth _ _ false).
  - rewrite map_length, seq_length, firstn_length, app_length, repeat_length. lia.
  - intros i Hi. rewrite map_length, seq_length in Hi.
    rewrite nth_map_seq by auto. rewrite bits_value_testbit.
    assert (E : forall (l : list bool) k i, (i < k)%nat -> nth i (firstn k l) false = nth i l false).
    { clear. induction l as [|x l IH]; intros [|k] [|i] H; simpl; auto; try lia. apply IH; lia. }
    rewrite E by auto.
    destruct (Nat.lt_ge_cases i (length l)).
    + now rewrite app_nth1.
    + rewrite app_nth2 by auto. rewrite nth_overflow by auto.
      destruct (nth_in_or_default (i - length l) (repeat false n) false) as [H1|H1]; auto.
      now apply repeat_spec in H1.
Qed.

Lemma low_bits_length x n : length (low_bits x n) = n.
Proof. unfold low_bits. now rewrite map_length, seq_length. Qed.

Lemma bits_value_low_bits x n : 0 <= x < 2 ^ Z.of_nat n -> bits_value (low_bits x n) = x.
Proof.
  intros Hx. apply Z.bits_inj'. intros k Hk.
  rewrite <- (Z2Nat.id k) by auto. rewrite bits_value_testbit. unfold low_bits.
  destruct (Nat.lt_ge_cases (Z.to_nat k) n).
  - now rewrite nth_map_seq.
  - rewrite nth_overflow by (rewrite map_length, seq_length; auto).
    symmetry. rewrite Z2Nat.id by auto.
    destruct (Z.eq_dec x 0) as [->|]; [apply Z.bits_0|].
    apply Z.bits_above_log2; [lia|].
    apply Z.log2_lt_pow2; [lia|].
    apply Z.lt_le_trans with (2 ^ Z.of_nat n); [lia|]. apply Z.pow_le_mono_r; lia.
Qed.

Lemma fit_same l : fit (length l) l = l.
Proof. unfold fit. rewrite firstn_app, Nat.sub_diag, firstn_all. apply app_nil_r. Qed.

Lemma fit_length n l : length (fit n l) = n.
Proof. unfold fit. rewrite firstn_length, app_length, repeat_length. lia. Qed.

Lemma fit_le n l : (n <= length l)%nat -> fit n l = firstn n l.
Proof.
  intros H. unfold fit. rewrite firstn_app. replace (n - length l)%nat with 0%nat by lia.
  apply app_nil_r.
Qed.

Lemma fit_ge n l : (length l <= n)%nat -> fit n l = l ++ repeat false (n - length l).
Proof.
  intros H. unfold fit. rewrite firstn_app. rewrite firstn_all2 by auto. f_equal.
  clear H. generalize (n - length l)%nat as k, (Nat.le_sub_l n (length l)).
  intros k Hk. replace n with (k + (n - k))%nat by lia. rewrite repeat_app.
  rewrite firstn_app, repeat_length, Nat.sub_diag. simpl.
  rewrite firstn_all2 by (rewrite repeat_length; lia). apply app_nil_r.
Qed.

(** ** u8_to_bits_le *)
Lemma u8_to_bits_le_spec b : u8_to_bits_le b = low_bits b 8.
Proof.
  unfold u8_to_bits_le, low_bits. apply map_ext_in. intros i _.
  set (n := Z.of_nat i). assert (Hn : 0 <= n) by lia. clearbody n.
  destruct (Z.testbit b n) eqn:E.
  - apply Z.ltb_lt.
    assert (Z.land (2 ^ n) b <> 0).
    { intros H0. assert (Z.testbit (Z.land (2 ^ n) b) n = true).
      { rewrite Z.land_spec, E, Z.pow2_bits_true; auto. }
      rewrite H0, Z.bits_0 in H. discriminate. }
    assert (0 <= Z.land (2 ^ n) b) by (apply Z.land_nonneg; left; apply Z.pow_nonneg; lia).
    lia.
  - apply Z.ltb_ge. replace (Z.land (2 ^ n) b) with 0; [lia|].
    symmetry. apply Z.bits_inj'. intros k Hk. rewrite Z.bits_0, Z.land_spec.
    destruct (Z.eq_dec k n) as [->|].
    + rewrite E. apply andb_false_r.
    + rewrite Z.pow2_bits_false by auto. reflexivity.
Qed.

Lemma fold_left_app_concat {A} (ls : list (list A)) acc :
  fold_left (fun acc next => acc ++ next) ls acc = acc ++ concat ls.
Proof.
  revert acc; induction ls as [|l ls IH]; simpl; intros acc.
  - now rewrite app_nil_r.
  - now rewrite IH, app_assoc.
Qed.

Lemma nth_concat_const {A} (ls : list (list A)) n i d :
  (0 < n)%nat -> Forall (fun l => length l = n) ls -> (i < n * length ls)%nat ->
  nth i (concat ls) d = nth (i mod n) (nth (i / n) ls []) d.
Proof.
  intros Hn H. revert i. induction H as [|l ls Hl _ IH]; simpl; intros i Hi; [lia|].
  destruct (Nat.lt_ge_cases i n).
  - rewrite app_nth1 by lia. now rewrite Nat.mod_small, Nat.div_small by auto.
  - rewrite app_nth2 by lia. rewrite IH by lia. rewrite Hl.
    replace i with ((i - n) + 1 * n)%nat at 3 4 by lia.
    rewrite Nat.mod_add, Nat.div_add by lia.
    replace ((i - n) / n + 1)%nat with (S ((i - n) / n)) by lia. reflexivity.
Qed.

Lemma length_concat_const {A} (ls : list (list A)) n :
  Forall (fun l => length l = n) ls -> length (concat ls) = (n * length ls)%nat.
Proof. induction 1; simpl; auto. rewrite app_length. lia. Qed.

Lemma bytes_to_bits_concat bytes :
  bytes_to_bits_le bytes = concat (map (fun b => low_bits b 8) bytes).
Proof.
  unfold bytes_to_bits_le. rewrite fold_left_app_concat. simpl. f_equal.
  apply map_ext. apply u8_to_bits_le_spec.
Qed.

Lemma Forall_low_bits bytes :
  Forall (fun l : list bool => length l = 8%nat) (map (fun b => low_bits b 8) bytes).
Proof. apply Forall_map, Forall_forall. intros; apply low_bits_length. Qed.

Lemma bytes_to_bits_length bytes : length (bytes_to_bits_le bytes) = (8 * length bytes)%nat.
Proof.
  rewrite bytes_to_bits_concat, (length_concat_const _ 8) by apply Forall_low_bits.
  now rewrite map_length.
Qed.

Lemma bytes_to_bits_spec bytes : bytes_to_bits_le bytes = byte_string_bits bytes.
Proof.
  apply (list_eq_nth _ _ false).
  - unfold byte_string_bits. now rewrite map_length, seq_length, bytes_to_bits_length.
  - intros i Hi. rewrite bytes_to_bits_length in Hi.
    unfold byte_string_bits. rewrite nth_map_seq by auto.
    rewrite bytes_to_bits_concat.
    rewrite (nth_concat_const _ 8) by (try apply Forall_low_bits; try rewrite map_length; lia).
    unfold byte_string_bit.
    rewrite (nth_map' _ _ _ _ 0) by (apply Nat.div_lt_upper_bound; lia).
    unfold low_bits. rewrite nth_map_seq; auto. apply Nat.mod_upper_bound; lia.
Qed.

(** ** bits_to_bytes_le *)
Definition byte_at (bits : list bool) (j : nat) : Z :=
  bits_value (firstn 8 (skipn (8 * j) bits)).

Lemma bits_value_app l1 l2 :
  bits_value (l1 ++ l2) = bits_value l1 + 2 ^ Z.of_nat (length l1) * bits_value l2.
Proof.
  induction l1 as [|b t IH].
  - cbn [app bits_value length]. change (2 ^ Z.of_nat 0) with 1. lia.
  - cbn [app bits_value length]. rewrite IH, Nat2Z.inj_succ, Z.pow_succ_r by lia. lia.
Qed.

Lemma bits_loop dbg bits N :
  (length bits <= 8 * N)%nat ->
  foldM (bits_step dbg) (combine (seq 0 (length bits)) bits) (repeat 0 N)
  = Ok (map (byte_at bits) (seq 0 N)).
Proof.
  induction bits as [|b bits IH] using rev_ind; intros HN.
  - simpl. f_equal. apply (list_eq_nth _ _ 0).
    + now rewrite repeat_length, map_length, seq_length.
    + intros i Hi. rewrite repeat_length in Hi. rewrite nth_map_seq by auto.
      unfold byte_at. rewrite skipn_nil. simpl.
      destruct (nth_in_or_default i (repeat 0 N) 0) as [H|H]; auto. now apply repeat_spec in H.
  - rewrite app_length in HN |- *. simpl in HN |- *.
    rewrite Nat.add_1_r, seq_S'. rewrite combine_app by now rewrite seq_length.
    rewrite foldM_app, IH by lia. cbn [bind combine foldM bits_step Nat.add]. set (n := length bits) in *.
    assert (Hn8 : (n / 8 < N)%nat) by lia.
    assert (Hother : forall j, j <> (n / 8)%nat -> byte_at (bits ++ [b]) j = byte_at bits j).
    { intros j Hj. unfold byte_at. rewrite skipn_app. fold n.
      destruct (Nat.lt_ge_cases j (n / 8)) as [H|H].
      - rewrite firstn_app.
        replace (8 - length (skipn (8 * j) bits))%nat with 0%nat
          by (rewrite skipn_length; fold n; lia).
        simpl. now rewrite app_nil_r.
      - rewrite (skipn_all2 bits) by (fold n; lia).
        rewrite (skipn_all2 [b]) by (simpl; lia). reflexivity. }
    assert (Hthis : byte_at (bits ++ [b]) (n / 8)
                    = byte_at bits (n / 8) + 2 ^ Z.of_nat (n mod 8) * Z.b2z b
                    /\ 0 <= byte_at bits (n / 8) < 2 ^ Z.of_nat (n mod 8)).
    { unfold byte_at. rewrite skipn_app. fold n.
      replace (8 * (n / 8) - n)%nat with 0%nat by lia.
      rewrite skipn_O.
      set (t := skipn (8 * (n / 8)) bits).
      assert (Ht : length t = (n mod 8)%nat) by (unfold t; rewrite skipn_length; fold n; lia).
      rewrite (firstn_all2 (n := 8) t) by lia.
      rewrite (firstn_all2 (n := 8) (t ++ [b])) by (rewrite app_length; simpl; lia).
      rewrite bits_value_app, Ht. cbn [bits_value]. split; [lia|].
      rewrite <- Ht. apply bits_value_range. }
    destruct Hthis as [Hthis Hrange].
    assert (Hpow : 2 ^ Z.of_nat (n mod 8) * 2 <= 256).
    { replace (2 ^ Z.of_nat (n mod 8) * 2) with (2 ^ Z.of_nat (S (n mod 8)))
        by (rewrite Nat2Z.inj_succ, Z.pow_succ_r by lia; lia).
      change 256 with (2 ^ 8). apply Z.pow_le_mono_r; lia. }
    destruct b.
    + rewrite (idx_nth _ _ 0) by (rewrite map_length, seq_length; auto).
      cbn [bind]. rewrite nth_map_seq by auto.
      unfold add8. rewrite chk_Ok by (unfold two8; lia). cbn [bind].
      rewrite set_lt by (rewrite map_length, seq_length; auto). cbn [bind]. f_equal.
      apply (list_eq_nth _ _ 0).
      * now rewrite length_upd, !map_length, !seq_length.
      * intros i Hi. rewrite length_upd, map_length, seq_length in Hi.
        rewrite nth_upd by (rewrite map_length, seq_length; auto).
        rewrite !nth_map_seq by auto.
        destruct (Nat.eqb_spec i (n / 8)) as [->|Hne].
        -- rewrite Hthis. change (Z.b2z true) with 1. lia.
        -- symmetry. now apply Hother.
    + cbn [bind]. f_equal. apply map_ext_in. intros j Hj.
      destruct (Nat.eq_dec j (n / 8)) as [->|Hne].
      * rewrite Hthis. change (Z.b2z false) with 0. lia.
      * symmetry. now apply Hother.
Qed.

Lemma bits_to_bytes_closed dbg bits :
  bits_to_bytes_le dbg bits = Ok (map (byte_at bits) (seq 0 ((length bits + 7) / 8)%nat)).
Proof. unfold bits_to_bytes_le. apply bits_loop. lia. Qed.

Lemma byte_at_is_u8 bits j : is_u8 (byte_at bits j).
Proof.
  unfold byte_at, is_u8, two8. pose proof (bits_value_range (firstn 8 (skipn (8 * j) bits))) as H.
  pose proof (firstn_le_length 8 (skipn (8 * j) bits)).
  split; [lia|]. apply Z.lt_le_trans with (1 := proj2 H). change 256 with (2 ^ 8).
  apply Z.pow_le_mono_r; lia.
Qed.

Lemma nth_firstn' {A} (l : list A) k i d : (i < k)%nat -> nth i (firstn k l) d = nth i l d.
Proof.
  revert k i; induction l as [|x l IH]; intros [|k] [|i] H; simpl; auto; try lia. apply IH; lia.
Qed.
Lemma nth_skipn' {A} (l : list A) k i d : nth i (skipn k l) d = nth (k + i) l d.
Proof. revert k; induction l as [|x l IH]; intros [|k]; simpl; auto. now destruct i. Qed.

Lemma byte_string_bit_byte_at bits n i :
  (i / 8 < n)%nat -> byte_string_bit (map (byte_at bits) (seq 0 n)) i = nth i bits false.
Proof.
  intros Hi. unfold byte_string_bit. rewrite nth_map_seq by auto.
  unfold byte_at. rewrite bits_value_testbit.
  rewrite nth_firstn' by (apply Nat.mod_upper_bound; lia).
  rewrite nth_skipn'. f_equal. lia.
Qed.

Lemma bits_to_bytes_roundtrip dbg bits :
  exists bytes, bits_to_bytes_le dbg bits = Ok bytes /\ Forall is_u8 bytes /\
    length bytes = ((length bits + 7) / 8)%nat /\
    bytes_to_bits_le bytes = bits ++ repeat false (8 * length bytes - length bits).
Proof.
  rewrite bits_to_bytes_closed. eexists; split; [reflexivity|].
  rewrite map_length, seq_length. split.
  { apply Forall_map, Forall_forall. intros; apply byte_at_is_u8. }
  split; [reflexivity|].
  set (n := ((length bits + 7) / 8)%nat).
  rewrite bytes_to_bits_spec. unfold byte_string_bits. rewrite map_length, seq_length.
  apply (list_eq_nth _ _ false).
  - rewrite map_length, seq_length, app_length, repeat_length. unfold n. lia.
  - intros i Hi. rewrite map_length, seq_length in Hi. rewrite nth_map_seq by auto.
    rewrite byte_string_bit_byte_at by lia.
    destruct (Nat.lt_ge_cases i (length bits)).
    + now rewrite app_nth1.
    + rewrite app_nth2, (nth_overflow bits) by auto.
      destruct (nth_in_or_default (i - length bits) (repeat false (8 * n - length bits)) false)
        as [H1|H1]; auto. now apply repeat_spec in H1.
Qed.

Lemma bytes_roundtrip dbg bytes :
  Forall is_u8 bytes -> bits_to_bytes_le dbg (bytes_to_bits_le bytes) = Ok bytes.
Proof.
  intros Hb. rewrite bits_to_bytes_closed, bytes_to_bits_length. f_equal.
  replace ((8 * length bytes + 7) / 8)%nat with (length bytes) by lia.
  apply (list_eq_nth _ _ 0).
  - now rewrite map_length, seq_length.
  - intros j Hj. rewrite map_length, seq_length in Hj. rewrite nth_map_seq by auto.
    unfold byte_at. rewrite bytes_to_bits_concat.
    rewrite Forall_forall in Hb. specialize (Hb (nth j bytes 0) (nth_In _ _ Hj)).
    rewrite <- (bits_value_low_bits (nth j bytes 0) 8) by exact Hb. f_equal.
    clear Hb. revert j Hj. induction bytes as [|b t IH]; intros [|j] Hj; try (simpl in Hj; lia).
    + reflexivity.
    + replace (8 * S j)%nat with (8 + 8 * j)%nat by lia.
      cbn [map concat nth]. rewrite skipn_app, low_bits_length.
      rewrite (skipn_all2 (low_bits b 8)) by (rewrite low_bits_length; lia).
      replace (8 + 8 * j - 8)%nat with (8 * j)%nat by lia.
      cbn [app]. apply IH. simpl in Hj; lia.
Qed.

(** ** u32 *)
Lemma le_bytes_bits k x :
  concat (map (fun b => low_bits b 8) (le_bytes k x)) = low_bits x (8 * k).
Proof.
  revert x; induction k as [|k IH]; intros x; [reflexivity|].
  cbn [le_bytes map concat]. rewrite IH. unfold low_bits.
  replace (8 * S k)%nat with (8 + 8 * k)%nat by lia. rewrite seq_app, map_app. f_equal.
  - apply map_ext_in. intros i Hi. apply in_seq in Hi.
    change 256 with (2 ^ 8). rewrite Z.mod_pow2_bits_low by lia. reflexivity.
  - rewrite (map_seq_shift _ (0 + 8)). apply map_ext_in. intros i _. change 256 with (2 ^ 8).
    rewrite Z.div_pow2_bits by lia. f_equal. lia.
Qed.

Lemma u32_to_bits_le_closed x n :
  u32_to_bits_le x n = if (n <=? 32)%nat then Ok (low_bits x n) else Panic.
Proof.
  unfold u32_to_bits_le. rewrite flat_map_concat_map.
  rewrite (map_ext _ (fun b => low_bits b 8)) by apply u8_to_bits_le_spec.
  rewrite le_bytes_bits. change (8 * 4)%nat with 32%nat. rewrite low_bits_length.
  destruct (Nat.leb_spec n 32); auto. f_equal.
  apply (list_eq_nth _ _ false).
  - rewrite firstn_length, !low_bits_length. lia.
  - intros i Hi. rewrite firstn_length, low_bits_length in Hi.
    rewrite nth_firstn' by lia. unfold low_bits. rewrite !nth_map_seq by lia. reflexivity.
Qed.

Lemma skipn_skipn' {A} (l : list A) a b : skipn a (skipn b l) = skipn (b + a) l.
Proof. revert l; induction b as [|b IH]; intros [|x l]; simpl; auto. now rewrite skipn_nil. Qed.

Lemma of_le_bytes_byte_at n bits :
  (length bits <= 8 * n)%nat -> of_le_bytes (map (byte_at bits) (seq 0 n)) = bits_value bits.
Proof.
  revert bits; induction n as [|n IH]; intros bits H.
  - destruct bits; [reflexivity|simpl in H; lia].
  - cbn [seq map of_le_bytes]. rewrite map_seq_shift.
    rewrite (map_ext _ (byte_at (skipn 8 bits))).
    2:{ intros j. unfold byte_at. rewrite skipn_skipn'. do 3 f_equal. lia. }
    rewrite IH by (rewrite skipn_length; lia).
    unfold byte_at. rewrite Nat.mul_0_r, skipn_O.
    rewrite <- (firstn_skipn 8 bits) at 3. rewrite bits_value_app.
    destruct (Nat.lt_ge_cases (length bits) 8) as [Hl|Hl].
    + rewrite (skipn_all2 bits) by lia. simpl. lia.
    + rewrite firstn_length_le by lia. reflexivity.
Qed.

Lemma of_le_bytes_app l1 l2 :
  of_le_bytes (l1 ++ l2) = of_le_bytes l1 + 256 ^ Z.of_nat (length l1) * of_le_bytes l2.
Proof.
  induction l1 as [|b t IH].
  - cbn [app of_le_bytes length]. change (256 ^ Z.of_nat 0) with 1. lia.
  - cbn [app of_le_bytes length]. rewrite IH, Nat2Z.inj_succ, Z.pow_succ_r by lia. lia.
Qed.

Lemma of_le_bytes_zeros n : of_le_bytes (repeat 0 n) = 0.
Proof. induction n; simpl; auto. now rewrite IHn. Qed.

Lemma bits_to_u32_le_closed dbg bits :
  bits_to_u32_le dbg bits =
  if (length bits <=? 32)%nat then Ok (bits_value bits) else Err EInputSize.
Proof.
  unfold bits_to_u32_le. rewrite bits_to_bytes_closed. cbn [bind].
  rewrite map_length, seq_length. set (n := ((length bits + 7) / 8)%nat).
  destruct (Nat.leb_spec (length bits) 32) as [H|H].
  - destruct (Nat.ltb_spec 4 n) as [H4|H4]; [unfold n in *; lia|].
    unfold u32_sized_bytes_from_vec. rewrite app_length, map_length, seq_length, repeat_length.
    destruct (Nat.eqb_spec (n + (4 - n)) 4) as [_|]; [|lia]. cbn [bind]. f_equal.
    rewrite of_le_bytes_app, of_le_bytes_zeros, of_le_bytes_byte_at by (unfold n; lia). lia.
  - destruct (Nat.ltb_spec 4 n) as [H4|H4]; [reflexivity|unfold n in *; lia].
Qed.

(** ** Chunking *)
Lemma chunk_row_closed dbg bits pb w :
  (1 <= pb <= 32)%nat -> (w * pb <= length bits + pb)%nat ->
  chunk_row dbg bits pb w
  = Ok (map (fun i => bits_value (firstn pb (skipn (i * pb) bits))) (seq 0 w)).
Proof.
  intros Hpb Hw. unfold chunk_row. apply mapM_Ok. intros i Hi. apply in_seq in Hi.
  assert (Hle : (i * pb <= length bits)%nat) by nia.
  cbv zeta. unfold slice_to, slice_from.
  destruct (Nat.ltb_spec ((i + 1) * pb) (length bits)) as [H|H].
  - replace (((i * pb <=? (i + 1) * pb) && ((i + 1) * pb <=? length bits))%nat) with true
      by (symmetry; apply andb_true_intro; split; apply Nat.leb_le; nia).
    cbn [bind]. replace ((i + 1) * pb - i * pb)%nat with pb by nia.
    rewrite bits_to_u32_le_closed.
    destruct (Nat.leb_spec (length (firstn pb (skipn (i * pb) bits))) 32) as [_|H1]; auto.
    rewrite firstn_length in H1. lia.
  - destruct (Nat.leb_spec (i * pb) (length bits)) as [_|]; [|lia].
    cbn [bind]. rewrite (firstn_all2 (n := pb)) by (rewrite skipn_length; nia).
    rewrite bits_to_u32_le_closed.
    destruct (Nat.leb_spec (length (skipn (i * pb) bits)) 32) as [_|H1]; auto.
    rewrite skipn_length in H1. nia.
Qed.

Lemma chunk_row_panic dbg bits pb w :
  (1 <= pb <= 32)%nat -> (length bits + pb < w * pb)%nat -> chunk_row dbg bits pb w = Panic.
Proof.
  intros Hpb Hw.
  (* first failing index: length bits / pb + 1 *)
  set (k := (length bits / pb + 1)%nat).
  assert (Hd : (length bits = pb * (length bits / pb) + length bits mod pb)%nat)
    by (apply Nat.div_mod; lia).
  assert (Hm : (length bits mod pb < pb)%nat) by (apply Nat.mod_upper_bound; lia).
  assert (Hk : (k < w)%nat) by (unfold k; nia).
  unfold chunk_row. replace (seq 0 w) with (seq 0 k ++ k :: seq (S k) (w - S k)).
  2:{ change (k :: seq (S k) (w - S k)) with (seq k (S (w - S k))).
      rewrite <- seq_app. f_equal. lia. }
  rewrite mapM_first_fail.
  - cbv zeta. destruct (Nat.ltb_spec ((k + 1) * pb) (length bits)) as [H|H]; [unfold k in *; nia|].
    unfold slice_from. destruct (Nat.leb_spec (k * pb) (length bits)) as [H1|H1]; [unfold k in *; nia|].
    reflexivity.
  - intros i Hi. apply in_seq in Hi.
    assert (Hle : (i * pb <= length bits)%nat) by (unfold k in *; nia).
    assert (Hc : chunk_row dbg bits pb (S i) = Ok (map (fun i => bits_value (firstn pb (skipn (i * pb) bits))) (seq 0 (S i))))
      by (apply chunk_row_closed; auto; nia).
    unfold chunk_row in Hc. apply (mapM_seq_Ok _ _ _ 0) in Hc as [_ Hc].
    eexists. apply (Hc i). lia.
Qed.

(** ** Re-assembly *)
Lemma bytes_from_u32_slice_closed dbg v pb total :
  (1 <= pb <= 32)%nat ->
  bytes_from_u32_slice dbg v pb total =
  bits_to_bytes_le dbg
    (concat (map (fun i => low_bits (nth i v 0)
                             (if (i =? length v - 1)%nat then (total mod pb)%nat else pb))
                 (seq 0 (length v)))).
Proof.
  intros Hpb. unfold bytes_from_u32_slice, remn.
  destruct (Nat.eqb_spec pb 0); [lia|]. cbn [bind].
  assert (Hm : (total mod pb < pb)%nat) by (apply Nat.mod_upper_bound; lia).
  rewrite (foldM_fold_left _ (fun bits i => bits ++ low_bits (nth i v 0)
       (if (i =? length v - 1)%nat then (total mod pb)%nat else pb))).
  - cbn [bind]. f_equal.
    enough (E : forall l acc, fold_left (fun bits i => bits ++ low_bits (nth i v 0)
       (if (i =? length v - 1)%nat then (total mod pb)%nat else pb)) l acc =
       acc ++ concat (map (fun i => low_bits (nth i v 0)
       (if (i =? length v - 1)%nat then (total mod pb)%nat else pb)) l)) by apply E.
    induction l as [|i l IH]; intros acc; simpl.
    + now rewrite app_nil_r.
    + now rewrite IH, app_assoc.
  - intros bits i Hi. apply in_seq in Hi. rewrite (idx_nth _ _ 0) by lia. cbn [bind].
    rewrite u32_to_bits_le_closed.
    destruct (Nat.eqb_spec i (length v - 1)); cbn [negb].
    + destruct (Nat.leb_spec (total mod pb) 32); [reflexivity|lia].
    + destruct (Nat.leb_spec pb 32); [reflexivity|lia].
Qed.

Lemma concat_chunks (bits : list bool) pb n :
  (n * pb <= length bits)%nat ->
  concat (map (fun i => firstn pb (skipn (i * pb) bits)) (seq 0 n)) = firstn (n * pb) bits.
Proof.
  induction n as [|n IH]; intros H; [reflexivity|].
  rewrite seq_S', map_app, concat_app, IH by nia. cbn [map concat Nat.add]. rewrite app_nil_r.
  replace (S n * pb)%nat with (n * pb + pb)%nat by lia.
  rewrite <- (firstn_skipn (n * pb) bits) at 3. rewrite firstn_app.
  rewrite firstn_firstn. rewrite firstn_length_le by nia.
  replace (Nat.min (n * pb + pb) (n * pb)) with (n * pb)%nat by lia.
  f_equal. f_equal. lia.
Qed.

Lemma firstn_firstn_fit (t : list bool) r pb :
  (r <= pb)%nat -> fit r (firstn pb t) = fit r t.
Proof.
  intros H. unfold fit. apply (list_eq_nth _ _ false).
  - rewrite !firstn_length, !app_length, !repeat_length, firstn_length. lia.
  - intros i Hi. rewrite firstn_length, app_length, repeat_length in Hi.
    rewrite !nth_firstn' by lia.
    assert (E : forall l : list bool, nth i (l ++ repeat false r) false = nth i l false).
    { intros l. destruct (Nat.lt_ge_cases i (length l)).
      - now rewrite app_nth1.
      - rewrite app_nth2, (nth_overflow l) by auto.
        destruct (nth_in_or_default (i - length l) (repeat false r) false) as [H1|H1]; auto.
        now apply repeat_spec in H1. }
    rewrite !E. apply nth_firstn'. lia.
Qed.

Lemma fit_split a r bits :
  (a <= length bits)%nat -> firstn a bits ++ fit r (skipn a bits) = fit (a + r) bits.
Proof.
  intros Ha. unfold fit. apply (list_eq_nth _ _ false).
  - rewrite !app_length, !firstn_length, !app_length, !repeat_length, skipn_length. lia.
  - intros i Hi.
    rewrite app_length, !firstn_length, app_length, repeat_length, skipn_length in Hi.
    assert (E : forall (l : list bool) k, nth i (l ++ repeat false k) false = nth i l false).
    { intros l k. destruct (Nat.lt_ge_cases i (length l)).
      - now rewrite app_nth1.
      - rewrite app_nth2, (nth_overflow l) by auto.
        destruct (nth_in_or_default (i - length l) (repeat false k) false) as [H1|H1]; auto.
        now apply repeat_spec in H1. }
    rewrite (nth_firstn' (bits ++ _)) by lia. rewrite E.
    destruct (Nat.lt_ge_cases i a).
    + rewrite app_nth1 by (rewrite firstn_length; lia). now apply nth_firstn'.
    + rewrite app_nth2 by (rewrite firstn_length; lia). rewrite firstn_length_le by lia.
      rewrite nth_firstn' by lia.
      assert (E' : forall (l : list bool) k j, nth j (l ++ repeat false k) false = nth j l false).
      { intros l k j. destruct (Nat.lt_ge_cases j (length l)).
        - now rewrite app_nth1.
        - rewrite app_nth2, (nth_overflow l) by auto.
          destruct (nth_in_or_default (j - length l) (repeat false k) false) as [H1|H1]; auto.
          now apply repeat_spec in H1. }
      rewrite E', nth_skipn'. f_equal. lia.
Qed.

Definition row_of_bits (bits : list bool) (pb w : nat) : list Z :=
  map (fun i => bits_value (firstn pb (skipn (i * pb) bits))) (seq 0 w).

Lemma row_of_bits_length bits pb w : length (row_of_bits bits pb w) = w.
Proof. unfold row_of_bits. now rewrite map_length, seq_length. Qed.

Lemma reassemble dbg bits pb w total :
  (1 <= pb <= 32)%nat -> (1 <= w)%nat -> (w * pb <= length bits + pb)%nat ->
  bytes_from_u32_slice dbg (row_of_bits bits pb w) pb total
  = bits_to_bytes_le dbg (fit ((w - 1) * pb + total mod pb) bits).
Proof.
  intros Hpb Hw1 Hw. rewrite bytes_from_u32_slice_closed by auto. f_equal.
  rewrite row_of_bits_length.
  assert (Hseq : seq 0 w = seq 0 (w - 1) ++ [(w - 1)%nat]).
  { destruct w as [|w']; [lia|]. rewrite seq_S'. cbn [Nat.add].
    now replace (S w' - 1)%nat with w' by lia. }
  rewrite Hseq.
  assert (Hm : (total mod pb < pb)%nat) by (apply Nat.mod_upper_bound; lia).
  rewrite map_app, concat_app. cbn [map concat]. rewrite app_nil_r, Nat.eqb_refl.
  rewrite (map_ext_in _ (fun i => firstn pb (skipn (i * pb) bits))).
  - rewrite concat_chunks by nia. unfold row_of_bits at 1. rewrite nth_map_seq by lia.
    rewrite low_bits_value, firstn_firstn_fit by lia. apply fit_split. nia.
  - intros i Hi. apply in_seq in Hi.
    destruct (Nat.eqb_spec i (w - 1)); [lia|].
    unfold row_of_bits. rewrite nth_map_seq by lia. rewrite low_bits_value.
    rewrite <- (fit_same (firstn pb (skipn (i * pb) bits))) at 2. f_equal.
    rewrite firstn_length, skipn_length. nia.
Qed.

(** ** Row width *)
Lemma get_row_width_pos es pb :
  (0 < pb)%nat -> exists w, get_row_width es pb = Ok w /\ is_ceil_div es pb w.
Proof.
  intros Hpb. unfold get_row_width, divn, remn.
  destruct (Nat.eqb_spec pb 0); [lia|]. cbn [bind]. eexists; split; [reflexivity|].
  pose proof (Nat.div_mod es pb ltac:(lia)) as Hd.
  pose proof (Nat.mod_upper_bound es pb ltac:(lia)) as Hm.
  unfold is_ceil_div. revert Hd Hm. generalize (es / pb)%nat as q, (es mod pb)%nat as r.
  intros q r Hd Hm. destruct (Nat.eqb_spec r 0); cbn [negb]; split; try nia.
Qed.

Lemma get_row_width_zero es : get_row_width es 0 = Panic.
Proof. reflexivity. Qed.

Lemma is_ceil_div_unique n d w w' : is_ceil_div n d w -> is_ceil_div n d w' -> w = w'.
Proof. intros [H1 H2] [H3 H4]. apply Nat.le_antisymm; auto. Qed.

Lemma ceil_notdiv es pb w :
  (0 < pb)%nat -> is_ceil_div es pb w -> (es mod pb <> 0)%nat ->
  (1 <= w)%nat /\ ((w - 1) * pb + es mod pb = es)%nat.
Proof.
  intros Hpb [H1 H2] Hm.
  pose proof (Nat.div_mod es pb ltac:(lia)) as Hd.
  pose proof (Nat.mod_upper_bound es pb ltac:(lia)) as Hm'.
  revert Hm Hd Hm'. generalize (es / pb)%nat as q, (es mod pb)%nat as r. intros q r Hm Hd Hm'.
  assert (w = q + 1)%nat.
  { apply Nat.le_antisymm; [apply H2; nia|]. nia. }
  subst w. split; [lia|]. nia.
Qed.

Lemma ceil_div es pb w :
  (0 < pb)%nat -> is_ceil_div es pb w -> (es mod pb = 0)%nat -> (w * pb = es)%nat.
Proof.
  intros Hpb [H1 H2] Hm.
  pose proof (Nat.div_mod es pb ltac:(lia)) as Hd.
  revert Hm Hd. generalize (es / pb)%nat as q, (es mod pb)%nat as r. intros q r Hm Hd.
  assert (w <= q)%nat by (apply H2; nia). nia.
Qed.
