(** Facts shared by the Xor and Fuse constructions: the hash-set tables and the queues. *)
From Coq Require Import Permutation.
From Verif Require Import Base Hash Xorf SpecFilter Base_facts Peel_facts KeyPeel_facts.
Local Open Scope Z_scope.

Lemma reduce_ok dbg r k : 0 <= r < two32 -> Z.of_nat k < two32 ->
  reduce dbg r k = Ok (Z.to_nat (Z.shiftr (r * Z.of_nat k) 32)) /\
  ((0 < k)%nat -> (Z.to_nat (Z.shiftr (r * Z.of_nat k) 32) < k)%nat).
Proof.
  intros Hr Hk. unfold reduce. unfold two32 in *.
  assert (Hp : 0 <= r * Z.of_nat k < two64) by (unfold two64; nia).
  rewrite chk_Ok by auto. cbn [bind]. split; [reflexivity|]. intros H0.
  rewrite Z.shiftr_div_pow2 by lia. change (2 ^ 32) with 4294967296.
  assert (0 <= r * Z.of_nat k / 4294967296 < Z.of_nat k); [|lia].
  split; [apply Z.div_pos; lia|]. apply Z.div_lt_upper_bound; [lia|]. nia.
Qed.

Lemma hs_add_ok dbg (H : list hset) i c m h : nth_error H i = Some (c, m) -> 0 <= c -> c + 1 < two32 ->
  hs_add dbg H i h = Ok (upd H i (c + 1, Z.lxor m h)).
Proof.
  intros E H0 H1. unfold hs_add. rewrite (proj2 (idx_Ok H i (c, m)) E). cbn [bind].
  unfold add32. rewrite chk_Ok by lia. cbn [bind]. apply set_lt. apply nth_error_Some. congruence.
Qed.
Lemma hs_sub_ok dbg (H : list hset) i c m h : nth_error H i = Some (c, m) -> 1 <= c -> c < two32 ->
  hs_sub dbg H i h = Ok (upd H i (c - 1, Z.lxor m h)).
Proof.
  intros E H0 H1. unfold hs_sub. rewrite (proj2 (idx_Ok H i (c, m)) E). cbn [bind].
  unfold sub32. rewrite chk_Ok by lia. cbn [bind]. apply set_lt. apply nth_error_Some. congruence.
Qed.
Lemma try_enqueue_ok cap (H : list hset) i c m q : nth_error H i = Some (c, m) -> (length q < cap)%nat ->
  try_enqueue cap H i q = Ok (if c =? 1 then (m, i) :: q else q).
Proof.
  intros E L. unfold try_enqueue. rewrite (proj2 (idx_Ok H i (c, m)) E). cbn [bind].
  destruct (c =? 1); [|reflexivity]. destruct (Nat.ltb_spec (length q) cap); [reflexivity|lia].
Qed.

Section Q.
Variables s1 s2 s3 : Z -> nat.
Variable n : nat.
Variable ok : Z -> Prop.
Hypothesis Hs : forall h, ok h -> (s1 h < n)%nat /\ (s2 h < n)%nat /\ (s3 h < n)%nat /\
  s1 h <> s2 h /\ s1 h <> s3 h /\ s2 h <> s3 h.
Notation inc := (inc s1 s2 s3).
Notation deg := (deg s1 s2 s3).
Notation hx := (hx s1 s2 s3).
Notation ainv := (ainv s1 s2 s3 n ok).

Lemma deg_le_length M j : deg M j <= Z.of_nat (length M).
Proof. induction M as [|h M IH]; cbn [Peel_facts.deg length]; [lia|]. destruct (inc h j); lia. Qed.

(** The queue after looking at the slots [js] of a removed key, [M] being what is left. *)
Fixpoint pushes (M : list Z) (js : list nat) (Q : list (Z * nat)) : list (Z * nat) :=
  match js with
  | [] => Q
  | j :: js => pushes M js (if deg M j =? 1 then (hx M j, j) :: Q else Q)
  end.

Lemma pushes_in M js : forall Q e, In e (pushes M js Q) <->
  In e Q \/ (In (snd e) js /\ deg M (snd e) = 1 /\ hx M (snd e) = fst e).
Proof.
  induction js as [|j js IH]; intros Q e; cbn [pushes In]; [tauto|]. rewrite IH.
  destruct (Z.eqb_spec (deg M j) 1) as [D|D].
  - cbn [In]. destruct e as [x y]. cbn [fst snd]. split.
    + intros [[E|A]|B]; [injection E as <- <-; tauto|tauto|tauto].
    + intros [A|([<-|A] & B & C)]; [tauto| |tauto]. left. left. congruence.
  - destruct e as [x y]. cbn [fst snd]. split; [tauto|]. intros [A|([<-|A] & B & C)]; [tauto|contradiction|tauto].
Qed.

Lemma pushes_nodup M js : forall Q, NoDup js -> NoDup (map snd Q) ->
  (forall j, In j js -> deg M j = 1 -> ~ In j (map snd Q)) -> NoDup (map snd (pushes M js Q)).
Proof.
  induction js as [|j js IH]; intros Q NJ NQ HQ; cbn [pushes]; auto.
  apply NoDup_cons_iff in NJ. destruct NJ as [NJ1 NJ2].
  destruct (Z.eqb_spec (deg M j) 1) as [D|D]; apply IH; auto.
  - cbn [map snd]. constructor; auto. apply HQ; auto. now left.
  - cbn [map snd]. intros j' Hj' Dj' [<-|K]; [contradiction|]. apply (HQ j'); auto. now right.
  - intros j' Hj' Dj'. apply HQ; auto. now right.
Qed.

Lemma pushes_perm M js : forall Q Q', Permutation Q Q' -> Permutation (pushes M js Q) (pushes M js Q').
Proof.
  induction js as [|j js IH]; intros Q Q' P; cbn [pushes]; auto. apply IH. destruct (deg M j =? 1); auto.
Qed.

Lemma pushes_length M js : forall Q, (length (pushes M js Q) <= length Q + length js)%nat.
Proof.
  induction js as [|j js IH]; intros Q; cbn [pushes length]; [lia|].
  destruct (deg M j =? 1); specialize (IH ((hx M j, j) :: Q)) as I1; specialize (IH Q) as I2; cbn [length] in *; lia.
Qed.

Lemma pushes_ext M M' js : (forall j, In j js -> deg M j = deg M' j /\ hx M j = hx M' j) ->
  forall Q, pushes M js Q = pushes M' js Q.
Proof.
  induction js as [|j js IH]; intros HJ Q; cbn [pushes]; auto.
  destruct (HJ j (or_introl eq_refl)) as [-> ->]. apply IH. intros. apply HJ. now right.
Qed.

Lemma ainv_qlen M0 Q stack M : ainv M0 Q stack M -> (length Q <= n)%nat.
Proof. intros []. rewrite <- (map_length snd).
  assert (I : incl (map snd Q) (seq 0 n)) by (intros j Hj; apply in_seq; specialize (ai_lt j Hj); lia).
  pose proof (NoDup_incl_length ai_nodup I) as L. now rewrite seq_length in L.
Qed.

Lemma ainv_lens M0 Q stack M : ainv M0 Q stack M -> (length stack + length M = length M0)%nat.
Proof. intros []. rewrite <- (Permutation_length ai_perm), app_length, map_length. reflexivity. Qed.

(** One successful pop: everything the concrete constructions need. *)
Lemma ainv_pop M0 h i Q stack M js : ainv M0 ((h, i) :: Q) stack M -> deg M i <> 0 ->
  NoDup js -> (forall j, In j js -> inc h j = true) ->
  (forall j, inc h j = true -> j = i \/ In j js) ->
  exists M', Permutation M (h :: M') /\ ok h /\ inc h i = true /\ deg M' i = 0 /\
    (forall j, inc h j = true -> deg M j = deg M' j + 1 /\ Z.lxor (hx M j) h = hx M' j) /\
    (forall j, inc h j = false -> deg M j = deg M' j /\ hx M j = hx M' j) /\
    (forall j, inc h j = true -> ~ aown stack j) /\
    (length (pushes M' js Q) <= length Q + 2)%nat /\
    (forall j, In j js -> deg M' j = 1 -> ~ In j (map snd Q)) /\
    ainv M0 (pushes M' js Q) ((h, i) :: stack) M'.
Proof.
  intros A D NJ J1 J2. pose proof (ai_nodup _ _ _ _ _ _ _ _ _ A) as NQ. cbn [map snd] in NQ.
  destruct (ainv_take s1 s2 s3 n ok Hs _ _ _ _ _ _ A D) as (M' & P & Ho & Hi & D0 & NO & DC & XC & QI & QD & FIN).
  apply NoDup_cons_iff in NQ. destruct NQ as [NQ1 NQ2].
  assert (JQ : forall j, In j js -> deg M' j = 1 -> ~ In j (map snd Q)).
  { intros j Hj Dj K. apply in_map_iff in K. destruct K as (e & <- & He).
    rewrite (QD e He) in Dj; [discriminate|auto]. }
  exists M'. split; [exact P|]. split; [exact Ho|]. split; [exact Hi|]. split; [exact D0|]. split.
  { intros j Ij. rewrite DC, XC, Ij. split; [lia|]. rewrite Z.lxor_comm, <- Z.lxor_assoc, Z.lxor_nilpotent. apply Z.lxor_0_l. }
  split. { intros j Ij. rewrite DC, XC, Ij, Z.lxor_0_l. split; [lia|reflexivity]. }
  split; [exact NO|]. split.
  { (* own slot is never pushed *)
    destruct (Hs h Ho) as (_ & _ & _ & N12 & N13 & N23).
    assert (LJ : (length (filter (fun j => negb (Nat.eqb j i)) js) <= 2)%nat).
    { assert (NoDup (i :: filter (fun j => negb (Nat.eqb j i)) js)).
      { constructor; [|apply NoDup_filter; auto]. rewrite filter_In. intros [_ K]. rewrite Nat.eqb_refl in K. discriminate. }
      assert (incl (i :: filter (fun j => negb (Nat.eqb j i)) js) [s1 h; s2 h; s3 h]).
      { intros j [<-|Hj].
        - apply (inc_true s1 s2 s3) in Hi. cbn. intuition.
        - apply filter_In in Hj. destruct Hj as [Hj _]. apply J1, (inc_true s1 s2 s3) in Hj. cbn. intuition. }
      pose proof (NoDup_incl_length H H0) as LL. cbn [length] in LL. lia. }
    assert (LP : forall l Q, (length (pushes M' l Q) <= length Q + length (filter (fun j => negb (Nat.eqb j i)) l))%nat).
    { clear - D0. induction l as [|j l IH]; intros Q; cbn [pushes filter length]; [lia|].
      destruct (Nat.eqb_spec j i) as [->|N]; cbn [negb].
      - rewrite D0. apply IH.
      - cbn [length]. destruct (deg M' j =? 1); [specialize (IH ((hx M' j, j) :: Q)); cbn [length] in IH; lia|specialize (IH Q); lia]. }
    specialize (LP js Q). lia. }
  split; [exact JQ|]. apply FIN.
  - apply pushes_nodup; auto.
  - intros e. rewrite pushes_in. split.
    + intros [K|(K1 & K2 & K3)]; [tauto|]. right. split; [auto|]. split; [|auto]. intros E. rewrite E in K2. lia.
    + intros [K|(K1 & K2 & K3 & K4)]; [tauto|]. right. destruct (J2 _ K1) as [K5|K5]; [contradiction|auto].
Qed.

Lemma ainv_head_ne M0 e Q stack M : ainv M0 (e :: Q) stack M ->
  ~ aown stack (snd e) /\ (snd e < n)%nat /\ (deg M (snd e) = 0 \/ deg M (snd e) = 1).
Proof.
  intros []. destruct (ai_deg e (or_introl eq_refl)) as [A B]. split; [exact A|].
  split; [apply ai_lt; now left|]. destruct B as [B|[B _]]; auto.
Qed.

(** The initial queue, when it lists exactly the slots used once. *)
Lemma pushes_init M : Forall ok M -> ainv M (pushes M (seq 0 n) []) [] M.
Proof.
  intros Ho. apply ainv_init; auto.
  - apply pushes_nodup; [apply seq_NoDup|constructor|]. intros j _ _ [].
  - intros e. rewrite pushes_in, in_seq. cbn [In]. intuition lia.
Qed.
End Q.
