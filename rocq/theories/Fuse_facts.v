(** Fuse8/16/32: construction and membership. *)
From Coq Require Import Permutation.
From Verif Require Import Base Hash Xorf Fuse SpecFilter SpecXorf Base_facts HashInj_facts
  Peel_facts KeyPeel_facts HSet_facts Bfuse_facts.
Local Open Scope Z_scope.

Definition fseg (h : Z) : nat := Z.to_nat (Z.shiftr ((h mod two32) * Z.of_nat SEGMENT_COUNT) 32).
Definition foff (sl : nat) (r : Z) : nat := Z.to_nat (Z.shiftr (r * Z.of_nat sl) 32).
Definition fs1 (sl : nat) (h : Z) : nat := (fseg h * sl + foff sl (rotl64 h 21 mod two32))%nat.
Definition fs2 (sl : nat) (h : Z) : nat := ((fseg h + 1) * sl + foff sl (rotl64 h 42 mod two32))%nat.
Definition fs3 (sl : nat) (h : Z) : nat :=
  ((fseg h + 2) * sl + foff sl (Z.shiftr (wmul64 H3 h) 32 mod two32))%nat.

Lemma mod32_range x : 0 <= x mod two32 < two32.
Proof. apply Z.mod_pos_bound. reflexivity. Qed.
Lemma fseg_lt h : (fseg h < 100)%nat.
Proof. apply (reduce_ok true (h mod two32) SEGMENT_COUNT (mod32_range h)); unfold SEGMENT_COUNT; [reflexivity|lia]. Qed.

Lemma fuse_hset_eq dbg h sl : Z.of_nat sl < two32 ->
  fuse_hset dbg h sl = Ok (fs1 sl h, fs2 sl h, fs3 sl h).
Proof.
  intros Hsl. unfold fuse_hset.
  rewrite (proj1 (reduce_ok dbg (h mod two32) SEGMENT_COUNT (mod32_range _) eq_refl)). cbn [bind].
  rewrite (proj1 (reduce_ok dbg _ sl (mod32_range (rotl64 h 21)) Hsl)). cbn [bind].
  rewrite (proj1 (reduce_ok dbg _ sl (mod32_range (rotl64 h 42)) Hsl)). cbn [bind].
  rewrite (proj1 (reduce_ok dbg _ sl (mod32_range (Z.shiftr (wmul64 H3 h) 32)) Hsl)). cbn [bind].
  reflexivity.
Qed.

Lemma fuse_slots sl : (0 < sl)%nat -> Z.of_nat sl < two32 -> forall h, True ->
  (fs1 sl h < 102 * sl)%nat /\ (fs2 sl h < 102 * sl)%nat /\ (fs3 sl h < 102 * sl)%nat /\
  fs1 sl h <> fs2 sl h /\ fs1 sl h <> fs3 sl h /\ fs2 sl h <> fs3 sl h.
Proof.
  intros H0 Hsl h _. unfold fs1, fs2, fs3. pose proof (fseg_lt h) as B. generalize dependent (fseg h). intros g B.
  pose proof (proj2 (reduce_ok true _ sl (mod32_range (rotl64 h 21)) Hsl) H0) as B1. fold (foff sl (rotl64 h 21 mod two32)) in B1.
  pose proof (proj2 (reduce_ok true _ sl (mod32_range (rotl64 h 42)) Hsl) H0) as B2. fold (foff sl (rotl64 h 42 mod two32)) in B2.
  pose proof (proj2 (reduce_ok true _ sl (mod32_range (Z.shiftr (wmul64 H3 h) 32)) Hsl) H0) as B3.
  fold (foff sl (Z.shiftr (wmul64 H3 h) 32 mod two32)) in B3.
  generalize dependent (foff sl (rotl64 h 21 mod two32)). generalize dependent (foff sl (rotl64 h 42 mod two32)).
  generalize dependent (foff sl (Z.shiftr (wmul64 H3 h) 32 mod two32)). clear Hsl. intros c Hc b Hb a Ha.
  assert (g * sl <= 99 * sl)%nat by (apply Nat.mul_le_mono_r; lia).
  repeat split; lia.
Qed.

Lemma lxor_solve x y : (forall k, Z.testbit x k = Z.testbit y k) -> x = y.
Proof. intros H. apply Z.bits_inj. intros k. apply H. Qed.

Section FS.
Variable dbg : bool.
Variable sl nk : nat.
Hypothesis Hsl0 : (0 < sl)%nat.
Hypothesis Hsl : Z.of_nat sl < two32.
Hypothesis Hnk : Z.of_nat nk < two32.
Let cap := (102 * sl)%nat.
Let Hs := fuse_slots sl Hsl0 Hsl.
Notation inc := (inc (fs1 sl) (fs2 sl) (fs3 sl)).
Notation deg := (deg (fs1 sl) (fs2 sl) (fs3 sl)).
Notation hx := (hx (fs1 sl) (fs2 sl) (fs3 sl)).
Notation ainv := (ainv (fs1 sl) (fs2 sl) (fs3 sl) cap (fun _ => True)).
Notation pushes := (pushes (fs1 sl) (fs2 sl) (fs3 sl)).

Definition frepr (H : list hset) (M : list Z) : Prop :=
  length H = cap /\ forall j, (j < cap)%nat -> nth_error H j = Some (deg M j, hx M j).

Lemma finc_list h j : inc h j = true <-> In j [fs1 sl h; fs2 sl h; fs3 sl h].
Proof. rewrite inc_true. cbn [In]. intuition. Qed.
Lemma fslots_nodup h : NoDup [fs1 sl h; fs2 sl h; fs3 sl h].
Proof.
  destruct (Hs h I) as (_ & _ & _ & A & B & C).
  constructor; [cbn; intuition|]. constructor; [cbn; intuition|]. constructor; [cbn; tauto|constructor].
Qed.
Lemma finc_lt h j : inc h j = true -> (j < cap)%nat.
Proof. apply (inc_lt _ _ _ cap (fun _ => True) Hs). exact I. Qed.

(** Adding one hash to some of its slots. *)
Lemma fadd_slots h M : Z.of_nat (length M) + 1 < two32 ->
  forall js (H : list hset), NoDup js -> length H = cap ->
  (forall j, In j js -> inc h j = true /\ nth_error H j = Some (deg M j, hx M j)) ->
  exists H', foldM (fun H i => hs_add dbg H i h) js H = Ok H' /\ length H' = cap /\
    (forall j, In j js -> nth_error H' j = Some (deg (h :: M) j, hx (h :: M) j)) /\
    (forall j, ~ In j js -> nth_error H' j = nth_error H j).
Proof.
  intros HM. induction js as [|j js IH]; intros H NJ LH HJ.
  - exists H. cbn [foldM]. split; [reflexivity|]. split; [exact LH|]. split; [intros j []|auto].
  - apply NoDup_cons_iff in NJ. destruct NJ as [NJ1 NJ2]. destruct (HJ j (or_introl eq_refl)) as [Ij Ej].
    pose proof (deg_nonneg (fs1 sl) (fs2 sl) (fs3 sl) cap (fun _ => True) Hs M j) as D0.
    pose proof (deg_le_length (fs1 sl) (fs2 sl) (fs3 sl) cap (fun _ => True) Hs M j) as D1.
    cbn [foldM]. rewrite (hs_add_ok dbg H j _ _ h Ej) by lia. cbn [bind].
    assert (Lj : (j < length H)%nat) by (rewrite LH; apply (finc_lt h); auto).
    destruct (IH (upd H j (deg M j + 1, Z.lxor (hx M j) h)) NJ2) as (H' & E & L & A & B).
    { now rewrite length_upd. }
    { intros j' Hj'. destruct (HJ j' (or_intror Hj')) as [Ij' Ej']. split; [auto|].
      rewrite nth_error_upd_ne; auto. intros ->. contradiction. }
    exists H'. split; [exact E|]. split; [exact L|]. split.
    + intros j' [<-|Hj']; [|auto]. rewrite B by auto. rewrite nth_error_upd_eq by auto.
      cbn [Peel_facts.deg Peel_facts.hx]. rewrite Ij. f_equal. f_equal; [lia|apply Z.lxor_comm].
    + intros j' Hj'. rewrite B by (intros K; apply Hj'; now right). apply nth_error_upd_ne. intros ->. apply Hj'. now left.
Qed.

Lemma fadd_key M H seed key : Z.of_nat (length M) + 1 < two32 -> frepr H M ->
  exists H', fuse_add_key dbg sl seed H key = Ok H' /\ frepr H' (mix key seed :: M).
Proof.
  intros HM [LH RH]. unfold fuse_add_key. rewrite fuse_hset_eq by auto. cbn [bind]. set (h := mix key seed).
  destruct (fadd_slots h M HM [fs1 sl h; fs2 sl h; fs3 sl h] H (fslots_nodup h) LH) as (H' & E & L & A & B).
  { intros j Hj. apply finc_list in Hj. split; [auto|]. apply RH. apply (finc_lt h); auto. }
  exists H'. split; [exact E|]. split; [exact L|]. intros j Hj.
  destruct (inc h j) eqn:Ij.
  - apply A. now apply finc_list.
  - rewrite B. 2:{ intros K. apply finc_list in K. congruence. }
    cbn [Peel_facts.deg Peel_facts.hx]. rewrite Ij, Z.lxor_0_l. apply RH; auto.
Qed.

Lemma fadd_all seed keys : forall M H, Z.of_nat (length keys + length M) < two32 -> frepr H M ->
  exists H', foldM (fuse_add_key dbg sl seed) keys H = Ok H' /\
    frepr H' (rev (map (fun key => mix key seed) keys) ++ M).
Proof.
  induction keys as [|key keys IH]; intros M H HL HR; cbn [foldM map rev].
  - exists H. auto.
  - cbn [length] in HL. destruct (fadd_key M H seed key) as (H1 & E1 & R1); [lia|auto|].
    rewrite E1. cbn [bind]. destruct (IH (mix key seed :: M) H1) as (H' & E & R); [cbn [length]; lia|auto|].
    exists H'. split; [exact E|]. now rewrite <- app_assoc.
Qed.

Lemma frepr_perm H M M' : Permutation M M' -> frepr H M -> frepr H M'.
Proof.
  intros P [L R]. split; [exact L|]. intros j Hj.
  rewrite <- (deg_perm _ _ _ cap (fun _ => True) Hs _ _ j P), <- (hx_perm _ _ _ _ _ j P). auto.
Qed.

Lemma frepr_nil : frepr (repeat (0, 0) cap) [].
Proof.
  split; [apply repeat_length|]. intros j Hj. cbn. apply nth_error_repeat; auto.
Qed.

(** The initial queue. *)
Lemma finit_queue H M : frepr H M -> forall js Q, NoDup js -> (forall j, In j js -> (j < cap)%nat) ->
  (length Q + length js <= cap)%nat ->
  foldM (fun q i => try_enqueue cap H i q) js Q = Ok (pushes M js Q).
Proof.
  intros [LH RH]. induction js as [|j js IH]; intros Q NJ LJ LQ; cbn [foldM HSet_facts.pushes]; [reflexivity|].
  apply NoDup_cons_iff in NJ. cbn [length] in LQ.
  rewrite (try_enqueue_ok cap H j _ _ Q (RH j (LJ j (or_introl eq_refl)))) by lia. cbn [bind].
  apply IH; [tauto|intros; apply LJ; now right|]. destruct (deg M j =? 1); cbn [length]; lia.
Qed.

(** The three slots of a removed hash. *)
Lemma fsub_slots h M M' : Z.of_nat (length M) < two32 ->
  (forall j, inc h j = true -> deg M j = deg M' j + 1 /\ Z.lxor (hx M j) h = hx M' j) ->
  forall js s, NoDup js -> length (u_H s) = cap -> NoDup (map snd (u_Q s)) ->
  (forall j, In j (map snd (u_Q s)) -> (j < cap)%nat) ->
  (forall j, In j js -> inc h j = true /\ nth_error (u_H s) j = Some (deg M j, hx M j) /\
     (deg M' j = 1 -> ~ In j (map snd (u_Q s)))) ->
  (exists i, (i < cap)%nat /\ ~ In i (map snd (u_Q s)) /\ deg M' i = 0) ->
  exists H', foldM (fun s i =>
               let* H := hs_sub dbg (u_H s) i h in
               let* q := try_enqueue cap H i (u_Q s) in
               Ok {| u_H := H; u_Q := q; u_stack := u_stack s |}) js s =
       Ok {| u_H := H'; u_Q := pushes M' js (u_Q s); u_stack := u_stack s |} /\ length H' = cap /\
    (forall j, In j js -> nth_error H' j = Some (deg M' j, hx M' j)) /\
    (forall j, ~ In j js -> nth_error H' j = nth_error (u_H s) j).
Proof.
  intros HM HD. induction js as [|j js IH]; intros s NJ LH NQ LQ HJ HI.
  - exists (u_H s). cbn [foldM HSet_facts.pushes]. split; [destruct s; reflexivity|]. split; [exact LH|]. split; [intros j []|auto].
  - apply NoDup_cons_iff in NJ. destruct NJ as [NJ1 NJ2]. destruct (HJ j (or_introl eq_refl)) as (Ij & Ej & Nj).
    destruct (HD j Ij) as [Dj Xj].
    pose proof (deg_nonneg (fs1 sl) (fs2 sl) (fs3 sl) cap (fun _ => True) Hs M' j) as D0.
    pose proof (deg_le_length (fs1 sl) (fs2 sl) (fs3 sl) cap (fun _ => True) Hs M j) as D1.
    assert (Lj : (j < length (u_H s))%nat) by (rewrite LH; apply (finc_lt h); auto).
    cbn [foldM HSet_facts.pushes]. rewrite (hs_sub_ok dbg (u_H s) j _ _ h Ej) by lia. cbn [bind].
    assert (QL : (length (u_Q s) < cap)%nat).
    { destruct HI as (i & Hi & Ni & _). rewrite <- (map_length snd).
      assert (K : incl (i :: map snd (u_Q s)) (seq 0 cap)).
      { intros x Hx. apply in_seq. destruct Hx as [<-|Hx]; [lia|]. specialize (LQ x Hx). lia. }
      assert (ND : NoDup (i :: map snd (u_Q s))) by (constructor; auto).
      pose proof (NoDup_incl_length ND K) as LL. rewrite seq_length in LL. cbn [length] in LL. lia. }
    rewrite (try_enqueue_ok cap _ j (deg M' j) (hx M' j)).
    2:{ rewrite nth_error_upd_eq by auto. rewrite Xj. f_equal. f_equal. lia. }
    2:{ exact QL. }
    cbn [bind].
    destruct (IH {| u_H := upd (u_H s) j (deg M j - 1, Z.lxor (hx M j) h);
                    u_Q := if deg M' j =? 1 then (hx M' j, j) :: u_Q s else u_Q s; u_stack := u_stack s |})
      as (H' & E & L & A & B); cbn [u_H u_Q u_stack]; auto.
    { now rewrite length_upd. }
    { destruct (Z.eqb_spec (deg M' j) 1); auto. cbn [map snd]. constructor; auto. }
    { destruct (deg M' j =? 1); auto. cbn [map snd]. intros x [<-|Hx]; [apply (finc_lt h); auto|auto]. }
    { intros j' Hj'. destruct (HJ j' (or_intror Hj')) as (Ij' & Ej' & Nj'). split; [auto|]. split.
      - rewrite nth_error_upd_ne; auto. intros ->. contradiction.
      - intros K. destruct (deg M' j =? 1); [|auto]. cbn [map snd]. intros [<-|K2]; [contradiction|]. exact (Nj' K K2). }
    { destruct HI as (i & Hi & Ni & Di). exists i. split; [auto|]. split; [|auto].
      destruct (Z.eqb_spec (deg M' j) 1) as [K|K]; [|auto]. cbn [map snd]. intros [<-|K2]; [lia|auto]. }
    exists H'. split; [exact E|]. split; [exact L|]. split.
    + intros j' [<-|Hj']; [|auto]. rewrite B by auto. cbn [u_H]. rewrite nth_error_upd_eq by auto. rewrite Xj. f_equal. f_equal. lia.
    + intros j' Hj'. rewrite B by (intros K; apply Hj'; now right). cbn [u_H]. apply nth_error_upd_ne. intros ->. apply Hj'. now left.
Qed.

Record fgood (M0 : list Z) (s : ustate) (M : list Z) : Prop := {
  fg_repr : frepr (u_H s) M;
  fg_inv : ainv M0 (u_Q s) (u_stack s) M }.

Lemma fpop M0 e q H st M : (length M0 <= nk)%nat ->
  fgood M0 {| u_H := H; u_Q := e :: q; u_stack := st |} M ->
  exists s' M', fuse_pop dbg cap sl nk e {| u_H := H; u_Q := q; u_stack := st |} = Ok s' /\
    fgood M0 s' M' /\ (length (u_Q s') + 2 * length M' <= length q + 2 * length M)%nat.
Proof.
  intros HN [[LH RH] A]. cbn [u_H u_Q u_stack] in *. destruct e as [h i].
  destruct (ainv_head_ne _ _ _ _ _ _ _ _ _ _ A) as (_ & Li & _). cbn [snd] in Li.
  unfold fuse_pop. cbn [u_H u_Q u_stack]. rewrite (proj2 (idx_Ok H i (deg M i, hx M i)) (RH i Li)). cbn [bind].
  destruct (Z.eqb_spec (deg M i) 0) as [D|D].
  - exists {| u_H := H; u_Q := q; u_stack := st |}, M. split; [reflexivity|]. split; [|cbn; lia].
    split; [split; auto|]. cbn [u_Q u_stack]. apply (ainv_skip _ _ _ _ _ _ (h, i)); auto.
  - rewrite fuse_hset_eq by auto. cbn [bind].
    pose proof (ainv_lens _ _ _ _ _ _ _ _ _ A) as LL.
    pose proof (ai_lt _ _ _ _ _ _ _ _ _ A) as QLT. cbn [map snd] in QLT.
    pose proof (ai_nodup _ _ _ _ _ _ _ _ _ A) as QND. cbn [map snd] in QND. apply NoDup_cons_iff in QND. destruct QND as [QN1 QN2].
    destruct (ainv_pop _ _ _ _ _ Hs M0 h i q st M [fs1 sl h; fs2 sl h; fs3 sl h] A D (fslots_nodup h))
      as (M' & P & _ & Ii & Di & HD & HE & _ & PL & PN & A').
    { intros j. apply finc_list. } { intros j Hj. right. now apply finc_list. }
    pose proof (Permutation_length P) as PLen. cbn [length] in PLen.
    destruct (Nat.ltb_spec (length st) nk) as [_|K]; [|lia].
    destruct (fsub_slots h M M') with (js := [fs1 sl h; fs2 sl h; fs3 sl h])
      (s := {| u_H := H; u_Q := q; u_stack := (h, i) :: st |}) as (H' & E & L & B1 & B2); cbn [u_H u_Q u_stack]; auto.
    { lia. } { apply fslots_nodup. } { intros j Hj. apply QLT. now right. }
    { intros j Hj. pose proof (proj2 (finc_list h j) Hj) as Ij. split; [auto|]. split; [|auto].
      apply RH. apply (finc_lt h); auto. }
    { exists i. split; [auto|]. split; auto. }
    cbn [u_H u_Q u_stack] in E. eexists _, M'. split; [exact E|]. split.
    + split; cbn [u_H u_Q u_stack]; [|exact A']. split; [exact L|]. intros j Hj. destruct (inc h j) eqn:Ij.
      * apply B1. now apply finc_list.
      * rewrite B2 by (intros K; apply finc_list in K; congruence). cbn [u_H]. destruct (HE j Ij) as [<- <-]. auto.
    + cbn [u_Q]. lia.
Qed.

Lemma fpeel M0 : (length M0 <= nk)%nat -> forall fuel s M, fgood M0 s M ->
  (length (u_Q s) + 2 * length M <= fuel)%nat ->
  exists s' M', fuse_peel fuel dbg cap sl nk s = Ok s' /\ fgood M0 s' M' /\ u_Q s' = [].
Proof.
  intros HN. induction fuel as [|fuel IH]; intros s M HG HF.
  - cbn [fuse_peel]. destruct s as [H Q st]. cbn [u_Q] in *. destruct Q as [|e Q]; [|cbn in HF; lia].
    eexists _, M. split; [reflexivity|]. auto.
  - cbn [fuse_peel]. destruct s as [H Q st]. cbn [u_Q u_H u_stack] in *. destruct Q as [|e Q].
    { eexists _, M. split; [reflexivity|]. auto. }
    destruct (fpop M0 e Q H st M HN HG) as (s' & M' & E & HG' & LQ). rewrite E. cbn [bind].
    apply (IH s' M' HG'). cbn [length] in HF. lia.
Qed.

Definition fgd (e : Z * nat) : Prop := True /\ inc (fst e) (snd e) = true.

Lemma fassign_step w B e : length B = cap -> fgd e ->
  exists v, fuse_assign_one w dbg sl B e = Ok (upd B (snd e) v) /\
    x3 (fs1 sl) (fs2 sl) (fs3 sl) (upd B (snd e) v) (fst e) = fingerprint w (fst e).
Proof.
  intros LB [_ Hi]. destruct e as [h i]. cbn [fst snd] in *. unfold fuse_assign_one. rewrite fuse_hset_eq by auto. cbn [bind].
  destruct (Hs h I) as (B1 & B2 & B3 & N12 & N13 & N23).
  rewrite (idx_nth B (fs1 sl h) 0), (idx_nth B (fs2 sl h) 0), (idx_nth B (fs3 sl h) 0) by (rewrite LB; auto). cbn [bind].
  apply (inc_true (fs1 sl) (fs2 sl) (fs3 sl)) in Hi. unfold x3.
  destruct (Nat.eqb_spec i (fs1 sl h)) as [->|C1]; [|destruct (Nat.eqb_spec i (fs2 sl h)) as [->|C2];
    [|destruct (Nat.eqb_spec i (fs3 sl h)) as [->|C3]; [|exfalso; tauto]]]; cbn [bind];
    (eexists; split; [apply set_lt; rewrite LB; auto|]).
  - rewrite nth_upd_eq by (rewrite LB; auto). rewrite !nth_upd_ne by auto. apply lxor_solve. intros k. rewrite !Z.lxor_spec.
    repeat match goal with |- context [Z.testbit ?x k] => destruct (Z.testbit x k) end; reflexivity.
  - rewrite nth_upd_eq by (rewrite LB; auto). rewrite !nth_upd_ne by auto. apply lxor_solve. intros k. rewrite !Z.lxor_spec.
    repeat match goal with |- context [Z.testbit ?x k] => destruct (Z.testbit x k) end; reflexivity.
  - rewrite nth_upd_eq by (rewrite LB; auto). rewrite !nth_upd_ne by auto. apply lxor_solve. intros k. rewrite !Z.lxor_spec.
    repeat match goal with |- context [Z.testbit ?x k] => destruct (Z.testbit x k) end; reflexivity.
Qed.

Lemma aordered_eordered st : aordered (fs1 sl) (fs2 sl) (fs3 sl) st ->
  eordered (fs1 sl) (fs2 sl) (fs3 sl) (Z * nat)%type fst snd st.
Proof. induction st as [|e st IH]; cbn; [auto|]. intros [A B]. auto. Qed.

Lemma fassign_all w stack fps : Forall fgd stack -> aordered (fs1 sl) (fs2 sl) (fs3 sl) stack ->
  length fps = cap ->
  exists fps', foldM (fuse_assign_one w dbg sl) stack fps = Ok fps' /\ length fps' = cap /\
    forall e, In e stack -> x3 (fs1 sl) (fs2 sl) (fs3 sl) fps' (fst e) = fingerprint w (fst e).
Proof.
  intros HF HO HL.
  destruct (assign_gen (fs1 sl) (fs2 sl) (fs3 sl) cap
     (Z * nat)%type fst snd (fingerprint w) (fun _ => True) fgd) with (step := fuse_assign_one w dbg sl) (stack := stack) (B := fps)
    as (fps' & E & L & _ & Sat); auto.
  - intros e [_ H]. exact H.
  - intros B e LB G _. apply fassign_step; auto.
  - exists fps'. auto.
Qed.
End FS.

Lemma fuse_cap_eq k : fuse_capacity k = (102 * fuse_segment_length k)%nat.
Proof.
  unfold fuse_segment_length, fuse_capacity, SLOTS. rewrite Nat.div_mul by lia. apply Nat.mul_comm.
Qed.

Section Top.
Variable dbg : bool.
Variable keys : list Z.
Let nk := length keys.
Let sl := fuse_segment_length nk.
Hypothesis Hsl0 : (0 < sl)%nat.
Hypothesis Hsl : Z.of_nat sl < two32.
Hypothesis Hnk : Z.of_nat nk < two32.
Notation fpeels := (peels (fs1 sl) (fs2 sl) (fs3 sl)).
Definition fhs (seed : Z) : list Z := map (fun key => mix key seed) keys.

Lemma fuse_attempt_ok seed : exists stack M,
  fuse_attempt dbg keys seed = Ok stack /\
  ainv (fs1 sl) (fs2 sl) (fs3 sl) (102 * sl) (fun _ => True) (fhs seed) [] stack M /\
  ((length stack =? nk)%nat = true <-> fpeels (fhs seed)).
Proof.
  unfold fuse_attempt. fold nk. rewrite fuse_cap_eq. fold sl.
  destruct (fadd_all dbg sl nk Hsl0 Hsl seed keys [] (repeat (0, 0) (102 * sl))) as (H & E & R).
  { rewrite Nat.add_0_r. exact Hnk. } { apply frepr_nil. }
  rewrite E. cbn [bind]. rewrite app_nil_r in R.
  apply (frepr_perm sl Hsl0 Hsl _ _ (fhs seed) (Permutation_sym (Permutation_rev _))) in R.
  rewrite (finit_queue sl nk Hsl0 H (fhs seed) R (seq 0 (102 * sl)) []).
  2:{ apply seq_NoDup. } 2:{ intros j Hj. apply in_seq in Hj. lia. } 2:{ rewrite seq_length. cbn [length]. lia. }
  cbn [bind].
  assert (LM : length (fhs seed) = nk) by (unfold fhs; apply map_length).
  assert (G : fgood sl (fhs seed) {| u_H := H; u_Q := pushes (fs1 sl) (fs2 sl) (fs3 sl) (fhs seed) (seq 0 (102 * sl)) [];
     u_stack := [] |} (fhs seed)).
  { split; cbn [u_H u_Q u_stack]; [exact R|]. apply pushes_init. apply fuse_slots; auto. apply Forall_forall; auto. }
  destruct (fpeel dbg sl nk Hsl0 Hsl Hnk (fhs seed)) with (fuel := (102 * sl + 3 * nk + 1)%nat) (s := {| u_H := H;
     u_Q := pushes (fs1 sl) (fs2 sl) (fs3 sl) (fhs seed) (seq 0 (102 * sl)) []; u_stack := [] |}) (M := fhs seed)
    as (s' & M' & E' & [_ A] & Q0); auto.
  { lia. }
  { cbn [u_Q]. pose proof (ainv_qlen _ _ _ _ _ _ _ _ _ (fg_inv _ _ _ _ G)) as L. cbn [u_Q] in L. lia. }
  rewrite E'. cbn [bind]. rewrite Q0 in A. exists (u_stack s'), M'. split; [reflexivity|]. split; [exact A|].
  rewrite <- (ainv_final _ _ _ _ _ (fuse_slots sl Hsl0 Hsl) _ _ _ A).
  pose proof (ainv_lens _ _ _ _ _ _ _ _ _ A) as L. rewrite LM in L. rewrite Nat.eqb_eq.
  split; [intros K; destruct M'; [reflexivity|cbn [length] in L; lia]|intros ->; cbn [length] in L; lia].
Qed.

Lemma fuse_loop_cases mi : forall rng seed,
  (exists i stack, (i < mi)%nat /\ fuse_loop mi dbg keys rng seed = Ok (sq rng seed i, stack) /\
     fpeels (fhs (sq rng seed i)) /\
     ainv (fs1 sl) (fs2 sl) (fs3 sl) (102 * sl) (fun _ => True) (fhs (sq rng seed i)) [] stack [] /\
     (forall j, (j < i)%nat -> ~ fpeels (fhs (sq rng seed j)))) \/
  (fuse_loop mi dbg keys rng seed = Err EFuseFail /\ forall j, (j < mi)%nat -> ~ fpeels (fhs (sq rng seed j))).
Proof.
  induction mi as [|mi IH]; intros rng seed.
  - right. split; [reflexivity|]. intros j Hj. lia.
  - cbn [fuse_loop]. destruct (fuse_attempt_ok seed) as (stack & M & E & A & P). rewrite E. cbn [bind]. fold nk.
    destruct (length stack =? nk)%nat eqn:EL.
    + left. exists 0%nat, stack. split; [lia|]. split; [reflexivity|]. assert (PP : fpeels (fhs seed)) by (apply P; reflexivity).
      split; [exact PP|]. split; [|intros j Hj; lia]. cbn [sq].
      assert (M = []) as -> by (apply (ainv_final _ _ _ _ _ (fuse_slots sl Hsl0 Hsl) _ _ _ A); exact PP). exact A.
    + assert (NP : ~ fpeels (fhs seed)) by (intros K; apply P in K; discriminate).
      rewrite (surjective_pairing (splitmix64 rng)).
      destruct (IH (fst (splitmix64 rng)) (snd (splitmix64 rng))) as [(i & st & Hi & E' & PP & A' & NJ)|[E' NJ]].
      * left. exists (S i), st. rewrite (sq_step rng seed i) in *. split; [lia|]. split; [exact E'|]. split; [exact PP|].
        split; [exact A'|]. intros [|j] Hj; [exact NP|]. rewrite <- (sq_step rng seed j). apply NJ. lia.
      * right. split; [exact E'|]. intros [|j] Hj; [exact NP|]. rewrite <- (sq_step rng seed j). apply NJ. lia.
Qed.

Lemma fuse_construct mi w rnd : (dbg = true -> NoDup keys) ->
  (exists i fps, (i < mi)%nat /\ length fps = (102 * sl)%nat /\ fpeels (fhs (retry_seed i)) /\
     (forall key, In key keys -> x3 (fs1 sl) (fs2 sl) (fs3 sl) fps (mix key (retry_seed i)) = fingerprint w (mix key (retry_seed i))) /\
     (forall j, (j < i)%nat -> ~ fpeels (fhs (retry_seed j))) /\
     fuse_from_impl mi w dbg rnd keys =
       Ok {| ff_seed := retry_seed i; ff_segment_length := sl; ff_fingerprints := fps |}) \/
  (fuse_from_impl mi w dbg rnd keys = Err EFuseFail /\ forall j, (j < mi)%nat -> ~ fpeels (fhs (retry_seed j))).
Proof.
  intros HD. unfold fuse_from_impl.
  assert (E0 : dbg && negb (all_distinct64 keys) = false).
  { destruct dbg; [|reflexivity]. cbn [andb]. rewrite (proj2 (all_distinct64_nodup keys) (HD eq_refl)). reflexivity. }
  rewrite E0. fold nk. rewrite fuse_cap_eq. fold sl. rewrite (surjective_pairing (splitmix64 1)).
  destruct (fuse_loop_cases mi (fst (splitmix64 1)) (snd (splitmix64 1))) as [(i & st & Hi & E & PP & A & NJ)|[E NJ]];
    rewrite E; cbn [bind].
  - left. rewrite sq_retry in *.
    destruct (fassign_all dbg sl Hsl0 Hsl w st (map rnd (seq 0 (102 * sl)))) as (fps & Ef & Lf & Sat).
    { apply (ai_stack _ _ _ _ _ _ _ _ _ A). } { apply (ai_ord _ _ _ _ _ _ _ _ _ A). }
    { now rewrite map_length, seq_length. }
    exists i, fps. split; [exact Hi|]. split; [exact Lf|]. split; [exact PP|]. split; [|split].
    + intros key Hk.
      assert (K : In (mix key (retry_seed i)) (map fst st)).
      { pose proof (ai_perm _ _ _ _ _ _ _ _ _ A) as Pm. rewrite app_nil_r in Pm.
        apply (Permutation_in _ (Permutation_sym Pm)). unfold fhs. apply (in_map (fun key => mix key (retry_seed i))), Hk. }
      apply in_map_iff in K. destruct K as (e & <- & He). apply Sat, He.
    + intros j Hj. specialize (NJ j Hj). now rewrite sq_retry in NJ.
    + rewrite Ef. reflexivity.
  - right. split; [reflexivity|]. intros j Hj. specialize (NJ j Hj). now rewrite sq_retry in NJ.
Qed.
End Top.

Lemma fuse_contains_x3 w dbg sl seed fps key : (0 < sl)%nat -> Z.of_nat sl < two32 ->
  length fps = (102 * sl)%nat ->
  fuse_contains w dbg {| ff_seed := seed; ff_segment_length := sl; ff_fingerprints := fps |} key =
  Ok (fingerprint w (mix key seed) =? x3 (fs1 sl) (fs2 sl) (fs3 sl) fps (mix key seed)).
Proof.
  intros H0 Hsl HL. unfold fuse_contains. cbn [ff_seed ff_segment_length ff_fingerprints].
  rewrite fuse_hset_eq by auto. cbn [bind].
  destruct (fuse_slots sl H0 Hsl (mix key seed) I) as (B1 & B2 & B3 & _).
  rewrite (idx_nth fps (fs1 sl _) 0), (idx_nth fps (fs2 sl _) 0), (idx_nth fps (fs3 sl _) 0) by (rewrite HL; auto).
  reflexivity.
Qed.

(** Zero capacity. *)
Lemma fuse_zero mi w dbg rnd keys : (0 < mi)%nat -> keys <> [] -> fuse_capacity (length keys) = 0%nat ->
  fuse_from_impl mi w dbg rnd keys = Panic.
Proof.
  intros Hmi HK HC. unfold fuse_from_impl. destruct (dbg && negb (all_distinct64 keys)); [reflexivity|].
  rewrite (surjective_pairing (splitmix64 1)). destruct mi as [|mi]; [lia|]. cbn [fuse_loop].
  assert (E : fuse_attempt dbg keys (snd (splitmix64 1)) = Panic).
  { unfold fuse_attempt. rewrite HC. destruct keys as [|key keys]; [contradiction|]. cbn [foldM repeat].
    unfold fuse_add_key at 1. assert (SL : fuse_segment_length (length (key :: keys)) = 0%nat) by (unfold fuse_segment_length; rewrite HC; reflexivity).
    rewrite SL, fuse_hset_eq by reflexivity. cbn [bind foldM]. unfold hs_add at 1. rewrite idx_oob by (cbn [length]; apply Nat.le_0_l). reflexivity. }
  rewrite E. reflexivity.
Qed.
