(** Multiset representation of the counting tables, and peeling. *)
From Coq Require Import Permutation.
From Verif Require Import Base Hash Fuse3 Base_facts Geom_facts.
Local Open Scope Z_scope.

(** ** Low two bits *)
Lemma small4 b : 0 <= b < 4 -> b = 0 \/ b = 1 \/ b = 2 \/ b = 3.
Proof. lia. Qed.

Lemma lxor_small4 b c : 0 <= b < 4 -> 0 <= c < 4 -> 0 <= Z.lxor b c < 4.
Proof.
  intros Hb Hc. destruct (small4 b Hb) as [->|[->|[->| ->]]], (small4 c Hc) as [->|[->|[->| ->]]];
    vm_compute; split; congruence.
Qed.

Lemma land_shift4 a b : 0 <= b < 4 -> Z.land (4 * a) b = 0.
Proof.
  intros Hb. replace (4 * a) with (Z.shiftl a 2) by (rewrite Z.shiftl_mul_pow2; lia).
  apply Z.bits_inj'. intros i Hi. rewrite Z.land_spec, Z.bits_0.
  destruct (Z.lt_ge_cases i 2) as [L|L].
  - rewrite Z.shiftl_spec_low by auto. reflexivity.
  - rewrite (Z.bits_above_log2 b).
    + apply andb_false_r.
    + lia.
    + destruct (small4 b Hb) as [->|[->|[->| ->]]]; cbn; lia.
Qed.

Lemma add4_lxor a b : 0 <= b < 4 -> 4 * a + b = Z.lxor (4 * a) b.
Proof. intros Hb. apply Z.add_nocarry_lxor. now apply land_shift4. Qed.

Lemma lxor4 a b c : 0 <= b < 4 -> 0 <= c < 4 -> Z.lxor (4 * a + b) c = 4 * a + Z.lxor b c.
Proof.
  intros Hb Hc. rewrite (add4_lxor a b) by auto.
  rewrite (add4_lxor a (Z.lxor b c)) by (apply lxor_small4; auto). apply Z.lxor_assoc.
Qed.

Lemma shiftr4 a b : 0 <= b < 4 -> Z.shiftr (4 * a + b) 2 = a.
Proof.
  intros Hb. rewrite Z.shiftr_div_pow2 by lia. change (2 ^ 2) with 4.
  rewrite Z.mul_comm, Z.div_add_l by lia. rewrite Z.div_small by lia. lia.
Qed.

Lemma land3 a b : 0 <= b < 4 -> Z.land (4 * a + b) 3 = b.
Proof.
  intros Hb. change 3 with (Z.ones 2). rewrite Z.land_ones by lia. change (2 ^ 2) with 4.
  rewrite Z.add_comm, Z.mul_comm, Z.mod_add by lia. apply Z.mod_small. lia.
Qed.

Section Tables.
Variables s1 s2 s3 : Z -> nat.
Variable n : nat.
Variable ok : Z -> Prop.
Hypothesis Hs : forall h, ok h -> (s1 h < n)%nat /\ (s2 h < n)%nat /\ (s3 h < n)%nat /\
  s1 h <> s2 h /\ s1 h <> s3 h /\ s2 h <> s3 h.

Definition inc (h : Z) (j : nat) : bool := (j =? s1 h)%nat || (j =? s2 h)%nat || (j =? s3 h)%nat.
Definition posn (h : Z) (j : nat) : Z :=
  if (j =? s2 h)%nat then 1 else if (j =? s3 h)%nat then 2 else 0.
Fixpoint deg (M : list Z) (j : nat) : Z :=
  match M with [] => 0 | h :: t => (if inc h j then 1 else 0) + deg t j end.
Fixpoint px (M : list Z) (j : nat) : Z :=
  match M with [] => 0 | h :: t => Z.lxor (if inc h j then posn h j else 0) (px t j) end.
Fixpoint hx (M : list Z) (j : nat) : Z :=
  match M with [] => 0 | h :: t => Z.lxor (if inc h j then h else 0) (hx t j) end.

Lemma posn_range h j : 0 <= posn h j < 4.
Proof. unfold posn. destruct (j =? s2 h)%nat, (j =? s3 h)%nat; lia. Qed.

Lemma px_range M j : 0 <= px M j < 4.
Proof.
  induction M as [|h M IH]; cbn [px]; [lia|]. apply lxor_small4; auto.
  destruct (inc h j); [apply posn_range|lia].
Qed.

Lemma deg_nonneg M j : 0 <= deg M j.
Proof. induction M as [|h M IH]; cbn [deg]; [lia|]. destruct (inc h j); lia. Qed.

Lemma deg_app M N j : deg (M ++ N) j = deg M j + deg N j.
Proof. induction M as [|h M IH]; cbn [deg app]; [lia|]. rewrite IH. lia. Qed.

Lemma deg_perm M N j : Permutation M N -> deg M j = deg N j.
Proof.
  intros H. induction H; cbn [deg]; lia.
Qed.
Lemma px_perm M N j : Permutation M N -> px M j = px N j.
Proof.
  intros H. induction H; cbn [px]; try congruence.
  rewrite <- !Z.lxor_assoc. f_equal. apply Z.lxor_comm.
Qed.
Lemma hx_perm M N j : Permutation M N -> hx M j = hx N j.
Proof.
  intros H. induction H; cbn [hx]; try congruence.
  rewrite <- !Z.lxor_assoc. f_equal. apply Z.lxor_comm.
Qed.

Lemma deg0 M j : deg M j = 0 -> px M j = 0 /\ hx M j = 0 /\ (forall h, In h M -> inc h j = false).
Proof.
  induction M as [|h M IH]; cbn [deg px hx]; [intros _; repeat split; auto; intros h []|].
  pose proof (deg_nonneg M j). destruct (inc h j) eqn:E; [lia|]. intros H0.
  destruct IH as (I1 & I2 & I3); [lia|]. rewrite I1, I2. split; [reflexivity|]. split; [reflexivity|].
  intros h' [<-|H']; auto.
Qed.

Lemma deg_zero_iff M j : deg M j = 0 <-> forall h, In h M -> inc h j = false.
Proof.
  split; [intros H; now apply deg0|]. induction M as [|h M IH]; cbn [deg]; intros H; [reflexivity|].
  rewrite (H h) by (left; auto). rewrite IH; [reflexivity|]. intros h' H'. apply H. now right.
Qed.

Lemma deg1 M j : deg M j = 1 ->
  exists h M', Permutation M (h :: M') /\ inc h j = true /\ deg M' j = 0 /\
    px M j = posn h j /\ hx M j = h.
Proof.
  induction M as [|h M IH]; cbn [deg]; [lia|]. intros H.
  destruct (inc h j) eqn:E.
  - exists h, M. assert (D : deg M j = 0) by lia. destruct (deg0 M j D) as (P & X & _).
    cbn [px hx]. rewrite E, P, X, !Z.lxor_0_r. auto.
  - destruct IH as (h' & M' & P & I & D & Px & Hx); [lia|].
    exists h', (h :: M'). split; [rewrite P; apply perm_swap|]. split; auto.
    cbn [deg px hx]. rewrite E, Px, Hx, !Z.lxor_0_l. repeat split; auto.
Qed.

Definition cnt (M : list Z) (j : nat) : Z := 4 * deg M j + px M j.

(** ** Representation *)
Definition repr (own : nat -> Prop) (M : list Z) (t : tables) : Prop :=
  length (fst t) = n /\ length (snd t) = n /\
  forall j, (j < n)%nat -> ~ own j ->
    nth j (fst t) 0 = cnt M j /\ nth j (snd t) 0 = hx M j /\ deg M j <= 63.

(** Raw pointwise description used for intermediate states. *)
Lemma bump_raw dbg p h i c x :
  length c = n -> length x = n -> (i < n)%nat ->
  0 <= nth i c 0 + 4 < 256 ->
  bump dbg p h i (c, x) =
  Ok (upd c i (Z.lxor (nth i c 0 + 4) p), upd x i (Z.lxor (nth i x 0) h)).
Proof.
  intros Hc Hx Hi Hr. unfold bump.
  rewrite (idx_nth c i 0) by lia. cbn [bind]. unfold add8. rewrite chk_Ok by (unfold two8; lia).
  cbn [bind]. rewrite set_lt by lia. cbn [bind].
  rewrite (idx_nth x i 0) by lia. cbn [bind]. rewrite set_lt by lia. reflexivity.
Qed.

Lemma bump_panic p h i c x :
  length c = n -> (i < n)%nat -> 256 <= nth i c 0 + 4 -> bump true p h i (c, x) = Panic.
Proof.
  intros Hc Hi Hr. unfold bump. rewrite (idx_nth c i 0) by lia. cbn [bind]. unfold add8.
  rewrite chk_oob by (unfold two8; lia). reflexivity.
Qed.

Lemma unbump_raw dbg p h i c x :
  length c = n -> length x = n -> (i < n)%nat ->
  0 <= nth i c 0 - 4 < 256 ->
  unbump dbg p h i (c, x) =
  Ok (upd c i (Z.lxor (nth i c 0 - 4) p), upd x i (Z.lxor (nth i x 0) h)).
Proof.
  intros Hc Hx Hi Hr. unfold unbump.
  rewrite (idx_nth c i 0) by lia. cbn [bind]. unfold sub8. rewrite chk_Ok by (unfold two8; lia).
  cbn [bind]. rewrite set_lt by lia. cbn [bind].
  rewrite (idx_nth x i 0) by lia. cbn [bind]. rewrite set_lt by lia. reflexivity.
Qed.

Lemma inc_s h : inc h (s1 h) = true /\ inc h (s2 h) = true /\ inc h (s3 h) = true.
Proof. unfold inc. rewrite !Nat.eqb_refl, !orb_true_r. auto. Qed.

Lemma inc_true h j : inc h j = true <-> j = s1 h \/ j = s2 h \/ j = s3 h.
Proof. unfold inc. rewrite !orb_true_iff, !Nat.eqb_eq. tauto. Qed.

Lemma posn_s h : ok h -> posn h (s1 h) = 0 /\ posn h (s2 h) = 1 /\ posn h (s3 h) = 2.
Proof.
  intros H. destruct (Hs h H) as (_ & _ & _ & N1 & N2 & N3). unfold posn. rewrite !Nat.eqb_refl.
  rewrite (proj2 (Nat.eqb_neq (s1 h) (s2 h))), (proj2 (Nat.eqb_neq (s1 h) (s3 h))) by auto.
  rewrite (proj2 (Nat.eqb_neq (s3 h) (s2 h))) by auto. auto.
Qed.

Lemma cnt_cons h M j : inc h j = true ->
  cnt (h :: M) j = Z.lxor (cnt M j + 4) (posn h j) /\ hx (h :: M) j = Z.lxor (hx M j) h.
Proof.
  intros E. unfold cnt. cbn [deg px hx]. rewrite E. split; [|apply Z.lxor_comm].
  replace (4 * deg M j + px M j + 4) with (4 * (1 + deg M j) + px M j) by ring.
  rewrite lxor4 by (auto using px_range, posn_range). f_equal. apply Z.lxor_comm.
Qed.
Lemma cnt_cons_ne h M j : inc h j = false ->
  cnt (h :: M) j = cnt M j /\ hx (h :: M) j = hx M j.
Proof. intros E. unfold cnt. cbn [deg px hx]. rewrite E, !Z.lxor_0_l, Z.add_0_l. auto. Qed.

Lemma cnt_uncons h M j : inc h j = true ->
  Z.lxor (cnt (h :: M) j - 4) (posn h j) = cnt M j /\ Z.lxor (hx (h :: M) j) h = hx M j.
Proof.
  intros E. unfold cnt. cbn [deg px hx]. rewrite E. split.
  - replace (4 * (1 + deg M j) + Z.lxor (posn h j) (px M j) - 4)
      with (4 * deg M j + Z.lxor (posn h j) (px M j)) by ring.
    rewrite lxor4 by (auto using posn_range, lxor_small4, px_range). f_equal.
    rewrite (Z.lxor_comm (posn h j) (px M j)), Z.lxor_assoc, Z.lxor_nilpotent. apply Z.lxor_0_r.
  - rewrite (Z.lxor_comm h (hx M j)), Z.lxor_assoc, Z.lxor_nilpotent. apply Z.lxor_0_r.
Qed.

Lemma cnt_bounds M j : deg M j <= 63 -> 4 * deg M j <= cnt M j < 256.
Proof. intros H. unfold cnt. pose proof (px_range M j). lia. Qed.

Definition no_own (j : nat) : Prop := False.

(** Three bumps add one key. *)
Lemma bump3 dbg h M t :
  ok h -> repr no_own M t -> (forall j, (j < n)%nat -> deg (h :: M) j <= 63) ->
  exists t', repr no_own (h :: M) t' /\
    (let* t := bump dbg 0 h (s1 h) t in
     let* t := bump dbg 1 h (s2 h) t in
     bump dbg 2 h (s3 h) t) = Ok t'.
Proof.
  intros Ho (Lc & Lx & R) Hd. destruct t as [c x]. cbn [fst snd] in *.
  destruct (Hs h Ho) as (B1 & B2 & B3 & N12 & N13 & N23).
  destruct (inc_s h) as (I1 & I2 & I3). destruct (posn_s h Ho) as (P1 & P2 & P3).
  assert (K : forall j, (j < n)%nat -> inc h j = true -> 0 <= nth j c 0 + 4 < 256).
  { intros j Hj Hi. destruct (R j Hj (fun f => f)) as (E & _ & _). rewrite E.
    specialize (Hd j Hj). cbn [deg] in Hd. rewrite Hi in Hd. unfold cnt.
    pose proof (px_range M j). pose proof (deg_nonneg M j). lia. }
  rewrite bump_raw by auto. cbn [bind].
  rewrite bump_raw; rewrite ?length_upd, ?nth_upd_ne; auto. cbn [bind].
  rewrite bump_raw; rewrite ?length_upd, ?nth_upd_ne; auto.
  eexists. split; [|reflexivity].
  split; [cbn [fst]; now rewrite !length_upd|]. split; [cbn [snd]; now rewrite !length_upd|].
  intros j Hj _. cbn [fst snd]. rewrite !nth_upd by (rewrite ?length_upd; lia).
  destruct (R j Hj (fun f => f)) as (E1 & E2 & E3).
  assert (D : deg (h :: M) j <= 63) by auto.
  destruct (Nat.eqb_spec j (s3 h)) as [->|J3].
  { destruct (cnt_cons h M (s3 h) I3) as [-> ->]. rewrite P3, E1, E2. auto. }
  destruct (Nat.eqb_spec j (s2 h)) as [->|J2].
  { destruct (cnt_cons h M (s2 h) I2) as [-> ->]. rewrite P2, E1, E2. auto. }
  destruct (Nat.eqb_spec j (s1 h)) as [->|J1].
  { destruct (cnt_cons h M (s1 h) I1) as [-> ->]. rewrite P1, E1, E2. auto. }
  assert (I : inc h j = false).
  { destruct (inc h j) eqn:I; auto. apply inc_true in I. tauto. }
  destruct (cnt_cons_ne h M j I) as [-> ->]. auto.
Qed.

(** In a debug build an overflowing count panics. *)
Lemma bump3_overflow h M t j :
  ok h -> repr no_own M t -> (j < n)%nat -> 63 < deg (h :: M) j ->
  (let* t := bump true 0 h (s1 h) t in
   let* t := bump true 1 h (s2 h) t in
   bump true 2 h (s3 h) t) = Panic.
Proof.
  intros Ho (Lc & Lx & R) Hj Hd. destruct t as [c x]. cbn [fst snd] in *.
  destruct (Hs h Ho) as (B1 & B2 & B3 & N12 & N13 & N23).
  assert (C : forall i, (i < n)%nat -> 0 <= nth i c 0 + 4).
  { intros i Hi. destruct (R i Hi (fun f => f)) as (E & _ & _). rewrite E. unfold cnt.
    pose proof (px_range M i). pose proof (deg_nonneg M i). lia. }
  assert (I : inc h j = true /\ 256 <= nth j c 0 + 4).
  { destruct (R j Hj (fun f => f)) as (E & _ & Dj). rewrite E. cbn [deg] in Hd.
    destruct (inc h j); [|lia]. split; auto. unfold cnt. pose proof (px_range M j). lia. }
  destruct I as [I Bj].
  assert (D : forall i, (i < n)%nat -> nth i c 0 + 4 < 256 \/ 256 <= nth i c 0 + 4) by (intros; lia).
  destruct (D (s1 h) B1) as [D1|D1]; [|now rewrite bump_panic].
  rewrite bump_raw by auto. cbn [bind].
  destruct (D (s2 h) B2) as [D2|D2].
  2:{ rewrite bump_panic; rewrite ?length_upd, ?nth_upd_ne; auto. }
  rewrite bump_raw; rewrite ?length_upd, ?nth_upd_ne; auto. cbn [bind].
  destruct (D (s3 h) B3) as [D3|D3].
  2:{ rewrite bump_panic; rewrite ?length_upd, ?nth_upd_ne; auto. }
  apply inc_true in I. destruct I as [->|[->| ->]]; lia.
Qed.

(** Three unbumps remove it again. *)
Lemma unbump3 dbg h M t :
  ok h -> repr no_own (h :: M) t ->
  exists t', repr no_own M t' /\
    (let* t := unbump dbg 0 h (s1 h) t in
     let* t := unbump dbg 1 h (s2 h) t in
     unbump dbg 2 h (s3 h) t) = Ok t'.
Proof.
  intros Ho (Lc & Lx & R). destruct t as [c x]. cbn [fst snd] in *.
  destruct (Hs h Ho) as (B1 & B2 & B3 & N12 & N13 & N23).
  destruct (inc_s h) as (I1 & I2 & I3). destruct (posn_s h Ho) as (P1 & P2 & P3).
  assert (K : forall j, (j < n)%nat -> inc h j = true -> 0 <= nth j c 0 - 4 < 256).
  { intros j Hj Hi. destruct (R j Hj (fun f => f)) as (E & _ & D). rewrite E.
    pose proof (cnt_bounds _ _ D). unfold cnt in *. cbn [deg] in *. rewrite Hi in *.
    pose proof (px_range (h :: M) j). pose proof (deg_nonneg M j). lia. }
  rewrite unbump_raw by auto. cbn [bind].
  rewrite unbump_raw; rewrite ?length_upd, ?nth_upd_ne; auto. cbn [bind].
  rewrite unbump_raw; rewrite ?length_upd, ?nth_upd_ne; auto.
  eexists. split; [|reflexivity].
  split; [cbn [fst]; now rewrite !length_upd|]. split; [cbn [snd]; now rewrite !length_upd|].
  intros j Hj _. cbn [fst snd]. rewrite !nth_upd by (rewrite ?length_upd; lia).
  destruct (R j Hj (fun f => f)) as (E1 & E2 & E3).
  assert (D : deg M j <= 63) by (cbn [deg] in E3; destruct (inc h j); lia).
  destruct (Nat.eqb_spec j (s3 h)) as [->|J3].
  { destruct (cnt_uncons h M (s3 h) I3) as [<- <-]. rewrite P3, E1, E2. auto. }
  destruct (Nat.eqb_spec j (s2 h)) as [->|J2].
  { destruct (cnt_uncons h M (s2 h) I2) as [<- <-]. rewrite P2, E1, E2. auto. }
  destruct (Nat.eqb_spec j (s1 h)) as [->|J1].
  { destruct (cnt_uncons h M (s1 h) I1) as [<- <-]. rewrite P1, E1, E2. auto. }
  assert (I : inc h j = false).
  { destruct (inc h j) eqn:I; auto. apply inc_true in I. tauto. }
  destruct (cnt_cons_ne h M j I) as [<- <-]. auto.
Qed.

Lemma dup_found h M j :
  inc h j = true -> hx (h :: M) j = 0 -> cnt (h :: M) j = 8 -> In h M.
Proof.
  intros I Hx Hc. unfold cnt in Hc. pose proof (px_range (h :: M) j).
  assert (D : deg (h :: M) j = 2) by lia. cbn [deg] in D. rewrite I in D.
  destruct (deg1 M j ltac:(lia)) as (h' & M' & P & _ & _ & _ & X).
  cbn [hx] in Hx. rewrite I, X in Hx. apply Z.lxor_eq in Hx. subst h'.
  apply (Permutation_in h (Permutation_sym P)). now left.
Qed.

Variable dbg : bool.
Variable g : geom.
Hypothesis Hslots : forall h, ok h -> slots dbg g h = Ok (s1 h, s2 h, s3 h).

Lemma bind_assoc {A B C} (r : res A) (k : A -> res B) (k2 : B -> res C) :
  (let* b := (let* a := r in k a) in k2 b) = (let* a := r in let* b := k a in k2 b).
Proof. destruct r; reflexivity. Qed.

Lemma count_one_eq st h t' :
  ok h ->
  (let* t := bump dbg 0 h (s1 h) (fst (fst st)) in
   let* t := bump dbg 1 h (s2 h) t in
   bump dbg 2 h (s3 h) t) = Ok t' ->
  count_one dbg g st h =
  (let* h1 := idx (snd t') (s1 h) in
  let* h2 := idx (snd t') (s2 h) in
  let* h3 := idx (snd t') (s3 h) in
  let* c1 := idx (fst t') (s1 h) in
  let* c2 := idx (fst t') (s2 h) in
  let* c3 := idx (fst t') (s3 h) in
  let* (t, duplicates) :=
    (if Z.land (Z.land h1 h2) h3 =? 0 then
       if ((h1 =? 0) && (c1 =? 8)) || ((h2 =? 0) && (c2 =? 8)) || ((h3 =? 0) && (c3 =? 8)) then
         let* t := (let* t := unbump dbg 0 h (s1 h) t' in
         let* t := unbump dbg 1 h (s2 h) t in
         unbump dbg 2 h (s3 h) t) in
         Ok (t, S (snd (fst st)))
       else Ok (t', snd (fst st))
     else Ok (t', snd (fst st))) in
  let* c1 := idx (fst t) (s1 h) in
  let* c2 := idx (fst t) (s2 h) in
  let* c3 := idx (fst t) (s3 h) in
  Ok (t, duplicates, (c1 <? 4) || (c2 <? 4) || (c3 <? 4))).
Proof.
  intros Ho E. destruct st as [[t d] e]. cbn [fst snd] in *. unfold count_one.
  rewrite Hslots by auto. cbn [bind].
  destruct (bump dbg 0 h (s1 h) t) as [ta| | |]; cbn [bind] in *; try discriminate.
  destruct (bump dbg 1 h (s2 h) ta) as [tb| | |]; cbn [bind] in *; try discriminate.
  rewrite E. cbn [bind]. rewrite !bind_assoc.
  do 6 (apply bind_ext; intros ? _). f_equal.
  destruct (_ =? 0); [|reflexivity]. destruct (_ || _); [|reflexivity].
  apply bind_ext; intros ? _. rewrite !bind_assoc. reflexivity.
Qed.

Lemma repr_live_ge4 M t h j :
  repr no_own M t -> In h M -> inc h j = true -> (j < n)%nat -> (nth j (fst t) 0 <? 4) = false.
Proof.
  intros (_ & _ & R) Hin I Hj. destruct (R j Hj (fun f => f)) as (E & _ & _). rewrite E.
  apply Z.ltb_ge. unfold cnt. pose proof (px_range M j).
  assert (1 <= deg M j).
  { clear -Hin I Hs n. induction M as [|a M IH]; [destruct Hin|]. cbn [deg].
    pose proof (deg_nonneg M j). destruct Hin as [->|Hin]; [rewrite I; lia|].
    specialize (IH Hin). destruct (inc a j); lia. }
  lia.
Qed.

(** One key of the counting loop, without overflow. *)
Lemma count_one_ok M t d e h :
  ok h -> repr no_own M t -> (forall j, (j < n)%nat -> deg (h :: M) j <= 63) ->
  exists t' d', count_one dbg g (t, d, e) h = Ok (t', d', false) /\
    ((d' = d /\ repr no_own (h :: M) t') \/ (d' = S d /\ In h M /\ repr no_own M t')).
Proof.
  intros Ho R Hd. destruct (bump3 dbg h M t Ho R Hd) as (t1 & R1 & E1).
  rewrite (count_one_eq (t, d, e) _ t1 Ho E1). cbn [fst snd].
  destruct (Hs h Ho) as (B1 & B2 & B3 & _). destruct (inc_s h) as (I1 & I2 & I3).
  pose proof R1 as (Lc & Lx & RR).
  destruct (RR _ B1 (fun f => f)) as (C1 & X1 & _).
  destruct (RR _ B2 (fun f => f)) as (C2 & X2 & _).
  destruct (RR _ B3 (fun f => f)) as (C3 & X3 & _).
  rewrite (idx_nth (snd t1) (s1 h) 0), (idx_nth (snd t1) (s2 h) 0), (idx_nth (snd t1) (s3 h) 0) by lia.
  rewrite (idx_nth (fst t1) (s1 h) 0), (idx_nth (fst t1) (s2 h) 0), (idx_nth (fst t1) (s3 h) 0) by lia.
  cbn [bind]. rewrite C1, C2, C3, X1, X2, X3.
  set (a := hx (h :: M) (s1 h)). set (b := hx (h :: M) (s2 h)). set (c := hx (h :: M) (s3 h)).
  assert (F : forall t', length (fst t') = n ->
     (exists M', repr no_own M' t' /\ In h M') ->
     forall d' : nat,
     (let* c1 := idx (fst t') (s1 h) in
      let* c2 := idx (fst t') (s2 h) in
      let* c3 := idx (fst t') (s3 h) in
      Ok (t', d', (c1 <? 4) || (c2 <? 4) || (c3 <? 4))) = Ok (t', d', false)).
  { intros t' L (M' & R' & Hin) d'.
    rewrite (idx_nth (fst t') (s1 h) 0), (idx_nth (fst t') (s2 h) 0), (idx_nth (fst t') (s3 h) 0) by lia.
    cbn [bind]. rewrite !(repr_live_ge4 M' t' h) by auto. reflexivity. }
  assert (Keep : exists t' d',
     (let* (t, duplicates) := Ok (t1, d) in
      let* c1 := idx (fst t) (s1 h) in
      let* c2 := idx (fst t) (s2 h) in
      let* c3 := idx (fst t) (s3 h) in
      Ok (t, duplicates, (c1 <? 4) || (c2 <? 4) || (c3 <? 4))) = Ok (t', d', false) /\
     ((d' = d /\ repr no_own (h :: M) t') \/ (d' = S d /\ In h M /\ repr no_own M t'))).
  { exists t1, d. cbn [bind]. split; [apply F; auto; exists (h :: M); split; auto; now left|left; auto]. }
  destruct (Z.land (Z.land a b) c =? 0); [|exact Keep].
  destruct (((a =? 0) && (cnt (h :: M) (s1 h) =? 8)) || ((b =? 0) && (cnt (h :: M) (s2 h) =? 8))
            || ((c =? 0) && (cnt (h :: M) (s3 h) =? 8))) eqn:Q; [|exact Keep].
  assert (Hin : In h M).
  { rewrite !orb_true_iff, !andb_true_iff, !Z.eqb_eq in Q.
    destruct Q as [[[Q1 Q2]|[Q1 Q2]]|[Q1 Q2]];
      [apply (dup_found h M (s1 h))|apply (dup_found h M (s2 h))|apply (dup_found h M (s3 h))]; auto. }
  destruct (unbump3 dbg h M t1 Ho R1) as (t2 & R2 & ->). cbn [bind].
  exists t2, (S d). split; [|right; auto].
  apply F; [apply R2|exists M; auto].
Qed.

Lemma count_one_overflow M t d e h j :
  dbg = true -> ok h -> repr no_own M t -> (j < n)%nat -> 63 < deg (h :: M) j ->
  count_one dbg g (t, d, e) h = Panic.
Proof.
  intros D Ho R Hj Hd. pose proof (bump3_overflow h M t j Ho R Hj Hd) as B.
  unfold count_one. rewrite Hslots by auto. cbn [bind]. rewrite D.
  destruct (bump true 0 h (s1 h) t) as [ta| | |]; cbn [bind] in *; try discriminate; auto.
  destruct (bump true 1 h (s2 h) ta) as [tb| | |]; cbn [bind] in *; try discriminate; auto.
  rewrite B. reflexivity.
Qed.

(** The whole counting loop. [counted hs M d]: M is what is live after processing hs. *)
Definition counted (hs M : list Z) (d : nat) : Prop :=
  (length M + d = length hs)%nat /\ (forall h, In h M <-> In h hs) /\
  (forall j, deg M j <= deg hs j) /\ (NoDup hs -> Permutation M hs /\ d = 0%nat).

Lemma counted_keep hs M d h : counted hs M d -> counted (hs ++ [h]) (h :: M) d.
Proof.
  intros (L & I & D & N). split; [rewrite app_length; cbn [length]; lia|]. split.
  { intros x. rewrite in_app_iff. cbn [In]. rewrite I. tauto. }
  split.
  { intros j. rewrite deg_app. cbn [deg]. specialize (D j). destruct (inc h j); lia. }
  intros ND. apply NoDup_remove in ND. rewrite app_nil_r in ND. destruct ND as [ND _].
  destruct (N ND) as [P ->]. split; auto. rewrite P. apply Permutation_cons_append.
Qed.

Lemma counted_dup hs M d h : In h M -> counted hs M d -> counted (hs ++ [h]) M (S d).
Proof.
  intros Hin (L & I & D & N). split; [rewrite app_length; cbn [length]; lia|]. split.
  { intros x. rewrite in_app_iff. cbn [In]. rewrite I. split; [tauto|].
    intros [H|[<-|[]]]; auto. now apply I. }
  split.
  { intros j. rewrite deg_app. cbn [deg]. specialize (D j). destruct (inc h j); lia. }
  intros ND. apply NoDup_remove in ND. rewrite app_nil_r in ND. destruct ND as [_ ND].
  exfalso. apply ND. now apply I.
Qed.

Lemma count_all hs : forall hs0 M t d e,
  Forall ok hs -> counted hs0 M d -> repr no_own M t ->
  (exists t' d' M' e', foldM (count_one dbg g) hs (t, d, e) = Ok (t', d', e') /\
      counted (hs0 ++ hs) M' d' /\ repr no_own M' t' /\ (e = false -> e' = false)) \/
  ((exists j, (j < n)%nat /\ 63 < deg (hs0 ++ hs) j) /\
   (dbg = true -> foldM (count_one dbg g) hs (t, d, e) = Panic)).
Proof.
  induction hs as [|h hs IH]; intros hs0 M t d e Ho HC R.
  - left. exists t, d, M, e. rewrite app_nil_r. cbn [foldM]. auto.
  - inversion Ho as [|? ? Hh Ho']; subst.
    assert (Dec : (forall j, (j < n)%nat -> deg (h :: M) j <= 63) \/
                  (exists j, (j < n)%nat /\ 63 < deg (h :: M) j)).
    { generalize n. clear. intros k. induction k as [|k IH].
      - left. intros j Hj. lia.
      - destruct IH as [IH|(j & Hj & H)].
        + destruct (Z.le_gt_cases (deg (h :: M) k) 63) as [L|L].
          * left. intros j Hj. destruct (Nat.eq_dec j k) as [->|]; [auto|apply IH; lia].
          * right. exists k. split; [lia|lia].
        + right. exists j. split; [lia|auto]. }
    destruct Dec as [Hd|(j & Hj & Hd)].
    + destruct (count_one_ok M t d e h Hh R Hd) as (t' & d' & E & Cases).
      cbn [foldM]. rewrite E. cbn [bind].
      replace (hs0 ++ h :: hs) with ((hs0 ++ [h]) ++ hs) by (rewrite <- app_assoc; reflexivity).
      destruct Cases as [[-> R']|(-> & Hin & R')].
      * destruct (IH (hs0 ++ [h]) (h :: M) t' d false Ho' (counted_keep _ _ _ _ HC) R')
          as [(t2 & d2 & M2 & e2 & E2 & C2 & R2 & F)|O]; [left|right; exact O].
        exists t2, d2, M2, e2. auto.
      * destruct (IH (hs0 ++ [h]) M t' (S d) false Ho' (counted_dup _ _ _ _ Hin HC) R')
          as [(t2 & d2 & M2 & e2 & E2 & C2 & R2 & F)|O]; [left|right; exact O].
        exists t2, d2, M2, e2. auto.
    + right. split.
      * exists j. split; auto. rewrite deg_app. cbn [deg] in *.
        destruct HC as (_ & _ & D & _). specialize (D j). pose proof (deg_nonneg hs j).
        destruct (inc h j); lia.
      * intros Dbg. cbn [foldM]. rewrite (count_one_overflow M t d e h j); auto.
Qed.

(** ** Peeling *)

Definition own_slot (e : Z * Z) : nat := nth (Z.to_nat (snd e)) [s1 (fst e); s2 (fst e); s3 (fst e)] 0%nat.
Definition owned (stack : list (Z * Z)) (j : nat) : Prop := exists e, In e stack /\ own_slot e = j.

(** Stack order (head = last peeled): the slot given to an entry belongs to no entry peeled
    later. *)
Fixpoint ordered (stack : list (Z * Z)) : Prop :=
  match stack with
  | [] => True
  | e :: rest => (forall e', In e' rest -> inc (fst e) (own_slot e') = false) /\ ordered rest
  end.

Definition entry_ok (e : Z * Z) : Prop := ok (fst e) /\ (snd e = 0 \/ snd e = 1 \/ snd e = 2).

Record peel_inv (M0 : list Z) (q : list nat) (stack : list (Z * Z)) (M : list Z) (t : tables) : Prop := {
  pi_perm : Permutation (map fst stack ++ M) M0;
  pi_repr : repr (owned stack) M t;
  pi_own : forall j, owned stack j -> deg M j = 0;
  pi_ok : Forall ok M;
  pi_stack : Forall entry_ok stack;
  pi_ord : ordered stack;
  pi_q_nodup : NoDup q;
  pi_q_lt : Forall (fun j => (j < n)%nat) q;
  pi_q_deg : forall j, In j q -> deg M j <= 1 /\ ~ owned stack j;
  pi_q_all : forall j, (j < n)%nat -> deg M j = 1 -> In j q }.

Lemma posn_slot h j : ok h -> inc h j = true ->
  nth (Z.to_nat (posn h j)) [s1 h; s2 h; s3 h] 0%nat = j /\
  (posn h j = 0 \/ posn h j = 1 \/ posn h j = 2).
Proof.
  intros Ho I. destruct (posn_s h Ho) as (P1 & P2 & P3). apply inc_true in I.
  destruct I as [->|[->| ->]]; rewrite ?P1, ?P2, ?P3; cbn; auto.
Qed.

Lemma owned_cons e st j : owned (e :: st) j <-> own_slot e = j \/ owned st j.
Proof.
  split.
  - intros (e' & [<-|H] & E); [left; auto|right; exists e'; auto].
  - intros [E|(e' & H & E)]; [exists e; split; [left; auto|auto]|exists e'; split; [right; auto|auto]].
Qed.

Lemma nodup_lt_length (l : list nat) (k : nat) :
  NoDup l -> Forall (fun j => (j < k)%nat) l -> (length l <= k)%nat.
Proof.
  intros ND HF. rewrite <- (seq_length k 0). apply NoDup_incl_length; auto.
  intros x Hx. apply in_seq. rewrite Forall_forall in HF. specialize (HF x Hx). lia.
Qed.

(** unbump at one slot of the peeled key. *)
Lemma unbump_other stack h M t o p :
  ok h -> inc h o = true -> p = posn h o -> (o < n)%nat ->
  length (fst t) = n -> length (snd t) = n ->
  nth o (fst t) 0 = cnt (h :: M) o -> nth o (snd t) 0 = hx (h :: M) o -> deg (h :: M) o <= 63 ->
  stack = stack :> list (Z * Z) ->
  unbump dbg p h o t = Ok (upd (fst t) o (cnt M o), upd (snd t) o (hx M o)).
Proof.
  intros Ho I -> Hlt Lc Lx Ec Ex D _. destruct t as [c x]. cbn [fst snd] in *.
  rewrite unbump_raw; auto.
  - rewrite Ec, Ex. destruct (cnt_uncons h M o I) as [-> ->]. reflexivity.
  - rewrite Ec. pose proof (cnt_bounds _ _ D). unfold cnt in *. cbn [deg] in *. rewrite I in *.
    pose proof (px_range (h :: M) o). pose proof (deg_nonneg M o). lia.
Qed.

Hypothesis Hn : g_arrlen g = n.

Lemma peel_step_skip M0 idx0 q stack M t size :
  peel_inv M0 (idx0 :: q) stack M t -> deg M idx0 <> 1 ->
  peel_step dbg g size (idx0 :: q, stack, t) = Ok (q, stack, t) /\ peel_inv M0 q stack M t.
Proof.
  intros H Hd. destruct H.
  pose proof pi_q_lt0 as QQ. apply Forall_cons_iff in QQ. destruct QQ as [Hlt Hlt'].
  pose proof pi_q_nodup0 as QQ. apply NoDup_cons_iff in QQ. destruct QQ as [Hni Hnd].
  destruct (pi_q_deg0 idx0 (or_introl eq_refl)) as [Dq Oq].
  destruct pi_repr0 as (Lc & Lx & R). destruct (R idx0 Hlt Oq) as (Ec & Ex & _).
  split.
  - unfold peel_step. rewrite (idx_nth _ idx0 0) by lia. cbn [bind].
    rewrite Ec. unfold cnt. rewrite shiftr4 by apply px_range.
    rewrite (proj2 (Z.eqb_neq _ _)) by auto. reflexivity.
  - constructor; auto.
    + split; [exact Lc|]. split; [exact Lx|]. exact R.
    + intros j Hj. apply pi_q_deg0. now right.
    + intros j Hj D. destruct (pi_q_all0 j Hj D) as [->|]; auto. congruence.
Qed.

Lemma h012_at h f o1 o2 p :
  ok h -> inc h p = true -> f = posn h p ->
  idx [0; s2 h; s3 h; s1 h; s2 h; 0]%nat (Z.to_nat (f + 1)) = Ok o1 ->
  idx [0; s2 h; s3 h; s1 h; s2 h; 0]%nat (Z.to_nat (f + 2)) = Ok o2 ->
  inc h o1 = true /\ inc h o2 = true /\ o1 <> o2 /\ o1 <> p /\ o2 <> p /\
  mod3 (f + 1) = posn h o1 /\ mod3 (f + 2) = posn h o2 /\
  (forall j, inc h j = true -> j = p \/ j = o1 \/ j = o2) /\ (o1 < n)%nat /\ (o2 < n)%nat.
Proof.
  intros Ho I -> E1 E2. destruct (Hs h Ho) as (B1 & B2 & B3 & N12 & N13 & N23).
  destruct (posn_s h Ho) as (P1 & P2 & P3). destruct (inc_s h) as (I1 & I2 & I3).
  apply inc_true in I.
  destruct I as [->|[->| ->]]; rewrite ?P1, ?P2, ?P3 in *; cbn in E1, E2;
    injection E1 as <-; injection E2 as <-; rewrite ?P1, ?P2, ?P3;
    repeat (split; [solve [auto]|]); split; auto;
    intros j Hj; apply inc_true in Hj; tauto.
Qed.

Lemma h012_get h p :
  ok h -> inc h p = true ->
  exists o1 o2,
  idx [0; s2 h; s3 h; s1 h; s2 h; 0]%nat (Z.to_nat (posn h p + 1)) = Ok o1 /\
  idx [0; s2 h; s3 h; s1 h; s2 h; 0]%nat (Z.to_nat (posn h p + 2)) = Ok o2.
Proof.
  intros Ho I. destruct (posn_s h Ho) as (P1 & P2 & P3). apply inc_true in I.
  destruct I as [->|[->| ->]]; rewrite ?P1, ?P2, ?P3; cbn; do 2 eexists; split; reflexivity.
Qed.

Lemma peel_step_take M0 i q stack M t size :
  peel_inv M0 (i :: q) stack M t -> deg M i = 1 -> (length M0 <= size)%nat ->
  exists h f q' M' t',
    peel_step dbg g size (i :: q, stack, t) = Ok (q', (h, f) :: stack, t') /\
    peel_inv M0 q' ((h, f) :: stack) M' t' /\ Permutation M (h :: M') /\
    (length q' <= length q + 2)%nat.
Proof.
  intros H Hd Hsz. destruct H.
  pose proof pi_q_lt0 as QQ. apply Forall_cons_iff in QQ. destruct QQ as [Hlt Hlt'].
  pose proof pi_q_nodup0 as QQ. apply NoDup_cons_iff in QQ. destruct QQ as [Hni Hnd].
  destruct (pi_q_deg0 i (or_introl eq_refl)) as [_ Oq].
  destruct pi_repr0 as (Lc & Lx & R). destruct (R i Hlt Oq) as (Ec & Ex & _).
  destruct (deg1 M i Hd) as (h & M' & P & I & D' & Px & Hx).
  assert (Ho : ok h).
  { rewrite Forall_forall in pi_ok0. apply pi_ok0.
    apply (Permutation_in h (Permutation_sym P)). now left. }
  destruct (h012_get h i Ho I) as (o1 & o2 & E1 & E2).
  destruct (h012_at h _ o1 o2 i Ho I eq_refl E1 E2)
    as (J1 & J2 & N12 & N1 & N2 & MP1 & MP2 & Only & B1 & B2).
  destruct (posn_slot h i Ho I) as [Own F012].
  assert (Hown : own_slot (h, posn h i) = i) by exact Own.
  (* slots of h are not owned *)
  assert (NO : forall j, inc h j = true -> ~ owned stack j).
  { intros j Ij Oj. specialize (pi_own0 j Oj).
    destruct (deg0 M j pi_own0) as (_ & _ & K). specialize (K h).
    rewrite K in Ij; [discriminate|]. apply (Permutation_in h (Permutation_sym P)). now left. }
  destruct (R o1 B1 (NO o1 J1)) as (C1 & X1 & D1). destruct (R o2 B2 (NO o2 J2)) as (C2 & X2 & D2).
  assert (PC : forall j, cnt M j = cnt (h :: M') j).
  { intros j. unfold cnt. now rewrite (deg_perm _ _ j P), (px_perm _ _ j P). }
  assert (PX : forall j, hx M j = hx (h :: M') j) by (intros j; apply hx_perm; auto).
  assert (PD : forall j, deg M j = deg (h :: M') j) by (intros j; apply deg_perm; auto).
  assert (DC : forall j, deg M j = (if inc h j then 1 else 0) + deg M' j) by (intros j; apply PD).
  set (q1 := if deg M o1 =? 2 then o1 :: q else q).
  set (q2 := if deg M o2 =? 2 then o2 :: q1 else q1).
  set (t1 := (upd (fst t) o1 (cnt M' o1), upd (snd t) o1 (hx M' o1))).
  set (t2 := (upd (fst t1) o2 (cnt M' o2), upd (snd t1) o2 (hx M' o2))).
  assert (L1 : length (fst t1) = n) by (unfold t1; cbn [fst]; rewrite length_upd; auto).
  assert (L1x : length (snd t1) = n) by (unfold t1; cbn [snd]; rewrite length_upd; auto).
  assert (Q1f : forall j, In j q1 -> j = o1 /\ deg M o1 = 2 \/ In j q).
  { intros j. unfold q1. destruct (Z.eqb_spec (deg M o1) 2); cbn [In]; intuition. }
  assert (Q2f : forall j, In j q2 -> j = o2 /\ deg M o2 = 2 \/ j = o1 /\ deg M o1 = 2 \/ In j q).
  { intros j. unfold q2. destruct (Z.eqb_spec (deg M o2) 2); cbn [In]; intros Hj.
    - destruct Hj as [<-|Hj]; [left; auto|right; apply Q1f; auto].
    - right. apply Q1f; auto. }
  assert (Qdeg : forall j, In j q -> deg M j <= 1) by (intros j Hj; apply pi_q_deg0; now right).
  assert (ND1 : NoDup q1).
  { unfold q1. destruct (Z.eqb_spec (deg M o1) 2); auto. constructor; auto.
    intros Hin. specialize (Qdeg o1 Hin). lia. }
  assert (ND2 : NoDup q2).
  { unfold q2. destruct (Z.eqb_spec (deg M o2) 2); auto. constructor; auto.
    intros Hin. destruct (Q1f o2 Hin) as [[E _]|Hin']; [congruence|]. specialize (Qdeg o2 Hin'). lia. }
  assert (QL1 : Forall (fun j => (j < n)%nat) q1).
  { unfold q1. destruct (deg M o1 =? 2); auto. }
  assert (QL2 : Forall (fun j => (j < n)%nat) q2).
  { unfold q2. destruct (deg M o2 =? 2); auto. }
  assert (NI1 : ~ In i q1).
  { intros Hin. destruct (Q1f i Hin) as [[E _]|Hin']; [congruence|auto]. }
  assert (Len : (length q < n)%nat).
  { apply (nodup_lt_length (i :: q)); auto. }
  assert (Len1 : (length q1 < n)%nat).
  { apply (nodup_lt_length (i :: q1)); [constructor; auto|constructor; auto]. }
  assert (Hlm : (length stack < size)%nat).
  { pose proof (Permutation_length pi_perm0) as PL. rewrite app_length, map_length in PL.
    pose proof (Permutation_length P) as PL2. cbn [length] in PL2. lia. }
  exists h, (posn h i), q2, M', t2. split; [|split; [|split]].
  - unfold peel_step. rewrite Hn. rewrite (idx_nth _ i 0) by lia. cbn [bind]. rewrite Ec. unfold cnt at 1.
    rewrite shiftr4 by apply px_range. rewrite Hd. change (1 =? 1) with true. cbv iota.
    rewrite (idx_nth _ i 0) by lia. cbn [bind]. rewrite Ex, Hx.
    assert (EL : Z.land (cnt M i) 3 = posn h i) by (unfold cnt; rewrite land3 by apply px_range; exact Px).
    rewrite !EL.
    rewrite (proj2 (Nat.ltb_lt _ _)) by exact Hlm. rewrite Hslots by auto. cbn [bind].
    rewrite E1. cbn [bind]. rewrite (idx_nth _ o1 0) by lia. cbn [bind].
    rewrite C1. unfold cnt at 1. rewrite shiftr4 by apply px_range.
    unfold enqueue_if at 1. rewrite (proj2 (Nat.ltb_lt _ _)) by exact Len. cbn [bind]. fold q1.
    rewrite (unbump_other stack h M' t o1) by (first [reflexivity | assumption | rewrite <- PC; assumption | rewrite <- PX; assumption | rewrite <- PD; assumption ]).
    cbn [bind]. fold t1. rewrite E2. cbn [bind]. rewrite (idx_nth _ o2 0) by lia. cbn [bind].
    assert (EC2 : nth o2 (fst t1) 0 = cnt M o2).
    { unfold t1; cbn [fst]. rewrite nth_upd_ne by auto. exact C2. }
    assert (EX2 : nth o2 (snd t1) 0 = hx M o2).
    { unfold t1; cbn [snd]. rewrite nth_upd_ne by auto. exact X2. }
    rewrite EC2. unfold cnt at 1. rewrite shiftr4 by apply px_range.
    unfold enqueue_if. rewrite (proj2 (Nat.ltb_lt _ _)) by exact Len1. cbn [bind]. fold q2.
    rewrite (unbump_other stack h M' t1 o2) by (first [reflexivity | assumption | rewrite <- PC; assumption | rewrite <- PX; assumption | rewrite <- PD; assumption ]).
    cbn [bind]. reflexivity.
  - constructor; auto.
    + cbn [map fst]. rewrite <- pi_perm0. rewrite P. cbn [app]. apply Permutation_middle.
    + split; [unfold t2; cbn [fst]; now rewrite length_upd|]. split; [unfold t2; cbn [snd]; now rewrite length_upd|].
      intros j Hj NOj. unfold t2; cbn [fst snd]. rewrite !nth_upd by lia.
      assert (Nji : j <> i) by (intros ->; apply NOj, owned_cons; left; exact Hown).
      assert (NOj' : ~ owned stack j) by (intros K; apply NOj, owned_cons; now right).
      destruct (R j Hj NOj') as (Cj & Xj & Dj).
      assert (Dj' : deg M' j <= 63) by (rewrite DC in Dj; destruct (inc h j); lia).
      destruct (Nat.eqb_spec j o2) as [->|]; [auto|].
      unfold t1; cbn [fst snd]. rewrite !nth_upd by lia. destruct (Nat.eqb_spec j o1) as [->|]; [auto|].
      rewrite Cj, Xj, PC, PX.
      assert (Ij : inc h j = false).
      { destruct (inc h j) eqn:Ij; auto. destruct (Only j Ij) as [|[|]]; congruence. }
      destruct (cnt_cons_ne h M' j Ij) as [-> ->]. auto.
    + intros j Oj. apply owned_cons in Oj. destruct Oj as [<-|Oj]; [rewrite Hown; auto|].
      specialize (pi_own0 j Oj). rewrite DC in pi_own0. pose proof (deg_nonneg M' j).
      destruct (inc h j); lia.
    + apply (Permutation_Forall P) in pi_ok0. inversion pi_ok0; auto.
    + constructor; auto. split; auto.
    + cbn [ordered]. split; auto. intros e' He'. cbn [fst].
      destruct (inc h (own_slot e')) eqn:K; auto. exfalso.
      apply (NO _ K). exists e'. auto.
    + intros j Hj. destruct (Q2f j Hj) as [[-> E]|[[-> E]|Hq]].
      * rewrite DC, J2 in E. split; [lia|]. intros K. apply owned_cons in K.
        destruct K as [K|K]; [congruence|exact (NO o2 J2 K)].
      * rewrite DC, J1 in E. split; [lia|]. intros K. apply owned_cons in K.
        destruct K as [K|K]; [congruence|exact (NO o1 J1 K)].
      * destruct (pi_q_deg0 j (or_intror Hq)) as [Dj Oj]. rewrite DC in Dj. split.
        -- destruct (inc h j); lia.
        -- intros K. apply owned_cons in K. destruct K as [K|K]; [|auto].
           rewrite Hown in K. subst j. auto.
    + intros j Hj Dj.
      assert (Q12 : In j q -> In j q2).
      { intros K. unfold q2. assert (In j q1) by (unfold q1; destruct (deg M o1 =? 2); [right; auto|auto]).
        destruct (deg M o2 =? 2); [right; auto|auto]. }
      destruct (inc h j) eqn:Ij.
      * assert (DM : deg M j = 2) by (rewrite DC, Ij; lia).
        destruct (Only j Ij) as [->|[->| ->]]; [lia| |].
        -- unfold q2, q1. rewrite DM. change (2 =? 2) with true. cbv iota.
           destruct (deg M o2 =? 2); [right; left; auto|left; auto].
        -- unfold q2. rewrite DM. left. auto.
      * assert (DM : deg M j = 1) by (rewrite DC, Ij; lia).
        destruct (pi_q_all0 j Hj DM) as [->|K]; [congruence|auto].
  - exact P.
  - unfold q2, q1. destruct (deg M o2 =? 2), (deg M o1 =? 2); cbn [length]; lia.
Qed.

Lemma peel_run M0 size : (length M0 <= size)%nat ->
  forall fuel q stack M t,
  peel_inv M0 q stack M t -> (length q + 2 * length M <= fuel)%nat ->
  exists stack' M' t', peel fuel dbg g size (q, stack, t) = Ok ([], stack', t') /\
    peel_inv M0 [] stack' M' t'.
Proof.
  intros Hsz. induction fuel as [|fuel IH]; intros q stack M t H HF.
  - destruct q as [|i q]; [|cbn [length] in HF; lia]. exists stack, M, t. cbn [peel fst]. auto.
  - destruct q as [|i q]; [exists stack, M, t; cbn [peel fst]; auto|].
    cbn [peel fst]. destruct (Z.eq_dec (deg M i) 1) as [Hd|Hd].
    + destruct (peel_step_take M0 i q stack M t size H Hd Hsz)
        as (h & f & q' & M' & t' & E & H' & P & L). rewrite E. cbn [bind].
      apply (IH q' _ M'); auto. apply Permutation_length in P. cbn [length] in *. lia.
    + destruct (peel_step_skip M0 i q stack M t size H Hd) as [E H']. rewrite E. cbn [bind].
      apply (IH q _ M); auto. cbn [length] in *. lia.
Qed.

Lemma init_queue_inv M t :
  repr no_own M t -> Forall ok M ->
  exists q, init_queue n (fst t) = Ok q /\ (length q <= n)%nat /\ peel_inv M q [] M t.
Proof.
  intros (Lc & Lx & R) Hok.
  assert (G : forall k, (k <= n)%nat ->
    exists q, foldM (fun q i => let* c := idx (fst t) i in enqueue_if n (Z.shiftr c 2 =? 1) i q)
                 (seq 0 k) [] = Ok q /\ (length q <= k)%nat /\ NoDup q /\
      (forall j, In j q <-> (j < k)%nat /\ deg M j = 1)).
  { induction k as [|k IH]; intros Hk.
    - exists []. cbn. repeat split; auto; try constructor; lia.
    - destruct IH as (q & E & Lq & ND & Q); [lia|].
      rewrite seq_S', foldM_app, E. cbn [bind foldM Nat.add].
      rewrite (idx_nth _ k 0) by lia. cbn [bind]. unfold enqueue_if.
      rewrite (proj2 (Nat.ltb_lt _ _)) by lia. cbn [bind].
      destruct (R k ltac:(lia) (fun f => f)) as (Ec & _ & _). rewrite Ec. unfold cnt.
      rewrite shiftr4 by apply px_range.
      destruct (Z.eqb_spec (deg M k) 1) as [D|D].
      + exists (k :: q). split; [reflexivity|]. split; [cbn [length]; lia|]. split.
        * constructor; auto. intros K. apply Q in K. lia.
        * intros j. cbn [In]. rewrite Q. split.
          -- intros [<-|[? ?]]; split; auto; lia.
          -- intros [? ?]. destruct (Nat.eq_dec k j); [auto|right; split; auto; lia].
      + exists q. split; [reflexivity|]. split; [lia|]. split; auto.
        intros j. rewrite Q. split; [intros [? ?]; split; auto; lia|].
        intros [? ?]. split; auto. destruct (Nat.eq_dec k j); [congruence|lia]. }
  destruct (G n (le_n n)) as (q & E & Lq & ND & Q).
  exists q. split; [exact E|]. split; auto.
  constructor; try assumption.
  - apply Permutation_refl.
  - split; [auto|]. split; [auto|]. intros j Hj _. apply R; auto.
  - intros j (e & [] & _).
  - constructor.
  - exact I.
  - apply Forall_forall. intros j Hj. apply Q in Hj. tauto.
  - intros j Hj. apply Q in Hj. destruct Hj as [_ ->]. split; [lia|].
    intros (e & [] & _).
  - intros j Hj D. apply Q. auto.
Qed.

(** ** Peelable key sets *)
Inductive peels : list Z -> Prop :=
| peels_nil : peels []
| peels_take h M M' j : Permutation M (h :: M') -> inc h j = true ->
    (forall h', In h' M' -> inc h' j = false) -> peels M' -> peels M.

Lemma peels_sub M : peels M -> forall N R, Permutation M (N ++ R) -> N <> [] ->
  exists j h, In h N /\ inc h j = true /\ deg N j = 1.
Proof.
  intros HP. induction HP as [|h M M' j P I A HP' IH]; intros N R PN NN.
  - apply Permutation_nil in PN. apply app_eq_nil in PN. tauto.
  - rewrite P in PN.
    assert (Hin : In h (N ++ R)) by (apply (Permutation_in h PN); now left).
    apply in_app_iff in Hin. destruct Hin as [Hin|Hin].
    + apply in_split in Hin. destruct Hin as (N1 & N2 & ->).
      exists j, h. split; [apply in_app_iff; right; now left|]. split; auto.
      rewrite (deg_perm _ (h :: N1 ++ N2)) by (symmetry; apply Permutation_middle).
      cbn [deg]. rewrite I.
      assert (Z0 : deg (N1 ++ N2) j = 0).
      { apply deg_zero_iff. intros h' H'. apply A.
        assert (PP : Permutation (h :: M') (h :: (N1 ++ N2) ++ R)).
        { rewrite PN. rewrite <- app_assoc. cbn [app]. rewrite <- app_assoc. symmetry.
          rewrite Permutation_middle. reflexivity. }
        apply Permutation_cons_inv in PP. apply (Permutation_in h' (Permutation_sym PP)).
        apply in_app_iff. now left. }
      lia.
    + apply in_split in Hin. destruct Hin as (R1 & R2 & ->).
      apply (IH N (R1 ++ R2)); auto.
      assert (PP : Permutation (h :: M') (h :: N ++ R1 ++ R2)).
      { rewrite PN. symmetry. rewrite !app_assoc. apply Permutation_middle. }
      now apply Permutation_cons_inv in PP.
Qed.

Lemma peel_final M0 stack M t :
  peel_inv M0 [] stack M t -> (M = [] <-> peels M0).
Proof.
  intros H. destruct H. split.
  - intros ->. rewrite app_nil_r in pi_perm0.
    clear - pi_perm0 pi_stack0 pi_ord0 Hs.
    (* rebuild a peeling order from the stack: last entry of the list is peeled first *)
    assert (G : forall st, Forall entry_ok st -> ordered st -> peels (map fst st)).
    { induction st as [|e st IH] using rev_ind; intros F O; [constructor|].
      apply Forall_app in F. destruct F as [F1 F2]. inversion F2 as [|? ? Fe _]; subst.
      assert (OO : ordered st /\ forall e', In e' st -> inc (fst e') (own_slot e) = false).
      { clear - O. induction st as [|a st IH]; cbn [app ordered] in *.
        - split; auto. intros e' [].
        - destruct O as [O1 O2]. destruct (IH O2) as [I1 I2]. split.
          + split; auto. intros e' He'. apply O1. apply in_app_iff. now left.
          + intros e' [<-|He']; auto. apply O1. apply in_app_iff. right. now left. }
      destruct OO as [O1 O2].
      apply (peels_take (fst e) _ (map fst st) (own_slot e)).
      - rewrite map_app. cbn [map]. symmetry. apply Permutation_cons_append.
      - destruct Fe as [Fo [Ff|[Ff|Ff]]]; unfold own_slot; rewrite Ff; cbn; apply inc_true; auto.
      - intros h' Hh'. apply in_map_iff in Hh'. destruct Hh' as (e' & <- & He'). auto.
      - apply IH; auto. }
    specialize (G stack pi_stack0 pi_ord0).
    assert (PP : forall A B, Permutation A B -> peels A -> peels B).
    { intros A B PAB HA. inversion HA as [|h A' M' j P I Hf HP]; subst.
      - apply Permutation_nil in PAB. subst. constructor.
      - apply (peels_take h B M' j); auto. now rewrite <- PAB. }
    eapply PP; eauto.
  - intros HP. destruct M as [|h M]; auto. exfalso.
    destruct (peels_sub M0 HP (h :: M) (map fst stack)) as (j & h' & Hin & I & D).
    + rewrite <- pi_perm0. apply Permutation_app_comm.
    + discriminate.
    + apply (pi_q_all0 j); auto.
      rewrite Forall_forall in pi_ok0. specialize (pi_ok0 h' Hin).
      destruct (Hs h' pi_ok0) as (B1 & B2 & B3 & _). apply inc_true in I.
      destruct I as [->|[->| ->]]; auto.
Qed.
End Tables.
