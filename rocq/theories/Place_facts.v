(** Bucketed placement of the hashes: it always ends and permutes the hashes. *)
From Coq Require Import Permutation.
From Verif Require Import Base Hash Fuse3 Base_facts Geom_facts.
Local Open Scope Z_scope.

Lemma probe_finds bb order sp i0 : forall fuel seg i,
  (0 < 2 ^ bb)%nat -> length sp = (2 ^ bb)%nat ->
  (forall j, (j < length sp)%nat -> (nth j sp 0 < length order)%nat) ->
  (seg < 2 ^ bb)%nat -> (i < fuel)%nat -> i0 = ((seg + i) mod 2 ^ bb)%nat ->
  nth (nth i0 sp 0%nat) order 1 = 0 ->
  exists seg', probe fuel bb order sp seg = Ok seg' /\ (seg' < 2 ^ bb)%nat /\
    nth (nth seg' sp 0%nat) order 1 = 0.
Proof.
  induction fuel as [|f IH]; intros seg i HB HL HP Hs Hi E Z0; [lia|].
  cbn [probe]. rewrite (idx_nth sp seg 0%nat) by lia. cbn [bind].
  rewrite (idx_nth order _ 1) by (apply HP; lia). cbn [bind].
  destruct (Z.eqb_spec (nth (nth seg sp 0%nat) order 1) 0) as [E0|E0].
  - exists seg. auto.
  - destruct i as [|i].
    { rewrite Nat.add_0_r, Nat.mod_small in E by lia. subst i0. congruence. }
    apply (IH _ i); auto.
    + apply Nat.mod_upper_bound. lia.
    + lia.
    + rewrite Nat.add_mod_idemp_l by lia. rewrite E. f_equal. lia.
Qed.

Lemma nth_start bb size j : (j < 2 ^ bb)%nat -> nth j (start_positions bb size) 0%nat = (j * size / 2 ^ bb)%nat.
Proof. intros H. unfold start_positions. now rewrite nth_map_seq. Qed.

Lemma length_start bb size : length (start_positions bb size) = (2 ^ bb)%nat.
Proof. unfold start_positions. now rewrite map_length, seq_length. Qed.

Lemma pow2_pos_nat b : (0 < 2 ^ b)%nat.
Proof. induction b; cbn; lia. Qed.

Lemma perm_upd_gen (l : list Z) p h d :
  (p < length l)%nat -> exists r, Permutation l (nth p l d :: r) /\ Permutation (upd l p h) (h :: r).
Proof.
  revert p. induction l as [|a l IH]; intros p Hp; cbn [length] in Hp; [lia|].
  destruct p as [|p].
  - exists l. cbn. auto.
  - destruct (IH p ltac:(lia)) as (r & P1 & P2). exists (a :: r). cbn [nth upd]. split.
    + rewrite P1 at 1. apply perm_swap.
    + rewrite P2. apply perm_swap.
Qed.

Section Place.
Variables bb n : nat.
Hypothesis Hbb : (bb <= 64)%nat.

Record pl_inv (D : list Z) (order : list Z) (sp : list nat) : Prop := {
  pl_len : length order = S n;
  pl_end : nth n order 0 = 1;
  pl_sp : length sp = (2 ^ bb)%nat;
  pl_perm : Permutation (firstn n order) (D ++ repeat 0 (n - length D));
  pl_D : (length D <= n)%nat;
  pl_le : forall j, (j < 2 ^ bb)%nat -> (nth j sp 0 <= n)%nat;
  pl_W : exists W, length W = length D /\ forall k, In k W <->
      exists j, (j < 2 ^ bb)%nat /\ (j * n / 2 ^ bb <= k < nth j sp 0)%nat;
  pl_lo : forall j, (j < 2 ^ bb)%nat -> (j * n / 2 ^ bb <= nth j sp 0)%nat;
  pl_zero : forall k, (k < n)%nat ->
      (forall j, (j < 2 ^ bb)%nat -> ~ (j * n / 2 ^ bb <= k < nth j sp 0)%nat) -> nth k order 0 = 0 }.

Lemma pl_init : pl_inv [] (repeat 0 n ++ [1]) (start_positions bb n).
Proof.
  constructor.
  - rewrite app_length, repeat_length. cbn. lia.
  - rewrite app_nth2; rewrite repeat_length; [|lia]. now rewrite Nat.sub_diag.
  - apply length_start.
  - rewrite firstn_app, repeat_length, Nat.sub_diag. cbn [firstn length]. rewrite app_nil_r.
    rewrite firstn_all2 by (rewrite repeat_length; lia). rewrite Nat.sub_0_r. apply Permutation_refl.
  - cbn; lia.
  - intros j Hj. rewrite nth_start by auto. apply Nat.div_le_upper_bound; [pose proof (pow2_pos_nat bb); lia|nia].
  - exists []. split; [reflexivity|]. intros k. split; [intros []|].
    intros (j & Hj & K). rewrite nth_start in K by auto. lia.
  - intros j Hj. now rewrite nth_start.
  - intros k Hk _. rewrite app_nth1 by (rewrite repeat_length; lia). apply nth_repeat.
Qed.

Lemma free_slot W : (length W < n)%nat -> exists k, (k < n)%nat /\ ~ In k W /\ forall k', (k' < k)%nat -> In k' W.
Proof.
  intros HW.
  assert (E : exists k, (k < n)%nat /\ ~ In k W).
  { destruct (existsb (fun k => negb (existsb (Nat.eqb k) W)) (seq 0 n)) eqn:E.
    - apply existsb_exists in E. destruct E as (k & Hk & E). apply in_seq in Hk.
      exists k. split; [lia|]. intros Hin. apply negb_true_iff in E.
      assert (T : existsb (Nat.eqb k) W = true) by (apply existsb_exists; exists k; split; auto; apply Nat.eqb_refl).
      congruence.
    - exfalso. assert (incl (seq 0 n) W).
      { intros k Hk. destruct (in_dec Nat.eq_dec k W) as [|N]; auto. exfalso.
        assert (T : existsb (fun k => negb (existsb (Nat.eqb k) W)) (seq 0 n) = true); [|congruence].
        apply existsb_exists. exists k. split; auto. apply negb_true_iff.
        destruct (existsb (Nat.eqb k) W) eqn:Q; auto. apply existsb_exists in Q.
        destruct Q as (k' & Hk' & Q). apply Nat.eqb_eq in Q. subst. contradiction. }
      pose proof (NoDup_incl_length (seq_NoDup n 0) H) as L. rewrite seq_length in L. lia. }
  destruct E as (k & Hk & N). revert Hk N. induction k as [k IH] using (well_founded_induction lt_wf).
  intros Hk N.
  assert (Dec : (forall k', (k' < k)%nat -> In k' W) \/ exists k', (k' < k)%nat /\ ~ In k' W).
  { clear -n. induction k as [|k IHk]; [left; intros; lia|].
    destruct IHk as [A|(k' & L & A)]; [|right; exists k'; split; auto; lia].
    destruct (in_dec Nat.eq_dec k W) as [I|I].
    - left. intros k' Hk'. destruct (Nat.eq_dec k' k) as [->|]; [auto|apply A; lia].
    - right. exists k. split; auto. }
  destruct Dec as [A|(k' & L & A)]; [exists k; auto|]. apply (IH k'); auto. lia.
Qed.

Lemma pl_exists D order sp : pl_inv D order sp -> (length D < n)%nat ->
  exists j, (j < 2 ^ bb)%nat /\ (nth j sp 0 < n)%nat /\ nth (nth j sp 0%nat) order 0 = 0.
Proof.
  intros H HD. destruct H. destruct pl_W0 as (W & LW & HW).
  destruct (free_slot W ltac:(lia)) as (k & Hk & N & A).
  assert (Z0 : nth k order 0 = 0).
  { apply pl_zero0; auto. intros j Hj K. apply N, HW. exists j. auto. }
  pose proof (pow2_pos_nat bb) as HB.
  destruct k as [|k].
  - exists 0%nat. split; [lia|].
    assert (E : nth 0 sp 0%nat = 0%nat).
    { destruct (nth 0 sp 0%nat) eqn:E; auto. exfalso. apply N, HW. exists 0%nat. split; [lia|].
      rewrite Nat.mul_0_l, Nat.div_0_l by lia. lia. }
    rewrite E. auto.
  - assert (I : In k W) by (apply A; lia). apply HW in I. destruct I as (j & Hj & K).
    assert (E : nth j sp 0%nat = S k).
    { destruct (Nat.eq_dec (nth j sp 0%nat) (S k)) as [|N']; auto. exfalso. apply N, HW. exists j.
      split; auto. lia. }
    exists j. rewrite E. auto.
Qed.

Lemma seg0_lt h : is_u64 h -> (Z.to_nat (Z.shiftr h (64 - Z.of_nat bb)) < 2 ^ bb)%nat.
Proof.
  intros [H0 H1]. rewrite Z.shiftr_div_pow2 by lia.
  assert (P : 0 < 2 ^ (64 - Z.of_nat bb)) by (apply Z.pow_pos_nonneg; lia).
  assert (Q : 2 ^ Z.of_nat bb * 2 ^ (64 - Z.of_nat bb) = two64).
  { rewrite <- Z.pow_add_r by lia. rewrite two64_eq. f_equal. lia. }
  assert (L : h / 2 ^ (64 - Z.of_nat bb) < 2 ^ Z.of_nat bb).
  { apply Z.div_lt_upper_bound; [auto|]. rewrite Z.mul_comm, Q. exact H1. }
  assert (L0 : 0 <= h / 2 ^ (64 - Z.of_nat bb)) by (apply Z.div_pos; auto).
  revert L L0. generalize (h / 2 ^ (64 - Z.of_nat bb)). intros q L L0.
  assert (E : Z.of_nat (2 ^ bb) = 2 ^ Z.of_nat bb) by (apply (Nat2Z.inj_pow 2 bb)).
  lia.
Qed.

Lemma firstn_upd_lt {A} (l : list A) k p x : (p < k)%nat -> firstn k (upd l p x) = upd (firstn k l) p x.
Proof.
  revert k p. induction l as [|a l IH]; intros [|k] [|p] H; cbn; try lia; auto.
  f_equal. apply IH. lia.
Qed.

Lemma place_ok D order sp h : pl_inv D order sp -> (length D < n)%nat -> is_u64 h ->
  exists order' sp', place bb (order, sp) h = Ok (order', sp') /\ pl_inv (h :: D) order' sp'.
Proof.
  intros H HD Hu. destruct (pl_exists D order sp H HD) as (j & Hj & Lj & Z0).
  pose proof (pow2_pos_nat bb) as HB. pose proof (seg0_lt h Hu) as S0.
  pose proof H as H'. destruct H'.
  set (s0 := Z.to_nat (Z.shiftr h (64 - Z.of_nat bb))) in *.
  set (i := ((j + 2 ^ bb - s0) mod 2 ^ bb)%nat).
  assert (Ei : j = ((s0 + i) mod 2 ^ bb)%nat).
  { unfold i. rewrite Nat.add_mod_idemp_r by lia. replace (s0 + (j + 2 ^ bb - s0))%nat with (j + 1 * 2 ^ bb)%nat by lia.
    rewrite Nat.mod_add by lia. now rewrite Nat.mod_small. }
  assert (DD : forall k, (k < S n)%nat -> nth k order 1 = nth k order 0)
    by (intros k Hk; apply nth_indep; lia).
  destruct (probe_finds bb order sp j (2 ^ bb) s0 i) as (g & Eg & Hg & Zg); auto; try lia.
  { intros j' Hj'. rewrite pl_sp0 in Hj'. specialize (pl_le0 j' Hj'). lia. }
  { rewrite DD by lia. exact Z0. }
  assert (Lg : (nth g sp 0 <= n)%nat) by auto.
  rewrite DD in Zg by lia.
  assert (Lg' : (nth g sp 0 < n)%nat).
  { destruct (Nat.eq_dec (nth g sp 0%nat) n) as [E|]; [|lia]. rewrite E in Zg. congruence. }
  unfold place. fold s0. rewrite Eg. cbn [bind]. rewrite (idx_nth sp g 0%nat) by lia. cbn [bind].
  rewrite set_lt by lia. cbn [bind]. rewrite set_lt by lia. cbn [bind].
  set (p := nth g sp 0%nat) in *.
  do 2 eexists. split; [reflexivity|].
  assert (NS : forall j', nth j' (upd sp g (p + 1)%nat) 0%nat = if (j' =? g)%nat then (p + 1)%nat else nth j' sp 0%nat)
    by (intros j'; apply nth_upd; lia).
  constructor.
  - now rewrite length_upd.
  - rewrite nth_upd_ne by lia. auto.
  - now rewrite length_upd.
  - rewrite firstn_upd_lt by lia.
    destruct (perm_upd_gen (firstn n order) p h 0) as (r & P1 & P2).
    { rewrite firstn_length. lia. }
    rewrite P2. cbn [length app]. apply perm_skip.
    assert (Z1 : nth p (firstn n order) 0 = 0).
    { rewrite <- (firstn_skipn n order) in Zg. rewrite app_nth1 in Zg by (rewrite firstn_length; lia). exact Zg. }
    rewrite Z1 in P1. rewrite pl_perm0 in P1.
    replace (n - length D)%nat with (S (n - S (length D))) in P1 by lia. cbn [repeat] in P1.
    apply (Permutation_cons_inv (a := 0)). rewrite <- P1. symmetry. apply Permutation_middle.
  - cbn [length]. lia.
  - intros j' Hj'. rewrite NS. destruct (Nat.eqb_spec j' g); [lia|auto].
  - destruct pl_W0 as (W & LW & HW). exists (p :: W). cbn [length]. split; [lia|].
    intros k. cbn [In]. rewrite HW. split.
    + intros [<-|(j' & Hj' & K)].
      * exists g. split; auto. rewrite NS, Nat.eqb_refl. specialize (pl_lo0 g Hg). unfold p in *. lia.
      * exists j'. split; auto. rewrite NS. destruct (Nat.eqb_spec j' g) as [->|]; [unfold p; lia|lia].
    + intros (j' & Hj' & K). rewrite NS in K. destruct (Nat.eqb_spec j' g) as [->|].
      * destruct (Nat.eq_dec p k); [auto|right; exists g; split; auto; unfold p in *; lia].
      * right. exists j'. auto.
  - intros j' Hj'. rewrite NS. specialize (pl_lo0 j' Hj'). destruct (Nat.eqb_spec j' g) as [->|]; [unfold p; lia|auto].
  - intros k Hk A. assert (Npk : p <> k).
    { intros Epk. apply (A g Hg). rewrite NS, Nat.eqb_refl. specialize (pl_lo0 g Hg). fold p in pl_lo0. lia. }
    rewrite nth_upd_ne by auto. apply pl_zero0; auto. intros j' Hj' K. apply (A j' Hj'). rewrite NS.
    destruct (Nat.eqb_spec j' g) as [->|]; [fold p in K; lia|lia].
Qed.

Lemma place_run hs : forall D order sp, pl_inv D order sp -> (length D + length hs <= n)%nat ->
  Forall is_u64 hs ->
  exists order' sp', foldM (place bb) hs (order, sp) = Ok (order', sp') /\ pl_inv (rev hs ++ D) order' sp'.
Proof.
  induction hs as [|h hs IH]; intros D order sp H HL HF.
  - exists order, sp. auto.
  - apply Forall_cons_iff in HF. destruct HF as [Hh HF]. cbn [length] in HL.
    destruct (place_ok D order sp h H ltac:(lia) Hh) as (o1 & s1 & E & H1).
    cbn [foldM]. rewrite E. cbn [bind].
    destruct (IH (h :: D) o1 s1 H1 ltac:(cbn [length]; lia) HF) as (o2 & s2 & E2 & H2).
    exists o2, s2. split; auto. cbn [rev]. now rewrite <- app_assoc.
Qed.

Lemma place_all_ok hs : length hs = n -> Forall is_u64 hs ->
  exists order, place_all bb n hs (repeat 0 n ++ [1]) = Ok order /\
    length order = S n /\ Permutation (firstn n order) hs /\ nth n order 0 = 1.
Proof.
  intros HL HF. destruct (place_run hs [] _ _ pl_init ltac:(cbn; lia) HF) as (o & s & E & H).
  exists o. unfold place_all. rewrite E. cbn [bind]. split; [reflexivity|]. destruct H.
  split; auto. split; auto. rewrite pl_perm0. rewrite app_nil_r, rev_length, HL, Nat.sub_diag. cbn [repeat].
  rewrite app_nil_r. symmetry. apply Permutation_rev.
Qed.
End Place.

Lemma foldM_idx {T} (f : T -> Z -> res T) (l : list Z) n : forall (s : T), (n <= length l)%nat ->
  foldM (fun s i => let* h := idx l i in f s h) (seq 0 n) s = foldM f (firstn n l) s.
Proof.
  induction n as [|n IH]; intros s HL.
  - rewrite firstn_O. reflexivity.
  - rewrite seq_S'. rewrite foldM_app, IH by lia.
    assert (E : firstn (S n) l = firstn n l ++ [nth n l 0]).
    { rewrite <- (firstn_skipn n l) at 1. rewrite firstn_app, firstn_length.
      rewrite firstn_all2 by (rewrite firstn_length; lia). f_equal.
      replace (Nat.sub (S n) (Nat.min n (length l))) with 1%nat by lia.
      destruct (skipn n l) as [|a r] eqn:E.
      - apply (f_equal (@length Z)) in E. rewrite skipn_length in E. cbn in E. lia.
      - cbn [firstn]. f_equal. rewrite <- (firstn_skipn n l), E. rewrite app_nth2; rewrite firstn_length; [|lia].
        replace (n - Nat.min n (length l))%nat with 0%nat by lia. reflexivity. }
    rewrite E, foldM_app. apply bind_ext. intros a _. cbn [foldM Nat.add].
    rewrite (idx_nth l n 0) by lia. reflexivity.
Qed.

Lemma block_bits_ok sc : 1 <= sc < two32 -> exists bb, block_bits sc = Ok bb /\ (1 <= bb <= 32)%nat /\
  sc <= 2 ^ Z.of_nat bb.
Proof.
  intros Hsc. unfold block_bits.
  assert (G : forall fuel b, (1 <= b)%nat -> (fuel + b = 32)%nat ->
    exists bb, block_bits_from fuel b sc = Ok bb /\ (1 <= bb <= 32)%nat /\ sc <= 2 ^ Z.of_nat bb).
  { induction fuel as [|f IH]; intros b Hb HF.
    - replace b with 32%nat by lia. cbn [block_bits_from]. exists 32%nat.
      rewrite (proj2 (Z.ltb_ge _ _)); [split; [reflexivity|]|]; unfold two32 in Hsc;
        change (2 ^ Z.of_nat 32) with 4294967296; lia.
    - cbn [block_bits_from]. destruct (Z.ltb_spec (2 ^ Z.of_nat b) sc) as [L|L].
      + apply IH; lia.
      + exists b. split; [reflexivity|]. split; [lia|auto]. }
  apply G; lia.
Qed.
