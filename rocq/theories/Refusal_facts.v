(** Counting lemmas for [Refusal]. *)
From Verif Require Import Base SpecLwe Base_facts Seq_facts.
From Coq Require Import Permutation.
Local Open Scope Z_scope.

Lemma lsum_add {A} (f g : A -> Z) l : lsum (fun x => f x + g x) l = lsum f l + lsum g l.
Proof. induction l as [|x l IH]; cbn [lsum]; [reflexivity|]. rewrite IH. lia. Qed.
Lemma lsum_swap {A B} (f : A -> B -> Z) l r :
  lsum (fun x => lsum (fun y => f x y) r) l = lsum (fun y => lsum (fun x => f x y) l) r.
Proof.
  induction l as [|x l IH]; cbn [lsum].
  - symmetry. rewrite lsum_const. lia.
  - rewrite IH, <- lsum_add. reflexivity.
Qed.
Lemma count_lsum {A} (P : A -> bool) l : count P l = lsum (fun x => if P x then 1 else 0) l.
Proof. rewrite lsum_if. lia. Qed.

(** A value that runs through all of [l] when position [r] does, whatever the other positions. *)
Lemma count_value {A} (P : A -> bool) (l : list A) : forall n r (val : list A -> A) (G : list A -> bool), (r < n)%nat ->
  (forall v, In v (sequences l n) -> Permutation (map (fun x => val (upd v r x)) l) l) ->
  (forall v x, In x l -> In v (sequences l n) -> G (upd v r x) = G v) ->
  size l * count (fun v => P (val v) && G v) (sequences l n) = count P l * count G (sequences l n).
Proof.
  induction n as [|n IH]; intros r val G Hr Hv HG; [lia|]. rewrite !count_seq. destruct r as [|r].
  - destruct l as [|x0 l0]; [reflexivity|]. set (l := x0 :: l0) in *.
    assert (In' : forall x t, In x l -> In t (sequences l n) -> In (x :: t) (sequences l (S n))).
    { intros x t Hx Ht. apply in_sequences in Ht as [L F]. apply in_sequences. split; [cbn; lia|constructor; auto]. }
    set (G0 := fun t => G (x0 :: t)).
    assert (EG : forall x t, In x l -> In t (sequences l n) -> G (x :: t) = G0 t).
    { intros x t Hx Ht. symmetry. apply (HG (x :: t) x0); [now left|]. now apply In'. }
    rewrite (lsum_ext (fun x => count (fun t => G (x :: t)) (sequences l n)) (fun _ => count G0 (sequences l n))).
    2:{ intros x Hx. apply count_ext. intros t Ht. now apply EG. }
    rewrite lsum_const.
    rewrite (lsum_ext _ (fun x => lsum (fun t => if P (val (x :: t)) && G0 t then 1 else 0) (sequences l n))).
    2:{ intros x Hx. rewrite count_lsum. apply lsum_ext. intros t Ht. now rewrite (EG x t Hx Ht). }
    rewrite lsum_swap.
    rewrite (lsum_ext _ (fun t => if G0 t then count P l else 0)).
    2:{ intros t Ht. destruct (G0 t).
        - rewrite (lsum_ext _ (fun x => if P (val (x :: t)) then 1 else 0)) by (intros; now rewrite andb_true_r).
          rewrite <- count_lsum. rewrite <- (count_map P (fun x => val (x :: t))).
          apply count_perm. exact (Hv (x0 :: t) (In' x0 t (or_introl eq_refl) Ht)).
        - rewrite (lsum_ext _ (fun _ => 0)) by (intros; now rewrite andb_false_r). rewrite lsum_const. lia. }
    rewrite lsum_if. ring.
  - rewrite <- lsum_scale, <- lsum_scale. apply lsum_ext. intros x Hx.
    assert (In' : forall t, In t (sequences l n) -> In (x :: t) (sequences l (S n))).
    { intros t Ht. apply in_sequences in Ht as [L F]. apply in_sequences. split; [cbn; lia|constructor; auto]. }
    apply (IH r (fun t => val (x :: t)) (fun t => G (x :: t))); [lia| |].
    + intros v Hvi. exact (Hv (x :: v) (In' v Hvi)).
    + intros v y Hy Hvi. exact (HG (x :: v) y Hy (In' v Hvi)).
Qed.

Lemma in_numbers_below N x : In x (numbers_below N) <-> 0 <= x < N.
Proof.
  unfold numbers_below. rewrite in_map_iff. split.
  - intros (k & <- & Hk). apply in_seq in Hk. lia.
  - intros H. exists (Z.to_nat x). split; [lia|]. apply in_seq. lia.
Qed.
Lemma nodup_numbers_below N : NoDup (numbers_below N).
Proof.
  unfold numbers_below. generalize 0%nat (Z.to_nat N). intros a n. revert a. induction n as [|n IH]; intros a; cbn [seq map]; constructor; auto.
  rewrite in_map_iff. intros (k & E & Hk). apply in_seq in Hk. lia.
Qed.
Lemma size_numbers_below N : 0 <= N -> size (numbers_below N) = N.
Proof. intros H. unfold size, numbers_below. rewrite map_length, seq_length. lia. Qed.

Lemma count_below_aux (B : Z) n a : 0 <= Z.of_nat a ->
  count (fun x => x <? B) (map Z.of_nat (seq a n)) = Z.max 0 (Z.min (Z.of_nat n) (B - Z.of_nat a)).
Proof.
  revert a. induction n as [|n IH]; intros a Ha; cbn [seq map].
  - unfold count. cbn. lia.
  - rewrite count_cons, IH by lia. destruct (Z.ltb_spec (Z.of_nat a) B); lia.
Qed.
Lemma count_below B N : 0 <= B <= N -> count (fun x => x <? B) (numbers_below N) = B.
Proof. intros H. unfold numbers_below. rewrite count_below_aux by lia. lia. Qed.

Lemma permutes_affine N s c : 1 < N -> (s mod N = 1 \/ s mod N = N - 1) ->
  Permutation (map (fun x => (s * x + c) mod N) (numbers_below N)) (numbers_below N).
Proof.
  intros HN Hs. apply permutes.
  - apply nodup_numbers_below.
  - intros x _. apply in_numbers_below. apply Z.mod_pos_bound. lia.
  - intros x y Hx Hy E. apply in_numbers_below in Hx, Hy.
    assert (E1 : (s * (x - y)) mod N = 0).
    { replace (s * (x - y)) with ((s * x + c) - (s * y + c)) by ring. rewrite Zminus_mod, E, Z.sub_diag. apply Z.mod_0_l. lia. }
    assert (E2 : (x - y) mod N = 0).
    { destruct Hs as [Hs|Hs].
      - rewrite <- Z.mul_mod_idemp_l, Hs, Z.mul_1_l in E1 by lia. exact E1.
      - rewrite <- Z.mul_mod_idemp_l, Hs in E1 by lia.
        replace ((N - 1) * (x - y)) with (- (x - y) + (x - y) * N) in E1 by ring.
        rewrite Z.mod_add in E1 by lia. apply Z.mod_opp_l_z in E1; [|lia]. now rewrite Z.opp_involutive in E1. }
    apply Z.mod_divide in E2; [|lia]. destruct E2 as [q E2]. clear - E2 Hx Hy HN.
    assert (q = 0) as -> by nia. lia.
Qed.

(** The words of one row of the matrix. *)
Definition block (dim r : nat) (v : list Z) : list Z := map (fun j => nth (r * dim + j) v 0) (seq 0 dim).

Lemma block_upd_same dim r j x v : (j < dim)%nat -> (r * dim + j < length v)%nat ->
  block dim r (upd v (r * dim + j) x) = upd (block dim r v) j x.
Proof.
  intros Hj Hl. unfold block. apply (nth_ext _ _ 0 0).
  - now rewrite length_upd, !map_length.
  - intros k Hk. rewrite map_length, seq_length in Hk. rewrite nth_map_seq by exact Hk.
    destruct (Nat.eq_dec k j) as [->|N].
    + rewrite !nth_upd_eq; auto. now rewrite map_length, seq_length.
    + rewrite !nth_upd_ne by lia. now rewrite nth_map_seq.
Qed.
Lemma block_upd_other dim r r' j x v : (j < dim)%nat -> r <> r' ->
  block dim r' (upd v (r * dim + j) x) = block dim r' v.
Proof.
  intros Hj N. unfold block. apply map_ext_in. intros k Hk. apply in_seq in Hk.
  apply nth_upd_ne. intros E. apply N. clear N. nia.
Qed.
Lemma dot_upd s : forall b j x, length b = length s -> (j < length s)%nat ->
  dot s (upd b j x) = dot s b + nth j s 0 * (x - nth j b 0).
Proof.
  induction s as [|a s IH]; intros [|c b] j x L Hj; try discriminate; [cbn in Hj; lia|].
  destruct j as [|j].
  - cbn. ring.
  - cbn [upd]. change (dot (a :: s) (c :: upd b j x)) with (a * c + dot s (upd b j x)).
    change (dot (a :: s) (c :: b)) with (a * c + dot s b). cbn [nth]. rewrite IH; [ring| |]; cbn in L, Hj; lia.
Qed.

Lemma rows_independent N D dim m (qs : list (nat * (list Z * Z))) : 1 < N -> 0 <= D <= N ->
  NoDup (map fst qs) ->
  (forall r s e, In (r, (s, e)) qs -> (r < m)%nat /\ length s = dim /\
     exists j, (j < dim)%nat /\ (nth j s 0 mod N = 1 \/ nth j s 0 mod N = N - 1)) ->
  count (fun v => forallb (fun q => (dot (fst (snd q)) (block dim (fst q) v) + snd (snd q)) mod N <? N - D) qs)
    (sequences (numbers_below N) (dim * m)) * N ^ Z.of_nat (length qs)
  = (N - D) ^ Z.of_nat (length qs) * size (sequences (numbers_below N) (dim * m)).
Proof.
  intros HN HD. induction qs as [|[r [s e]] qs IH]; intros ND Hq.
  - cbn [forallb length]. rewrite count_true. change (Z.of_nat 0) with 0. rewrite !Z.pow_0_r. lia.
  - inversion ND as [|? ? Hnot ND' EE]. subst.
    specialize (IH ND' (fun r s e H => Hq r s e (or_intror H))).
    destruct (Hq r s e (or_introl eq_refl)) as (Hr & Ls & j & Hj & Hsj).
    cbn [length]. rewrite Nat2Z.inj_succ, !Z.pow_succ_r by lia.
    pose proof (count_value (fun x => x <? N - D) (numbers_below N) (dim * m) (r * dim + j)
      (fun v => (dot s (block dim r v) + e) mod N)
      (fun v => forallb (fun q => (dot (fst (snd q)) (block dim (fst q) v) + snd (snd q)) mod N <? N - D) qs)) as K.
    rewrite size_numbers_below, count_below in K by lia.
    assert (Hp : (r * dim + j < dim * m)%nat) by nia.
    specialize (K Hp).
    assert (K1 : forall v, In v (sequences (numbers_below N) (dim * m)) ->
       Permutation (map (fun x => (dot s (block dim r (upd v (r * dim + j) x)) + e) mod N) (numbers_below N)) (numbers_below N)).
    { intros v Hv. apply in_sequences in Hv as [Lv _].
      rewrite (map_ext _ (fun x => (nth j s 0 * x + (dot s (block dim r v) - nth j s 0 * nth j (block dim r v) 0 + e)) mod N)).
      - apply permutes_affine; assumption.
      - intros x. rewrite block_upd_same, dot_upd; try (rewrite ?Lv; assumption).
        + f_equal. ring.
        + unfold block. now rewrite map_length, seq_length.
        + now rewrite Ls. }
    specialize (K K1).
    assert (K2 : forall v x, In x (numbers_below N) -> In v (sequences (numbers_below N) (dim * m)) ->
       forallb (fun q => (dot (fst (snd q)) (block dim (fst q) (upd v (r * dim + j) x)) + snd (snd q)) mod N <? N - D) qs =
       forallb (fun q => (dot (fst (snd q)) (block dim (fst q) v) + snd (snd q)) mod N <? N - D) qs).
    { intros v x _ _. clear - Hnot Hj. induction qs as [|q qs IH]; [reflexivity|]. cbn [forallb].
      rewrite block_upd_other; [|exact Hj|intros ->; apply Hnot; now left].
      rewrite IH; [reflexivity|intros H; apply Hnot; now right]. }
    specialize (K K2). cbn [forallb fst snd]. cbv beta in K.
    set (c1 := count _ _) in K at 1 |- * at 1. set (c2 := count _ _) in K, IH.
    replace (c1 * (N * N ^ Z.of_nat (length qs))) with (N * c1 * N ^ Z.of_nat (length qs)) by ring.
    rewrite K. rewrite <- Z.mul_assoc, IH. ring.
Qed.

Lemma size_sequences' {A} (l : list A) n : size (sequences l n) = size l ^ Z.of_nat n.
Proof.
  induction n as [|n IH]; [reflexivity|]. rewrite <- count_true, count_seq.
  rewrite (lsum_ext _ (fun _ => size l ^ Z.of_nat n)) by (intros; rewrite count_true; exact IH).
  rewrite lsum_const, Nat2Z.inj_succ, Z.pow_succ_r by lia. reflexivity.
Qed.
Lemma count_prefix {A} (P : A -> bool) l m : forall n,
  count (fun v => forallb P (firstn n v)) (sequences l (n + m)) = count P l ^ Z.of_nat n * size l ^ Z.of_nat m.
Proof.
  induction n as [|n IH].
  - cbn [Nat.add firstn forallb]. rewrite count_true, size_sequences'. change (Z.of_nat 0) with 0. rewrite Z.pow_0_r. lia.
  - cbn [Nat.add]. rewrite count_seq.
    rewrite (lsum_ext _ (fun x => if P x then count P l ^ Z.of_nat n * size l ^ Z.of_nat m else 0)).
    2:{ intros x _. destruct (P x) eqn:E.
        - rewrite <- IH. apply count_ext. intros t _. cbn [firstn forallb]. now rewrite E.
        - rewrite <- (count_false (sequences l (n + m))). apply count_ext. intros t _. cbn [firstn forallb]. now rewrite E. }
    rewrite lsum_if, Nat2Z.inj_succ, Z.pow_succ_r by lia. ring.
Qed.
Lemma count_filter {A} (P Q : A -> bool) l : count P (filter Q l) = count (fun x => Q x && P x) l.
Proof.
  induction l as [|x l IH]; [reflexivity|]. cbn [filter]. rewrite (count_cons _ x l). destruct (Q x); cbn [andb]; [|exact IH].
  now rewrite count_cons, IH.
Qed.
Lemma count_pairs {A B} (P : A * B -> bool) (l : list A) (r : list B) :
  count P (list_prod l r) = lsum (fun x => count (fun y => P (x, y)) r) l.
Proof. induction l as [|x l IH]; [reflexivity|]. cbn [list_prod lsum]. now rewrite count_app, count_map, IH. Qed.
Lemma lsum_near {A} (f : A -> Z) (Z0 : A -> bool) t k l : 0 <= t -> 0 <= k ->
  (forall x, In x l -> 0 <= f x <= t) -> (forall x, In x l -> Z0 x = false -> f x * k = t) -> 1 <= k ->
  - (t * count Z0 l) <= lsum f l * k - size l * t <= t * (k - 1) * count Z0 l.
Proof.
  intros Ht Hk Hf Hz Hk1. induction l as [|x l IH]; [cbn; lia|].
  specialize (IH (fun x H => Hf x (or_intror H)) (fun x H => Hz x (or_intror H))).
  cbn [lsum]. rewrite count_cons. replace (size (x :: l)) with (1 + size l) by (unfold size; cbn [length]; lia).
  specialize (Hf x (or_introl eq_refl)). specialize (Hz x (or_introl eq_refl)).
  set (c := count Z0 l) in *. set (s := lsum f l) in *. set (n := size l) in *. clearbody c s n.
  destruct (Z0 x).
  - clear Hz. assert (0 <= f x * k <= t * k) by nia. nia.
  - specialize (Hz eq_refl). nia.
Qed.
