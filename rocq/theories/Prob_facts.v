(** * Prob_facts: tails of the noise over all accepted tapes, numeric certificates. *)
From Verif Require Import Base Spec Experiment Base_facts Mat_facts Index_facts Tail_facts Claims_matrix.
Local Open Scope Z_scope.

(** ** Class counts *)
Lemma filter_filter' : forall A (f g : A -> bool) l, filter f (filter g l) = filter (fun x => g x && f x) l.
Proof.
  induction l as [|x l IH]; [reflexivity|]. cbn [filter]. destruct (g x); cbn [filter andb]; [|exact IH].
  destruct (f x); rewrite IH; reflexivity.
Qed.

Lemma hm : forall P n, Z.of_nat (length (filter P (words_below n))) = how_many P n.
Proof. reflexivity. Qed.

Lemma accepted_In_gen : forall l w, In w (filter accepted_word l) -> accepted_word w = true.
Proof. intros l w H. apply filter_In in H. tauto. Qed.

Lemma accepted_In : forall w, In w accepted_words -> accepted_word w = true.
Proof. intros w. unfold accepted_words. generalize (words_below (2 ^ 32)). intros l. apply accepted_In_gen. Qed.

Lemma accepted_class : forall v a b, 0 <= a <= b -> b <= 2 ^ 32 ->
  (forall x, 0 <= x < 2 ^ 32 -> accepted_word x && (ternary_class x =? v) = ((a <=? x) && (x <? b))) ->
  nclass accepted_words ternary_class v = b - a.
Proof.
  intros v a b H1 H2 H. unfold nclass, accepted_words. rewrite filter_filter'.
  rewrite hm. rewrite (how_many_ext _ _ _ H), how_many_interval; lia.
Qed.

Ltac class_tac := intros x Hx; change (2 ^ 32) with 4294967296 in Hx; unfold accepted_word, ternary_class;
  repeat match goal with
  | |- context [?a <=? ?b] => destruct (Z.leb_spec a b)
  | |- context [?a <? ?b] => destruct (Z.ltb_spec a b)
  end; try reflexivity; lia.

Lemma nclass_0 : nclass accepted_words ternary_class 0 = 1431655765.
Proof. rewrite (accepted_class 0 0 1431655765); try lia. class_tac. Qed.
Lemma nclass_1 : nclass accepted_words ternary_class 1 = 1431655764.
Proof. rewrite (accepted_class 1 1431655765 2863311529); try lia. class_tac. Qed.
Lemma nclass_m1 : nclass accepted_words ternary_class (-1) = 1431655764.
Proof. rewrite (accepted_class (-1) 2863311529 4294967293); try lia. class_tac. Qed.

Lemma nclass_opp : forall ws cls v, nclass ws (fun w => - cls w) v = nclass ws cls (- v).
Proof.
  intros ws cls v. unfold nclass. do 2 f_equal. apply filter_ext. intros w.
  destruct (Z.eqb_spec (- cls w) v), (Z.eqb_spec (cls w) (- v)); try reflexivity; lia.
Qed.

Lemma tern_cls : forall l, Forall (fun w => tern (ternary_class w)) l.
Proof.
  intros l. apply Forall_forall. intros w _. unfold tern, ternary_class. destruct (_ <=? _); [auto|]. destruct (_ <=? _); auto.
Qed.
Lemma tern_cls_opp : forall l, Forall (fun w => tern (- ternary_class w)) l.
Proof.
  intros l. pose proof (tern_cls l) as H. apply Forall_forall. intros w Hw. rewrite Forall_forall in H.
  destruct (H w Hw) as [E | [E | E]]; rewrite E; unfold tern; lia.
Qed.

Lemma dot_opp : forall e d, dot (map Z.opp e) d = - dot e d.
Proof. induction e as [|x e IH]; intros [|y d]; cbn [map dot]; try reflexivity. rewrite IH. ring. Qed.

Lemma length_filter_or : forall A (F G H : A -> bool) l,
  (forall t, In t l -> F t = true -> G t = true \/ H t = true) ->
  (length (filter F l) <= length (filter G l) + length (filter H l))%nat.
Proof.
  intros A F G H l. induction l as [|t l IH]; intros HF; [cbn; lia|].
  specialize (IH (fun x h => HF x (or_intror h))). specialize (HF t (or_introl eq_refl)). cbn [filter].
  destruct (F t), (G t), (H t); cbn [length]; try lia; destruct (HF eq_refl) as [E|E]; discriminate E.
Qed.

(** ** Both tails of one column *)
Definition acc : Z := 4294967293.

Lemma one_column : forall (F : list Z -> bool) d n B S, 1 <= n -> Forall (fun x => 0 <= x) d -> 0 <= B -> sumsq d <= S ->
  (forall t, length t = length d -> F t = true -> B <= dot (map ternary_class t) d \/ dot (map ternary_class t) d <= - B) ->
  count_tapes F (length d) * (n + 1) ^ B * (3 * (n * (n + 1))) ^ S
  <= 2 * n ^ B * acc ^ Z.of_nat (length d) * (3 * (n * (n + 1)) + 1) ^ S.
Proof.
  intros F d n B S Hn Hd HB HS HF.
  set (up := fun t => B <=? dot (map ternary_class t) d). set (dn := fun t => dot (map ternary_class t) d <=? - B).
  assert (T1 := tail_bound (n + 1) n ltac:(lia) ltac:(lia) accepted_words ternary_class 1431655765 1431655764 ltac:(lia)
    (tern_cls _) nclass_0 nclass_1 nclass_m1 up d B S Hd HB HS).
  assert (T2 := tail_bound (n + 1) n ltac:(lia) ltac:(lia) accepted_words (fun w => - ternary_class w) 1431655765 1431655764 ltac:(lia)
    (tern_cls_opp _) ltac:(rewrite nclass_opp; exact nclass_0) ltac:(rewrite nclass_opp; exact nclass_m1)
    ltac:(rewrite nclass_opp; exact nclass_1) dn d B S Hd HB HS).
  assert (U1 : forall t, In t (tapes_over accepted_words (length d)) -> up t = true -> B <= dot (map ternary_class t) d).
  { intros t _ Ht. apply Z.leb_le. exact Ht. }
  assert (U2 : forall t, In t (tapes_over accepted_words (length d)) -> dn t = true -> B <= dot (map (fun w => - ternary_class w) t) d).
  { intros t _ Ht. apply Z.leb_le in Ht. rewrite <- (map_map ternary_class Z.opp), dot_opp. lia. }
  specialize (T1 U1). specialize (T2 U2). clear U1 U2.
  assert (L : (length (filter F (tapes_over accepted_words (length d))) <=
    length (filter up (tapes_over accepted_words (length d))) + length (filter dn (tapes_over accepted_words (length d))))%nat).
  { apply length_filter_or. intros t Ht HFt. destruct (tapes_spec _ _ _ Ht) as [HL _].
    destruct (HF t HL HFt) as [H | H]; [left | right]; apply Z.leb_le; exact H. }
  unfold count_tapes.
  set (k := length (filter F (tapes_over accepted_words (length d)))) in *.
  set (k1 := length (filter up (tapes_over accepted_words (length d)))) in *.
  set (k2 := length (filter dn (tapes_over accepted_words (length d)))) in *. clearbody k k1 k2.
  change (1431655765 + 2 * 1431655764) with acc in *.
  replace (N3 (n + 1) n 1) with (3 * (n * (n + 1)) + 1) in * by (unfold N3; change (Z.of_nat 1) with 1; rewrite !Z.pow_1_r; ring).
  replace (3 * ((n + 1) * n)) with (3 * (n * (n + 1))) in * by ring.
  set (G := acc ^ Z.of_nat (length d)) in *. set (x := (3 * (n * (n + 1))) ^ S) in *. set (y := (3 * (n * (n + 1)) + 1) ^ S) in *.
  set (pb := (n + 1) ^ B) in *. set (qb := n ^ B) in *.
  assert (0 <= pb * x) by (apply Z.mul_nonneg_nonneg; apply Z.pow_nonneg; nia).
  clearbody G x y pb qb.
  apply Z.le_trans with ((Z.of_nat k1 + Z.of_nat k2) * (pb * x)).
  - rewrite <- Z.mul_assoc. apply Z.mul_le_mono_nonneg_r; [assumption|lia].
  - nia.
Qed.

(** ** Tapes with a prefix that does not matter *)
Lemma count_prefix_aux : forall (F : list Z -> bool) (ws : list Z) dim m,
  length (filter (fun t => F (skipn dim t)) (tapes_over ws (dim + m)))
  = (length ws ^ dim * length (filter F (tapes_over ws m)))%nat.
Proof.
  intros F ws dim m. induction dim as [|dim IH]; [cbn [Nat.add Nat.pow skipn]; rewrite Nat.mul_1_l; reflexivity|].
  cbn [Nat.add tapes_over Nat.pow].
  assert (E : forall l, length (filter (fun t => F (skipn (S dim) t)) (flat_map (fun t => map (fun w => w :: t) ws) l))
    = (length ws * length (filter (fun t => F (skipn dim t)) l))%nat).
  { clear. intros l. induction l as [|t l IH]; [cbn; lia|]. cbn [flat_map filter]. rewrite filter_app, app_length, IH.
    assert (E : length (filter (fun t0 => F (skipn (S dim) t0)) (map (fun w => w :: t) ws)) = if F (skipn dim t) then length ws else 0%nat).
    { clear IH. induction ws as [|w ws' IHw]; [cbn; destruct (F _); reflexivity|]. cbn [map filter]. change (skipn (S dim) (w :: t)) with (skipn dim t).
      destruct (F (skipn dim t)); cbn [length]; rewrite IHw; reflexivity. }
    rewrite E. destruct (F (skipn dim t)); cbn [length]; lia. }
  rewrite E, IH. lia.
Qed.

Lemma accepted_length : Z.of_nat (length accepted_words) = acc.
Proof.
  unfold accepted_words. rewrite hm.
  rewrite (how_many_ext _ (fun v => (0 <=? v) && (v <? acc))).
  - rewrite how_many_interval; unfold acc; lia.
  - unfold acc. class_tac.
Qed.

Lemma count_prefix : forall (F : list Z -> bool) dim m,
  count_tapes (fun t => F (skipn dim t)) (dim + m) = acc ^ Z.of_nat dim * count_tapes F m.
Proof.
  intros F dim m. unfold count_tapes. rewrite count_prefix_aux, Nat2Z.inj_mul, Nat2Z.inj_pow, accepted_length. reflexivity.
Qed.

(** ** Union over the columns *)
Lemma count_union : forall (F : list Z -> bool) (G : nat -> list Z -> bool) w n,
  (forall t, In t (tapes_over accepted_words n) -> F t = true -> exists c, (c < w)%nat /\ G c t = true) ->
  forall K, (forall c, (c < w)%nat -> count_tapes (G c) n <= K) ->
  count_tapes F n <= Z.of_nat w * K.
Proof.
  intros F G w n HF K HK. unfold count_tapes in *. set (T := tapes_over accepted_words n) in *. clearbody T.
  assert (L : (length (filter F T) <= length (filter (fun t => existsb (fun c => G c t) (seq 0 w)) T))%nat).
  { assert (N : length (filter (fun _ : list Z => false) T) = 0%nat) by (clear; induction T; cbn; auto).
    rewrite <- (Nat.add_0_r (length (filter (fun t => existsb (fun c => G c t) (seq 0 w)) T))), <- N.
    apply length_filter_or. intros t Ht HFt. left. destruct (HF t Ht HFt) as (c & Hc & Hg).
    apply existsb_exists. exists c. split; [apply in_seq; lia|exact Hg]. }
  assert (U : forall k, (k <= w)%nat -> Z.of_nat (length (filter (fun t => existsb (fun c => G c t) (seq 0 k)) T)) <= Z.of_nat k * K).
  { induction k as [|k IH]; intros Hk.
    - cbn [seq existsb]. assert (E : filter (fun _ : list Z => false) T = []) by (clear; induction T; cbn; auto). rewrite E. cbn; lia.
    - assert (Q : (length (filter (fun t => existsb (fun c => G c t) (seq 0 (S k))) T) <=
        length (filter (fun t => existsb (fun c => G c t) (seq 0 k)) T) + length (filter (G k) T))%nat).
      { apply length_filter_or. intros t _ Ht. rewrite seq_S, existsb_app in Ht. apply orb_prop in Ht.
        destruct Ht as [Ht | Ht]; [left; exact Ht|right]. cbn [existsb Nat.add] in Ht. rewrite orb_false_r in Ht. exact Ht. }
      specialize (IH ltac:(lia)). specialize (HK k ltac:(lia)). lia. }
  specialize (U w (le_n w)). lia.
Qed.

(** ** Numeric certificates *)

(** Lower bound for a power [((n+1)/n)^(e * 2^k)], scaled by [2^s]. *)
Fixpoint sq_lo (s : Z) (k : nat) (a : Z) : Z :=
  match k with O => a | S k => sq_lo s k (a * a / 2 ^ s) end.
Fixpoint sq_hi (s : Z) (k : nat) (b : Z) : Z :=
  match k with O => b | S k => sq_hi s k (b * b / 2 ^ s + 1) end.

Lemma sq_lo_ok : forall s k a u v e, 0 <= s -> 0 <= a -> 0 <= u -> 0 <= v -> 0 <= e ->
  a * u ^ e <= 2 ^ s * v ^ e -> sq_lo s k a * u ^ (e * 2 ^ Z.of_nat k) <= 2 ^ s * v ^ (e * 2 ^ Z.of_nat k).
Proof.
  intros s k. induction k as [|k IH]; intros a u v e Hs Ha Hu Hv He H.
  - change (2 ^ Z.of_nat 0) with 1. rewrite Z.mul_1_r. exact H.
  - rewrite Nat2Z.inj_succ, Z.pow_succ_r by lia.
    replace (e * (2 * 2 ^ Z.of_nat k)) with ((e + e) * 2 ^ Z.of_nat k) by ring.
    cbn [sq_lo]. assert (S0 : 0 < 2 ^ s) by (apply Z.pow_pos_nonneg; lia).
    apply IH; auto; [apply Z.div_pos; [apply Z.mul_nonneg_nonneg; assumption|exact S0]|lia|].
    rewrite !Z.pow_add_r by lia. set (x := u ^ e) in *. set (y := v ^ e) in *.
    assert (0 <= x) by (apply Z.pow_nonneg; lia). assert (0 <= y) by (apply Z.pow_nonneg; lia).
    pose proof (Z.mul_div_le (a * a) (2 ^ s) S0) as D. set (a' := a * a / 2 ^ s) in *. clearbody a' x y.
    set (t := 2 ^ s) in *. clearbody t. clear IH.
    apply (Z.mul_le_mono_pos_l _ _ t S0).
    apply Z.le_trans with (a * a * (x * x)).
    + rewrite Z.mul_assoc. apply Z.mul_le_mono_nonneg_r; [apply Z.mul_nonneg_nonneg; assumption|exact D].
    + replace (a * a * (x * x)) with (a * x * (a * x)) by ring. replace (t * (t * (y * y))) with (t * y * (t * y)) by ring.
      apply Z.mul_le_mono_nonneg; auto; apply Z.mul_nonneg_nonneg; assumption.
Qed.

Lemma sq_hi_ok : forall s k b u v e, 0 <= s -> 0 <= b -> 0 <= u -> 0 <= v -> 0 <= e ->
  2 ^ s * v ^ e <= b * u ^ e -> 2 ^ s * v ^ (e * 2 ^ Z.of_nat k) <= sq_hi s k b * u ^ (e * 2 ^ Z.of_nat k).
Proof.
  intros s k. induction k as [|k IH]; intros b u v e Hs Hb Hu Hv He H.
  - change (2 ^ Z.of_nat 0) with 1. rewrite Z.mul_1_r. exact H.
  - rewrite Nat2Z.inj_succ, Z.pow_succ_r by lia.
    replace (e * (2 * 2 ^ Z.of_nat k)) with ((e + e) * 2 ^ Z.of_nat k) by ring.
    cbn [sq_hi]. assert (S0 : 0 < 2 ^ s) by (apply Z.pow_pos_nonneg; lia).
    assert (B0 : 0 <= b * b / 2 ^ s) by (apply Z.div_pos; [apply Z.mul_nonneg_nonneg; assumption|exact S0]).
    apply IH; auto; [lia|lia|].
    rewrite !Z.pow_add_r by lia. set (x := u ^ e) in *. set (y := v ^ e) in *.
    assert (0 <= x) by (apply Z.pow_nonneg; lia). assert (0 <= y) by (apply Z.pow_nonneg; lia).
    pose proof (Z.mul_succ_div_gt (b * b) (2 ^ s) S0) as D. set (b' := b * b / 2 ^ s) in *. clearbody b' x y.
    set (t := 2 ^ s) in *. clearbody t. clear IH.
    apply (Z.mul_le_mono_pos_l _ _ t S0).
    apply Z.le_trans with (b * b * (x * x)).
    + replace (b * b * (x * x)) with (b * x * (b * x)) by ring. replace (t * (t * (y * y))) with (t * y * (t * y)) by ring.
      apply Z.mul_le_mono_nonneg; auto; apply Z.mul_nonneg_nonneg; lia.
    + rewrite (Z.mul_assoc t). apply Z.mul_le_mono_nonneg_r; [apply Z.mul_nonneg_nonneg; assumption|lia].
Qed.

(** From the symbolic bound to a power of two. *)
Lemma certify : forall cnt tot w n B S s a b K, 1 <= n -> 0 <= s -> 0 <= K -> 0 <= B -> 0 <= S -> 0 <= cnt -> 0 <= tot -> 0 <= w -> 0 < a ->
  cnt * (n + 1) ^ B * (3 * (n * (n + 1))) ^ S <= w * n ^ B * tot * (3 * (n * (n + 1)) + 1) ^ S ->
  a * n ^ B <= 2 ^ s * (n + 1) ^ B ->
  2 ^ s * (3 * (n * (n + 1)) + 1) ^ S <= b * (3 * (n * (n + 1))) ^ S ->
  w * b * 2 ^ K <= a ->
  cnt * 2 ^ K <= tot.
Proof.
  intros cnt tot w n B S s a b K Hn Hs HK HB HS Hc Ht Hw Ha H1 H2 H3 H4.
  assert (N0 : 0 < 3 * (n * (n + 1))) by (apply Z.mul_pos_pos; [reflexivity|apply Z.mul_pos_pos; clear - Hn; lia]).
  assert (X0 : 0 < (3 * (n * (n + 1))) ^ S) by (apply Z.pow_pos_nonneg; assumption).
  assert (Y0 : 0 < (3 * (n * (n + 1)) + 1) ^ S) by (apply Z.pow_pos_nonneg; [clear - N0; lia|assumption]). clear N0.
  assert (P0 : 0 < (n + 1) ^ B) by (apply Z.pow_pos_nonneg; lia). assert (Q0 : 0 < n ^ B) by (apply Z.pow_pos_nonneg; lia).
  assert (S0 : 0 < 2 ^ s) by (apply Z.pow_pos_nonneg; lia). assert (K0 : 0 < 2 ^ K) by (apply Z.pow_pos_nonneg; lia).
  set (x := (3 * (n * (n + 1))) ^ S) in *. set (y := (3 * (n * (n + 1)) + 1) ^ S) in *. set (p := (n + 1) ^ B) in *. set (q := n ^ B) in *.
  set (t := 2 ^ s) in *. set (k := 2 ^ K) in *. clearbody x y p q t k. clear Hn.
  assert (A : cnt * a <= w * tot * b).
  { apply (Z.mul_le_mono_pos_r _ _ (q * x)); [apply Z.mul_pos_pos; lia|].
    apply Z.le_trans with (t * (cnt * p * x)).
    - replace (cnt * a * (q * x)) with (cnt * x * (a * q)) by ring. replace (t * (cnt * p * x)) with (cnt * x * (t * p)) by ring.
      apply Z.mul_le_mono_nonneg_l; [apply Z.mul_nonneg_nonneg; lia|exact H2].
    - apply Z.le_trans with (t * (w * q * tot * y)); [apply Z.mul_le_mono_nonneg_l; [lia|exact H1]|].
      replace (t * (w * q * tot * y)) with (w * q * tot * (t * y)) by ring.
      replace (w * tot * b * (q * x)) with (w * q * tot * (b * x)) by ring.
      apply Z.mul_le_mono_nonneg_l; [repeat apply Z.mul_nonneg_nonneg; lia|exact H3]. }
  apply (Z.mul_le_mono_pos_r _ _ a Ha).
  apply Z.le_trans with (k * (w * tot * b)).
  - replace (cnt * k * a) with (k * (cnt * a)) by ring. apply Z.mul_le_mono_nonneg_l; [lia|exact A].
  - replace (k * (w * tot * b)) with (tot * (w * b * k)) by ring. apply Z.mul_le_mono_nonneg_l; [lia|exact H4].
Qed.

(** Checkable certificate; [kb = 31 - plaintext_bits], sum of squares at most [e * 2^k]. *)
Definition tail_ok (n : Z) (kb : nat) (e : Z) (k : nat) (w K : Z) : bool :=
  let a := sq_lo 64 kb (2 ^ 64 * (n + 1) / n) in
  let x := 3 * (n * (n + 1)) in
  let b := sq_hi 64 k (2 ^ 64 * (x + 1) ^ e / x ^ e + 1) in
  (1 <=? n) && (0 <=? e) && (0 <=? K) && (0 <? a) && (w * b * 2 ^ K <=? a).

Lemma tail_ok_sound : forall n kb e k w K cnt tot, tail_ok n kb e k w K = true -> 0 <= cnt -> 0 <= tot -> 0 <= w ->
  cnt * (n + 1) ^ (2 ^ Z.of_nat kb) * (3 * (n * (n + 1))) ^ (e * 2 ^ Z.of_nat k)
    <= w * n ^ (2 ^ Z.of_nat kb) * tot * (3 * (n * (n + 1)) + 1) ^ (e * 2 ^ Z.of_nat k) ->
  cnt * 2 ^ K <= tot.
Proof.
  intros n kb e k w K cnt tot H Hc Ht Hw HH. unfold tail_ok in H. cbv zeta in H.
  rewrite !andb_true_iff, !Z.leb_le, Z.ltb_lt in H. destruct H as [[[[Hn He] HK] Ha] Hf].
  assert (X0 : 0 < 3 * (n * (n + 1))) by (apply Z.mul_pos_pos; [reflexivity|apply Z.mul_pos_pos; clear - Hn; lia]).
  assert (P0 : 0 < 2 ^ Z.of_nat k) by (apply Z.pow_pos_nonneg; lia).
  assert (PB : 0 < 2 ^ Z.of_nat kb) by (apply Z.pow_pos_nonneg; lia).
  refine (certify cnt tot w n (2 ^ Z.of_nat kb) (e * 2 ^ Z.of_nat k) 64
    (sq_lo 64 kb (2 ^ 64 * (n + 1) / n)) (sq_hi 64 k (2 ^ 64 * (3 * (n * (n + 1)) + 1) ^ e / (3 * (n * (n + 1))) ^ e + 1)) K
    Hn ltac:(lia) HK ltac:(lia) _ Hc Ht Hw Ha HH _ _ Hf).
  - apply Z.mul_nonneg_nonneg; lia.
  - pose proof (sq_lo_ok 64 kb (2 ^ 64 * (n + 1) / n) n (n + 1) 1) as L. rewrite !Z.mul_1_l in L.
    assert (0 <= 2 ^ 64 * (n + 1) / n) by (apply Z.div_pos; lia).
    assert (2 ^ 64 * (n + 1) / n * n ^ 1 <= 2 ^ 64 * (n + 1) ^ 1) by (rewrite !Z.pow_1_r, Z.mul_comm; apply Z.mul_div_le; lia).
    apply L; auto; lia.
  - set (x := 3 * (n * (n + 1))) in *. clearbody x.
    assert (X1 : 0 < x ^ e) by (apply Z.pow_pos_nonneg; lia). assert (X2 : 0 < (x + 1) ^ e) by (apply Z.pow_pos_nonneg; lia).
    assert (0 <= 2 ^ 64 * (x + 1) ^ e / x ^ e) by (apply Z.div_pos; lia).
    pose proof (Z.mul_succ_div_gt (2 ^ 64 * (x + 1) ^ e) (x ^ e) X1) as D.
    set (d := 2 ^ 64 * (x + 1) ^ e / x ^ e) in *. clearbody d.
    apply sq_hi_ok; lia.
Qed.

(** All tapes. *)
Lemma tapes_length : forall ws n, length (tapes_over ws n) = (length ws ^ n)%nat.
Proof.
  intros ws n. induction n as [|n IH]; [reflexivity|]. cbn [tapes_over Nat.pow]. rewrite <- IH. clear IH.
  induction (tapes_over ws n) as [|t l IH]; [cbn; lia|]. cbn [flat_map length]. rewrite app_length, map_length, IH. lia.
Qed.
