From Coq Require Import List ZArith Lia Bool Arith Floats.SpecFloat.
From Verif Require Import Base Spec Fmt Mat Lwe Db Api Hash Fuse3 Bfusep Float64 Estimate SpecFilter Experiment SpecEst Base_facts Float_facts Estimate_facts Geom_facts FilterTop_facts Claims_filter Claims_kv Claims_prob.
Import ListNotations.
Local Open Scope Z_scope.

Lemma between_fin lo hi x : f64_between lo hi x -> 1000 <= lo -> hi <= 1000000 ->
  exists v, fin x v /\ lo * 2 ^ 200 <= 10000 * v <= hi * 2 ^ 200.
Proof.
  intros (m & d & E & Hm & Hd & B) Hlo Hhi.
  assert (P : 0 < 2 ^ d) by (apply Z.pow_pos_nonneg; lia).
  assert (D1 : d <= 59).
  { destruct (Z_le_gt_dec d 59) as [X|X]; [exact X|exfalso].
    assert (2 ^ 60 <= 2 ^ d) by (apply Z.pow_le_mono_r; lia). nia. }
  assert (D2 : 9 <= d).
  { destruct (Z_lt_le_dec d 9) as [X|X]; [exfalso|exact X].
    assert (2 ^ d <= 2 ^ 8) by (apply Z.pow_le_mono_r; lia). nia. }
  exists (Zpos m * 2 ^ (- d + 200)). split.
  - exists m, (- d). split; [exact E|]. split; [exact Hm|]. split; [lia|reflexivity].
  - replace (2 ^ 200) with (2 ^ d * 2 ^ (- d + 200)).
    + assert (0 < 2 ^ (- d + 200)) by (apply Z.pow_pos_nonneg; lia).
      revert B H. generalize (2 ^ d) (2 ^ (- d + 200)). clear. intros; nia.
    + rewrite <- Z.pow_add_r by lia. f_equal. lia.
Qed.

Lemma size_u32 n : Z.of_nat n < 2 ^ 32 -> Z.to_nat (Z.of_nat n mod two32) = n.
Proof. intros H. rewrite Z.mod_small by (unfold two32; lia). apply Nat2Z.id. Qed.

Section Log.
Variable log : f64 -> f64.
Hypothesis HL : reasonable_log log.

(** Upper estimate of log n in units of 1/10000. *)
Definition hi_log (n : nat) : Z :=
  let k := Z.log2 (Z.of_nat n) in 6932 * (if Z.of_nat n =? 2 ^ k then k else k + 1).

Lemma log_n n : (2 <= n)%nat -> Z.of_nat n < 2 ^ 32 ->
  exists v, fin (log (f64_of_usize n)) v /\
    6931 * Z.log2 (Z.of_nat n) * 2 ^ 200 <= 10000 * v <= hi_log n * 2 ^ 200 /\
    1 <= Z.log2 (Z.of_nat n) <= 31 /\ hi_log n <= 6932 * (Z.log2 (Z.of_nat n) + 1).
Proof.
  intros H1 H2. destruct HL as (_ & _ & _ & H). specialize (H n H1 H2). cbv zeta in H. fold (hi_log n) in H.
  assert (K : 1 <= Z.log2 (Z.of_nat n) <= 31).
  { split.
    - change 1 with (Z.log2 2). apply Z.log2_le_mono. lia.
    - assert (Z.log2 (Z.of_nat n) < 32); [|lia]. apply Z.log2_lt_pow2; lia. }
  assert (HH : hi_log n <= 6932 * (Z.log2 (Z.of_nat n) + 1)) by (unfold hi_log; cbv zeta; destruct (_ =? _); lia).
  destruct (between_fin _ _ _ H) as (v & F & B); try lia. eauto.
Qed.

(** The exponent before taking the floor, scaled by 2^200. *)
Lemma exp_gen n : (2 <= n)%nat -> Z.of_nat n < 2 ^ 32 ->
  exists w, seglen_exp log n = Z.min (two32 - 1) (w / 2 ^ 200) /\
    (6931 * Z.log2 (Z.of_nat n) * 1000 + 2249 * 12031) * 2 ^ 200 <= w * 12031 * 1000 /\
    w * 12029 * 1000 <= (hi_log n * 1000 + 2251 * 12029) * 2 ^ 200.
Proof.
  intros H1 H2. destruct (log_n n H1 H2) as (v & F & B & K & HH).
  set (k := Z.log2 (Z.of_nat n)) in *. clearbody k. set (h := hi_log n) in *. clearbody h.
  destruct HL as (_ & L3 & _). destruct (between_fin _ _ _ L3) as (u & Fu & Bu); try lia.
  destruct (div_fin _ _ _ _ F Fu) as (q & Fq & Bq).
  { clear - B Bu K. lia. }
  { clear - B Bu K HH. lia. }
  assert (F2 : fin f_2_25 (9 * 2 ^ 198)).
  { exists 5066549580791808%positive, (-51). split; [reflexivity|]. split; [lia|]. split; [lia|reflexivity]. }
  assert (Q1 : 6931 * k * 2 ^ 200 * (2 ^ 51 - 1) <= q * 12031 * 2 ^ 51).
  { assert (q * u * 10000 <= q * (12031 * 2 ^ 200)).
    { rewrite <- Z.mul_assoc. apply Z.mul_le_mono_nonneg_l; [|lia].
      destruct Fq as (? & ? & _ & _ & _ & ->). apply Z.mul_nonneg_nonneg; [lia|apply Z.pow_nonneg; lia]. }
    clear - B Bq H. lia. }
  assert (Q2 : q * 12029 * 2 ^ 51 <= h * 2 ^ 200 * (2 ^ 51 + 1)).
  { assert (q * (12029 * 2 ^ 200) <= q * u * 10000).
    { rewrite <- Z.mul_assoc. apply Z.mul_le_mono_nonneg_l; [|lia].
      destruct Fq as (? & ? & _ & _ & _ & ->). apply Z.mul_nonneg_nonneg; [lia|apply Z.pow_nonneg; lia]. }
    clear - B Bq H. lia. }
  clear Bq Bu B L3 HL.
  destruct (add_fin _ _ _ _ Fq F2) as (w & Fw & Bw).
  { clear - Q1 K. lia. }
  { clear - Q2 K HH. lia. }
  exists w. split.
  - unfold seglen_exp. rewrite size_u32 by exact H2. apply (floor_fin _ _ Fw).
  - clear - Q1 Q2 Bw K HH. split; lia.
Qed.

Lemma exp_bounds n : (2 <= n)%nat -> Z.of_nat n < 2 ^ 32 ->
  let k := Z.log2 (Z.of_nat n) in
  exists w, seglen_exp log n = Z.min (two32 - 1) (w / 2 ^ 200) /\
    (6931 * k * 1000 + 2249 * 12031) * 2 ^ 200 <= w * 12031 * 1000 /\
    w * 12029 * 1000 <= (6932 * (k + 1) * 1000 + 2251 * 12029) * 2 ^ 200 /\ 1 <= k <= 31.
Proof.
  intros H1 H2. cbv zeta. destruct (exp_gen n H1 H2) as (w & E & L & U).
  destruct (log_n n H1 H2) as (_ & _ & _ & K & HH).
  exists w. split; [exact E|]. split; [exact L|]. split; [|exact K].
  eapply Z.le_trans; [exact U|]. apply Z.mul_le_mono_nonneg_r; [apply Z.pow_nonneg; lia|lia].
Qed.

Lemma exp_one : seglen_exp log 1 = 2.
Proof.
  unfold seglen_exp. rewrite size_u32 by reflexivity. destruct HL as (E & L3 & _). rewrite E.
  destruct L3 as (m & d & E3 & _). rewrite E3. reflexivity.
Qed.

Lemma exp_range n : (1 <= n)%nat -> Z.of_nat n < 2 ^ 32 -> 2 <= seglen_exp log n < 32.
Proof.
  intros H1 H2. destruct (Nat.eq_dec n 1) as [->|N]; [rewrite exp_one; lia|].
  destruct (exp_bounds n ltac:(lia) H2) as (w & E & L & U & K). rewrite E.
  assert (2 <= w / 2 ^ 200) by (apply Z.div_le_lower_bound; [reflexivity|]; clear - L K; lia).
  assert (w / 2 ^ 200 < 32) by (apply Z.div_lt_upper_bound; [reflexivity|]; clear - U K; lia).
  unfold two32. lia.
Qed.

(** The size factor, scaled by 2^200: the larger of 9/8 and s, where s is 7/8 + q up to
    rounding and q is ln(10^6)/4 over the logarithm. *)
Lemma factor_gen n : (2 <= n)%nat -> Z.of_nat n < 2 ^ 32 ->
  exists q s, fin (size_factor3 log n) (Z.max (9 * 2 ^ 197) s) /\
    (7 * 2 ^ 197 + q) * (2 ^ 51 - 1) <= s * 2 ^ 51 <= (7 * 2 ^ 197 + q) * (2 ^ 51 + 1) /\ 0 <= q /\
    q * (6931 * Z.log2 (Z.of_nat n)) * 100000 * 2 ^ 51 <= 10000 * 345391 * 2 ^ 200 * (2 ^ 51 + 1) /\
    10000 * 345387 * 2 ^ 200 * (2 ^ 51 - 1) <= q * hi_log n * 100000 * 2 ^ 51.
Proof.
  intros H1 H2. destruct (log_n n H1 H2) as (v & F & B & K & HH).
  destruct HL as (_ & _ & L6 & _). destruct (between_fin _ _ _ L6) as (u & Fu & Bu); try lia.
  assert (F25 : fin f_0_25 (2 ^ 198)).
  { exists 4503599627370496%positive, (-54). split; [reflexivity|]. split; [lia|]. split; [lia|reflexivity]. }
  assert (F875 : fin f_0_875 (7 * 2 ^ 197)).
  { exists 7881299347898368%positive, (-53). split; [reflexivity|]. split; [lia|]. split; [lia|reflexivity]. }
  assert (F1125 : fin f_1_125 (9 * 2 ^ 197)).
  { exists 5066549580791808%positive, (-52). split; [reflexivity|]. split; [lia|]. split; [lia|reflexivity]. }
  destruct (mul_fin _ _ _ _ F25 Fu) as (p & Fp & Bp).
  { clear - Bu. lia. }
  { clear - Bu. lia. }
  assert (P1 : 345387 * 2 ^ 200 <= p * 100000 <= 345391 * 2 ^ 200) by (clear - Bp Bu; lia).
  clear Bp. set (h := hi_log n) in *. clearbody h.
  destruct (div_fin _ _ _ _ Fp F) as (q & Fq & Bq).
  { clear - B P1 K HH. lia. }
  { clear - B P1 K. lia. }
  assert (q0 : 0 <= q).
  { destruct Fq as (? & ? & _ & _ & _ & ->). apply Z.mul_nonneg_nonneg; [lia|apply Z.pow_nonneg; lia]. }
  assert (Q2 : q * (6931 * Z.log2 (Z.of_nat n)) * 100000 * 2 ^ 51 <= 10000 * 345391 * 2 ^ 200 * (2 ^ 51 + 1)).
  { assert (q * (6931 * Z.log2 (Z.of_nat n) * 2 ^ 200) <= q * (10000 * v)) by (apply Z.mul_le_mono_nonneg_l; [exact q0|apply B]).
    clear - Bq H P1. 
    set (X := q * (6931 * Z.log2 (Z.of_nat n))) in *.
    replace (q * (6931 * Z.log2 (Z.of_nat n) * 2 ^ 200)) with (X * 2 ^ 200) in H by (unfold X; ring).
    replace (q * (10000 * v)) with (10000 * (q * v)) in H by ring. clearbody X. set (Y := q * v) in *. clearbody Y. lia. }
  assert (Q1 : 10000 * 345387 * 2 ^ 200 * (2 ^ 51 - 1) <= q * h * 100000 * 2 ^ 51).
  { assert (q * (10000 * v) <= q * (h * 2 ^ 200)) by (apply Z.mul_le_mono_nonneg_l; [exact q0|apply B]).
    clear - Bq H P1. set (X := q * h) in *.
    replace (q * (h * 2 ^ 200)) with (X * 2 ^ 200) in H by (unfold X; ring).
    replace (q * (10000 * v)) with (10000 * (q * v)) in H by ring. clearbody X. set (Y := q * v) in *. clearbody Y. lia. }
  assert (Q3 : 2 ^ 195 <= q).
  { assert (q * h <= q * (6932 * 32)) by (apply Z.mul_le_mono_nonneg_l; lia).
    set (X := q * h) in *. clearbody X. clear - H Q1. lia. }
  assert (Q4 : q <= 5 * 2 ^ 200).
  { assert (q * 6931 <= q * (6931 * Z.log2 (Z.of_nat n))) by (apply Z.mul_le_mono_nonneg_l; lia).
    clear - H Q2. set (X := q * (6931 * Z.log2 (Z.of_nat n))) in *. clearbody X. lia. }
  destruct (add_fin _ _ _ _ F875 Fq) as (s & Fs & Bs).
  { clear - Q3. lia. }
  { clear - Q4. lia. }
  exists q, s. split; [|auto].
  unfold size_factor3. rewrite size_u32 by exact H2.
  set (rhs := f64_add f_0_875 _) in *.
  assert (E : f64_max f_1_125 rhs = if (9 * 2 ^ 197 <? s) then rhs else f_1_125).
  { pose proof (lt_fin _ _ _ _ F1125 Fs) as LT. destruct Fs as (m & e & E & _). 
    unfold f64_max. rewrite <- LT. rewrite E. reflexivity. }
  rewrite E. destruct (Z.ltb_spec (9 * 2 ^ 197) s) as [C|C].
  - rewrite Z.max_r by (clear - C; lia). exact Fs.
  - rewrite Z.max_l by exact C. exact F1125.
Qed.

Lemma factor_bounds n : (2 <= n)%nat -> Z.of_nat n < 2 ^ 32 ->
  exists w, fin (size_factor3 log n) w /\ 9 * 2 ^ 197 <= w /\ w <= 6 * 2 ^ 200 /\
    (2 ^ 20 <= Z.of_nat n -> w = 9 * 2 ^ 197).
Proof.
  intros H1 H2. destruct (factor_gen n H1 H2) as (q & s & F & Bs & q0 & Q2 & _).
  destruct (log_n n H1 H2) as (_ & _ & _ & K & _).
  exists (Z.max (9 * 2 ^ 197) s). split; [exact F|]. split; [apply Z.le_max_l|]. clear F. split.
  - assert (q * 6931 <= q * (6931 * Z.log2 (Z.of_nat n))) by (apply Z.mul_le_mono_nonneg_l; lia).
    set (X := q * (6931 * Z.log2 (Z.of_nat n))) in *. clearbody X.
    apply Z.max_lub; clear - H Q2 Bs; lia.
  - intros H20. apply Z.max_l.
    assert (K20 : 20 <= Z.log2 (Z.of_nat n)).
    { change 20 with (Z.log2 (2 ^ 20)). apply Z.log2_le_mono. exact H20. }
    assert (q * (6931 * 20) <= q * (6931 * Z.log2 (Z.of_nat n))) by (apply Z.mul_le_mono_nonneg_l; lia).
    clear - H Q2 Bs. set (X := q * (6931 * Z.log2 (Z.of_nat n))) in *. clearbody X. lia.
Qed.

(** Rounding the product. *)
Lemma cap_gen n f : (2 <= n)%nat -> Z.of_nat n < 2 ^ 32 -> fin (size_factor3 log n) f ->
  2 ^ 197 <= f <= 6 * 2 ^ 200 ->
  exists c, capacity_of log n = Z.min (two32 - 1) c /\
    Z.of_nat n * f * (2 ^ 51 - 1) <= (2 * c + 1) * 2 ^ 199 * 2 ^ 51 /\
    (2 * c - 1) * 2 ^ 199 * 2 ^ 51 <= Z.of_nat n * f * (2 ^ 51 + 1).
Proof.
  intros H1 H2 Ff Bf.
  pose proof (usize_fin n ltac:(lia) ltac:(lia)) as Fn.
  assert (N0 : 2 <= Z.of_nat n) by lia. set (N := Z.of_nat n) in *. clearbody N.
  assert (M1 : N * 2 ^ 197 <= N * f) by (apply Z.mul_le_mono_nonneg_l; lia).
  assert (M2 : N * f <= N * (6 * 2 ^ 200)) by (apply Z.mul_le_mono_nonneg_l; lia).
  destruct (mul_fin _ _ _ _ Fn Ff) as (z & Fz & Bz).
  { replace (N * 2 ^ 200 * f) with (N * f * 2 ^ 200) by ring. clear - M1 N0. set (X := N * f) in *. clearbody X. lia. }
  { replace (N * 2 ^ 200 * f) with (N * f * 2 ^ 200) by ring. clear - M2 H2. set (X := N * f) in *. clearbody X. lia. }
  replace (N * 2 ^ 200 * f) with (N * f * 2 ^ 200) in Bz by ring.
  set (X := N * f) in *. clearbody X. clear Ff Fn.
  exists ((2 * z + 2 ^ 200) / 2 ^ 201). split; [apply (round_fin _ _ Fz)|]. clear Fz.
  assert (DM : 2 * z + 2 ^ 200 = 2 ^ 201 * ((2 * z + 2 ^ 200) / 2 ^ 201) + (2 * z + 2 ^ 200) mod 2 ^ 201) by (apply Z.div_mod; discriminate).
  assert (MB : 0 <= (2 * z + 2 ^ 200) mod 2 ^ 201 < 2 ^ 201) by (apply Z.mod_pos_bound; reflexivity).
  revert DM MB. generalize ((2 * z + 2 ^ 200) / 2 ^ 201) ((2 * z + 2 ^ 200) mod 2 ^ 201). intros c r DM MB.
  split; clear - DM MB Bz; lia.
Qed.

(** The capacity. *)
Lemma cap_bounds n : (2 <= n)%nat -> Z.of_nat n < 2 ^ 32 ->
  exists c, capacity_of log n = Z.min (two32 - 1) c /\ 9 * Z.of_nat n - 4 <= 8 * c /\ c <= 6 * Z.of_nat n + 1 /\
    (2 ^ 20 <= Z.of_nat n -> 8 * c <= 9 * Z.of_nat n + 4).
Proof.
  intros H1 H2. destruct (factor_bounds n H1 H2) as (f & Ff & Lf & Uf & Xf).
  destruct (cap_gen n f H1 H2 Ff) as (c & E & B1 & B2); [lia|].
  exists c. split; [exact E|].
  assert (N0 : 2 <= Z.of_nat n) by lia. set (N := Z.of_nat n) in *. clearbody N.
  assert (M1 : N * (9 * 2 ^ 197) <= N * f) by (apply Z.mul_le_mono_nonneg_l; lia).
  assert (M2 : N * f <= N * (6 * 2 ^ 200)) by (apply Z.mul_le_mono_nonneg_l; lia).
  assert (M3 : 2 ^ 20 <= N -> N * f = N * (9 * 2 ^ 197)) by (intros; f_equal; auto).
  set (X := N * f) in *. clearbody X. clear Ff Lf Uf Xf.
  split; [|split].
  - clear - B1 M1 H2 N0. lia.
  - clear - B2 M2 H2 N0. lia.
  - intros H20. specialize (M3 H20). clear - B2 M3 H2 N0. lia.
Qed.

(** At powers of two everything is known to four digits. *)
Lemma pow2_facts k : 1 <= k <= 31 ->
  let n := Z.to_nat (2 ^ k) in
  (exists w, seglen_exp log n = Z.min (two32 - 1) (w / 2 ^ 200) /\
    (6931 * k * 1000 + 2249 * 12031) * 2 ^ 200 <= w * 12031 * 1000 /\
    w * 12029 * 1000 <= (6932 * k * 1000 + 2251 * 12029) * 2 ^ 200) /\
  exists q s c, capacity_of log n = Z.min (two32 - 1) c /\
    2 ^ k * Z.max (9 * 2 ^ 197) s * (2 ^ 51 - 1) <= (2 * c + 1) * 2 ^ 199 * 2 ^ 51 /\
    (2 * c - 1) * 2 ^ 199 * 2 ^ 51 <= 2 ^ k * Z.max (9 * 2 ^ 197) s * (2 ^ 51 + 1) /\
    (7 * 2 ^ 197 + q) * (2 ^ 51 - 1) <= s * 2 ^ 51 <= (7 * 2 ^ 197 + q) * (2 ^ 51 + 1) /\ 0 <= q /\
    q * (6931 * k) * 100000 * 2 ^ 51 <= 10000 * 345391 * 2 ^ 200 * (2 ^ 51 + 1) /\
    10000 * 345387 * 2 ^ 200 * (2 ^ 51 - 1) <= q * (6932 * k) * 100000 * 2 ^ 51.
Proof.
  intros Hk n.
  assert (P1 : 2 <= 2 ^ k) by (change 2 with (2 ^ 1) at 1; apply Z.pow_le_mono_r; lia).
  assert (P2 : 2 ^ k <= 2 ^ 31) by (apply Z.pow_le_mono_r; lia).
  assert (N : Z.of_nat n = 2 ^ k) by (unfold n; rewrite Z2Nat.id; lia).
  assert (L : Z.log2 (Z.of_nat n) = k) by (rewrite N; apply Z.log2_pow2; lia).
  assert (HI : hi_log n = 6932 * k) by (unfold hi_log; cbv zeta; rewrite L, N, Z.eqb_refl; reflexivity).
  assert (H1 : (2 <= n)%nat) by lia. assert (H2 : Z.of_nat n < 2 ^ 32) by (rewrite N; lia).
  clearbody n. split.
  - destruct (exp_gen n H1 H2) as (w & E & A & B). rewrite L in A. rewrite HI in B. eauto.
  - destruct (factor_gen n H1 H2) as (q & s & F & Bs & q0 & Q2 & Q1). rewrite L in Q2. rewrite HI in Q1.
    destruct (factor_bounds n H1 H2) as (f & Ff & Lf & Uf & _).
    assert (f = Z.max (9 * 2 ^ 197) s).
    { destruct F as (m & e & E & _ & _ & V). destruct Ff as (m' & e' & E' & _ & _ & V'). congruence. }
    subst f. destruct (cap_gen n _ H1 H2 F) as (c & E & B1 & B2); [lia|]. rewrite N in *.
    exists q, s, c. auto 10.
Qed.
End Log.

(** The largest number of keys covered. *)
Definition max_keys : Z := 3817000000.

(** @C64 with binary64 arithmetic and a logarithm that is right to four digits, both size
    estimates are in the range the filter theorems (C25-C35, C44) ask for, for every number
    of keys up to 3.817 thousand million. *)
Lemma estimates_sane : forall log n, reasonable_log log -> Z.of_nat n <= max_keys ->
  sane_estimates (f64_estimates log) n.
Proof.
  unfold max_keys. intros log n HL Hn. split; cbn [f64_estimates fe_exp fe_cap].
  - intros H. apply exp_range; auto; [|lia]. destruct n; [exfalso; apply H; reflexivity|lia].
  - intros H. destruct (cap_bounds log HL n) as (c & E & L & U & X); try lia. rewrite E.
    assert (c + 786432 < 4294967296).
    { destruct (Z_lt_le_dec (Z.of_nat n) (2 ^ 20)) as [S|S]; [lia|]. specialize (X S). lia. }
    unfold two32. lia.
Qed.

Lemma seglen_small log n : reasonable_log log -> 2 ^ 20 <= Z.of_nat n < 2 ^ 32 ->
  64 * Z.min (2 ^ seglen_exp log n) 262144 <= Z.of_nat n.
Proof.
  intros HL [H1 H2]. destruct (exp_bounds log HL n) as (w & E & L & U & K); try lia.
  assert (NK : 2 ^ Z.log2 (Z.of_nat n) <= Z.of_nat n) by (apply Z.log2_spec; lia).
  assert (K20 : 20 <= Z.log2 (Z.of_nat n)).
  { change 20 with (Z.log2 (2 ^ 20)). apply Z.log2_le_mono. exact H1. }
  set (k := Z.log2 (Z.of_nat n)) in *. clearbody k.
  assert (D : w / 2 ^ 200 <= k - 6 \/ 24 <= k).
  { destruct (Z_le_gt_dec 24 k) as [G|G]; [right; exact G|left].
    assert (w / 2 ^ 200 < k - 5); [|lia]. apply Z.div_lt_upper_bound; [reflexivity|].
    assert (Kc : k = 20 \/ k = 21 \/ k = 22 \/ k = 23) by lia.
    clear - U Kc. destruct Kc as [-> | [-> | [-> | ->]]]; lia. }
  assert (P : 64 * 2 ^ (k - 6) = 2 ^ k).
  { change 64 with (2 ^ 6). rewrite <- Z.pow_add_r by lia. f_equal. lia. }
  destruct D as [D|D].
  - assert (2 ^ seglen_exp log n <= 2 ^ (k - 6)) by (apply Z.pow_le_mono_r; [lia|]; rewrite E; lia). lia.
  - assert (2 ^ 18 <= 2 ^ (k - 6)) by (apply Z.pow_le_mono_r; lia). change (2 ^ 18) with 262144 in *. lia.
Qed.

Lemma seglen_of_geometry log dbg n g : reasonable_log log -> (1 <= n)%nat -> Z.of_nat n < 2 ^ 32 ->
  geometry dbg (f64_estimates log) n = Ok g -> g_seglen g = Z.min (2 ^ seglen_exp log n) 262144.
Proof.
  intros HL H1 H2. unfold geometry, segment_length.
  destruct (Z.eqb_spec (Z.of_nat n mod two32) 0) as [Z0|Z0].
  { exfalso. rewrite Z.mod_small in Z0 by (unfold two32; lia). lia. }
  pose proof (exp_range log HL n H1 H2) as HS. cbn [f64_estimates fe_exp] in *.
  destruct (Z.ltb_spec (seglen_exp log n) 32) as [W|W]; [|lia]. cbn [bind].
  intros G. repeat match type of G with
  | bind ?x _ = Ok _ => let E := fresh in destruct x eqn:E; cbn [bind] in G; try discriminate G
  end. injection G as <-. reflexivity.
Qed.

(** @C64 for every such number of keys the size computation succeeds in both build profiles.
    There is room for at least 1.125 slots per key (up to rounding to whole slots), and from
    2^20 keys on at most 1.141: 9.13 bits per entry for 8-bit fingerprints, 18.26 for 16-bit
    and 36.51 for 32-bit ones, the documented "about 9 / 18 / 36 bits per entry". *)
Lemma documented_size : forall log dbg n, reasonable_log log -> Z.of_nat n <= max_keys ->
  exists g, geometry dbg (f64_estimates log) n = Ok g /\
    ((2 <= n)%nat -> 9 * Z.of_nat n - 4 <= 8 * Z.of_nat (g_arrlen g)) /\
    (2 ^ 20 <= Z.of_nat n -> 1000 * (8 * Z.of_nat (g_arrlen g)) <= 9126 * Z.of_nat n).
Proof.
  intros log dbg n HL Hn. pose proof (estimates_sane log n HL Hn) as HS. unfold max_keys in Hn.
  destruct (geometry_shape dbg _ _ HS) as (g & e & G & He & Esl & _ & _ & _ & _ & B).
  exists g. split; [exact G|]. cbn [f64_estimates fe_cap] in B.
  split.
  - intros H2. destruct (cap_bounds log HL n) as (c & E & L & U & X); try lia.
    destruct (Nat.leb_spec n 1) as [Q|Q]; [lia|]. cbv zeta in B. destruct HS as [_ HS]. cbn [f64_estimates fe_cap] in HS.
    specialize (HS Q). rewrite E in *. unfold two32 in *. lia.
  - intros H20. destruct (cap_bounds log HL n) as (c & E & L & U & X); try lia. specialize (X H20).
    destruct (Nat.leb_spec n 1) as [Q|Q]; [lia|]. cbv zeta in B. 
    assert (SL : 64 * g_seglen g <= Z.of_nat n).
    { rewrite (seglen_of_geometry log dbg n g) by (auto; lia). apply seglen_small; auto; lia. }
    rewrite E in B. unfold two32 in *. lia.
Qed.

(** @C64 the bound is close to the largest possible: between 3.8176 thousand million and 2^32
    keys a debug build panics while computing the size, and a release build wraps around and
    allocates 786432 slots, whatever the number of keys. *)
Lemma too_many_keys : forall log n, reasonable_log log -> 3817600000 <= Z.of_nat n < 2 ^ 32 ->
  geometry true (f64_estimates log) n = Panic /\
  exists g, geometry false (f64_estimates log) n = Ok g /\ Z.of_nat (g_arrlen g) = 786432.
Proof.
  intros log n HL [H1 H2].
  destruct (cap_bounds log HL n) as (c & E & L & _ & _); try lia.
  assert (SL : Z.min (2 ^ seglen_exp log n) 262144 = 262144).
  { destruct (exp_bounds log HL n) as (w & Ew & Lw & Uw & K); try lia.
    assert (K31 : 31 <= Z.log2 (Z.of_nat n)).
    { change 31 with (Z.log2 (2 ^ 31)). apply Z.log2_le_mono. lia. }
    set (k := Z.log2 (Z.of_nat n)) in *. clearbody k.
    assert (18 <= w / 2 ^ 200) by (apply Z.div_le_lower_bound; [reflexivity|]; clear - Lw K31 K; lia).
    assert (18 <= seglen_exp log n) by (rewrite Ew; unfold two32; lia).
    assert (2 ^ 18 <= 2 ^ seglen_exp log n) by (apply Z.pow_le_mono_r; lia). change (2 ^ 18) with 262144 in *. lia. }
  pose proof (exp_range log HL n ltac:(lia) H2) as RE.
  assert (C : 4294967296 - 262144 < capacity_of log n <= 4294967295) by (rewrite E; unfold two32; lia).
  assert (SLE : forall dbg, segment_length dbg (f64_estimates log) n = Ok (2 ^ seglen_exp log n)).
  { intros dbg. unfold segment_length.
    destruct (Z.eqb_spec (Z.of_nat n mod two32) 0) as [Z0|Z0].
    { exfalso. rewrite Z.mod_small in Z0 by (unfold two32; lia). lia. }
    cbn [f64_estimates fe_exp]. destruct (Z.ltb_spec (seglen_exp log n) 32) as [W|W]; [reflexivity|lia]. }
  unfold geometry. rewrite !SLE. cbn [bind]. rewrite SL.
  destruct (Nat.ltb_spec 1 n) as [Q|Q]; [|lia]. cbn [f64_estimates fe_cap].
  set (cap := capacity_of log n) in *. clearbody cap. clear E L SL SLE.
  assert (CK : forall dbg x, 0 <= x < 4294967296 -> chk dbg two32 x = Ok x).
  { intros dbg x Hx. apply chk_Ok. unfold two32. lia. }
  unfold add32, sub32, mul32. split.
  - rewrite (CK true (262144 - 1)) by lia. cbn [bind].
    replace (chk true two32 (cap + 262144)) with (@Panic Z); [reflexivity|].
    symmetry. apply chk_oob. unfold two32. lia.
  - rewrite (CK false (262144 - 1)) by lia. cbn [bind].
    assert (A : chk false two32 (cap + 262144) = Ok (cap + 262144 - 4294967296)).
    { rewrite chk_false by reflexivity. f_equal. unfold two32. rewrite <- (Z.mod_small (cap + 262144 - 4294967296) 4294967296) by lia.
      replace (cap + 262144) with ((cap + 262144 - 4294967296) + 1 * 4294967296) at 1 by lia. apply Z.mod_add. lia. }
    rewrite A. clear A. cbn [bind]. set (t := cap + 262144 - 4294967296) in *. assert (T : 1 <= t <= 262143) by lia. clearbody t.
    rewrite (CK false (t - 1)) by lia. cbn [bind].
    unfold divz at 1. change (262144 =? 0) with false. cbv iota. cbn [bind].
    rewrite Z.div_small by lia.
    eexists. split; [reflexivity|]. reflexivity.
Qed.

(** A crude logarithm: exponent times ln 2, and two table entries. *)
Definition crude_log (x : f64) : f64 :=
  match x with
  | S754_finite false m e =>
      if ((m =? 7498493379571876)%positive && (e =? -51)) then S754_finite false 5417705619996986 (-52)
      else if ((m =? 8589934592000000)%positive && (e =? -33)) then S754_finite false 7777441025097632 (-49)
      else f64_mul (f64_of_usize (Z.to_nat (52 + e))) (S754_finite false 6243314768165359 (-53))
  | _ => S754_nan
  end.

Lemma fin_between x v lo hi : fin x v -> lo * 2 ^ 200 <= 10000 * v <= hi * 2 ^ 200 -> f64_between lo hi x.
Proof.
  intros (m & e & E & Hm & He & V) B. exists m, (- e). rewrite Z.opp_involutive.
  split; [exact E|]. split; [exact Hm|]. split; [lia|].
  assert (P : 0 < 2 ^ (e + 200)) by (apply Z.pow_pos_nonneg; lia).
  assert (Q : 2 ^ 200 = 2 ^ (- e) * 2 ^ (e + 200)) by (rewrite <- Z.pow_add_r by lia; f_equal; lia).
  rewrite Q, V in B. revert B P. generalize (2 ^ (- e)) (2 ^ (e + 200)). clear. intros; nia.
Qed.

Lemma crude_log_reasonable : reasonable_log crude_log.
Proof.
  split; [vm_compute; reflexivity|]. split; [|split].
  - exists 5417705619996986%positive, 52. split; [reflexivity|]. lia.
  - exists 7777441025097632%positive, 49. split; [reflexivity|]. lia.
  - intros n H1 H2. cbv zeta.
    destruct (of_usize_exact n) as (m & d & E & Hd & Em & Hm); try lia.
    assert (P : 0 < 2 ^ d) by (apply Z.pow_pos_nonneg; lia).
    assert (K : Z.log2 (Z.of_nat n) = 52 - d).
    { assert (P2 : 0 < 2 ^ (52 - d)) by (apply Z.pow_pos_nonneg; lia).
      assert (D1 : 2 ^ 52 = 2 ^ (52 - d) * 2 ^ d) by (rewrite <- Z.pow_add_r by lia; f_equal; lia).
      apply Z.log2_unique; [lia|]. rewrite Z.pow_succ_r by lia.
      change (2 ^ 53) with (2 * 2 ^ 52) in Hm. rewrite D1, Em in Hm. revert Hm P. clear.
      generalize (2 ^ d) (2 ^ (52 - d)) (Z.of_nat n). intros; nia. }
    assert (Kr : 1 <= 52 - d <= 31).
    { rewrite <- K. split.
      - change 1 with (Z.log2 2). apply Z.log2_le_mono. lia.
      - assert (Z.log2 (Z.of_nat n) < 32); [|lia]. apply Z.log2_lt_pow2; lia. }
    rewrite E. cbn [crude_log].
    destruct ((m =? 7498493379571876)%positive && (- d =? -51)) eqn:C1.
    { exfalso. apply andb_true_iff in C1. destruct C1 as [C1 C2]. apply Pos.eqb_eq in C1. apply Z.eqb_eq in C2.
      replace d with 51 in Em by lia. subst m. clear - Em. lia. }
    destruct ((m =? 8589934592000000)%positive && (- d =? -33)) eqn:C2.
    { apply andb_true_iff in C2. destruct C2 as [C2 C3]. apply Pos.eqb_eq in C2. apply Z.eqb_eq in C3.
      replace (Z.of_nat n) with 1000000 by (replace d with 33 in Em by lia; subst m; lia).
      exists 7777441025097632%positive, 49. split; [reflexivity|]. vm_compute. repeat split; discriminate. }
    rewrite K.
    assert (HI : 52 - d <= (if Z.of_nat n =? 2 ^ (52 - d) then 52 - d else 52 - d + 1)) by (destruct (Z.of_nat n =? 2 ^ (52 - d)); lia).
    revert HI. generalize (if Z.of_nat n =? 2 ^ (52 - d) then 52 - d else 52 - d + 1). intros hi HI.
    set (k := 52 + - d). replace (52 - d) with k in * by (unfold k; lia).
    pose proof (usize_fin (Z.to_nat k) ltac:(lia) ltac:(lia)) as Fk. rewrite Z2Nat.id in Fk by lia.
    assert (Fc : fin (S754_finite false 6243314768165359 (-53)) (6243314768165359 * 2 ^ 147)).
    { exists 6243314768165359%positive, (-53). split; [reflexivity|]. split; [lia|]. split; [lia|reflexivity]. }
    destruct (mul_fin _ _ _ _ Fk Fc) as (z & Fz & Bz).
    { clear - Kr. lia. }
    { clear - Kr. lia. }
    apply (fin_between _ z); [exact Fz|]. clear - Bz Kr HI. lia.
Qed.

(** @C64 such a logarithm exists (a crude one is enough), and with it 1048576 keys get a filter
    of 1179648 slots, exactly 9 bits per 8-bit entry, in both build profiles. *)
Example documented_size_example : reasonable_log crude_log /\
  (forall dbg, exists g, geometry dbg (f64_estimates crude_log) (Z.to_nat 1048576) = Ok g /\
    Z.of_nat (g_arrlen g) = 1179648) /\
  seglen_exp crude_log (Z.to_nat 1048576) = 13 /\ capacity_of crude_log (Z.to_nat 1048576) = 1179648.
Proof.
  split; [exact crude_log_reasonable|].
  assert (E : seglen_exp crude_log (Z.to_nat 1048576) = 13).
  { unfold seglen_exp. rewrite Z2Nat.id by lia. unfold f64_of_usize. rewrite !Z2Nat.id by (vm_compute; discriminate). vm_compute. reflexivity. }
  assert (C : capacity_of crude_log (Z.to_nat 1048576) = 1179648).
  { unfold capacity_of, size_factor3, f64_of_usize. rewrite !Z2Nat.id by (vm_compute; discriminate). vm_compute. reflexivity. }
  split; [|split; [exact E|exact C]].
  intros dbg. unfold geometry, segment_length. cbn [f64_estimates fe_exp fe_cap]. rewrite E, C, !Z2Nat.id by lia.
  replace (1 <? Z.to_nat 1048576)%nat with true by (symmetry; apply Nat.ltb_lt; lia).
  destruct dbg; eexists; (split; [reflexivity|cbn [g_arrlen]; rewrite Z2Nat.id by (vm_compute; discriminate); reflexivity]).
Qed.

(** The numbers of keys of the Makefile's benchmark configurations (as exponents of two) and
    the numbers of slots. *)
Definition shipped_sizes : list (Z * Z) :=
  [(14, 20480); (16, 77824); (17, 155648); (18, 303104); (19, 598016); (20, 1179648)].

(** @C64 for the key counts of the Makefile's keyword configurations the number of slots is known
    exactly, in both build profiles. *)
Lemma shipped_slots : forall log dbg k slots, reasonable_log log -> In (k, slots) shipped_sizes ->
  exists g, geometry dbg (f64_estimates log) (Z.to_nat (2 ^ k)) = Ok g /\ Z.of_nat (g_arrlen g) = slots.
Proof.
  intros log dbg k slots HL Hin.
  assert (Hk : 14 <= k <= 20).
  { cbn in Hin. repeat (destruct Hin as [Hin|Hin]; [injection Hin as <- _; lia|]). destruct Hin. }
  assert (P1 : 2 ^ 14 <= 2 ^ k) by (apply Z.pow_le_mono_r; lia).
  assert (P2 : 2 ^ k <= 2 ^ 20) by (apply Z.pow_le_mono_r; lia).
  destruct (pow2_facts log HL k ltac:(lia)) as ((w & Ew & L & U) & (q & s & c & Ec & C1 & C2 & S1 & q0 & Q2 & Q1)).
  set (n := Z.to_nat (2 ^ k)) in *.
  assert (N : Z.of_nat n = 2 ^ k) by (unfold n; rewrite Z2Nat.id; lia).
  pose proof (estimates_sane log n HL ltac:(unfold max_keys; lia)) as HS.
  destruct (geometry_shape dbg _ _ HS) as (g & e & G & He & Esl & _ & (cc & Hcc & Escl) & Ear & _ & B).
  exists g. split; [exact G|].
  rewrite (seglen_of_geometry log dbg n g) in * by (auto; lia). clear G.
  destruct (Nat.leb_spec n 1) as [Q|Q]; [lia|]. cbv zeta in B. cbn [f64_estimates fe_cap] in B. rewrite Ec in B.
  rewrite Ew in *. clear Ew Ec Esl He HS. clearbody n.
  assert (V : forall v, 0 <= v < 100 -> v * 2 ^ 200 <= w < (v + 1) * 2 ^ 200 -> Z.min (two32 - 1) (w / 2 ^ 200) = v).
  { clear. intros v Hv Hw. assert (w / 2 ^ 200 = v); [|unfold two32; lia].
    symmetry. apply (Z.div_unique _ _ v (w - v * 2 ^ 200)); lia. }
  assert (R : forall sl, 0 < sl -> Z.of_nat (g_arrlen g) = (cc + 2) * sl ->
    forall x, c + sl > x * sl -> x * sl >= c -> 3 <= x -> 0 <= c <= 2000000 ->
    Z.min (two32 - 1) c <= Z.of_nat (g_arrlen g) <= Z.max (3 * sl) (Z.min (two32 - 1) c + sl - 1) ->
    Z.of_nat (g_arrlen g) = x * sl).
  { clear. intros sl Hsl -> x A1 A2 A3 A4 A5. unfold two32 in A5. rewrite Z.min_r in A5 by lia.
    assert (cc + 2 = x); [|congruence]. nia. }
  cbn in Hin. repeat (destruct Hin as [Hin|Hin]; [injection Hin as <- <-|]); [..|destruct Hin].
  - rewrite (V 10) in * by (clear - L U; lia). change (Z.min (2 ^ 10) 262144) with 1024 in *.
    rewrite (R 1024 ltac:(lia) ltac:(lia) 20); auto; clear - C1 C2 S1 Q1 Q2; lia.
  - rewrite (V 11) in * by (clear - L U; lia). change (Z.min (2 ^ 11) 262144) with 2048 in *.
    rewrite (R 2048 ltac:(lia) ltac:(lia) 38); auto; clear - C1 C2 S1 Q1 Q2; lia.
  - rewrite (V 12) in * by (clear - L U; lia). change (Z.min (2 ^ 12) 262144) with 4096 in *.
    rewrite (R 4096 ltac:(lia) ltac:(lia) 38); auto; clear - C1 C2 S1 Q1 Q2; lia.
  - rewrite (V 12) in * by (clear - L U; lia). change (Z.min (2 ^ 12) 262144) with 4096 in *.
    rewrite (R 4096 ltac:(lia) ltac:(lia) 74); auto; clear - C1 C2 S1 Q1 Q2; lia.
  - rewrite (V 13) in * by (clear - L U; lia). change (Z.min (2 ^ 13) 262144) with 8192 in *.
    rewrite (R 8192 ltac:(lia) ltac:(lia) 73); auto; clear - C1 C2 S1 Q1 Q2; lia.
  - rewrite (V 13) in * by (clear - L U; lia). change (Z.min (2 ^ 13) 262144) with 8192 in *.
    rewrite (R 8192 ltac:(lia) ltac:(lia) 144); auto; clear - C1 C2 S1 Q1 Q2; lia.
Qed.

(** The keyword benchmark configurations (Makefile:52-62): exponent of the number of keys,
    element size in bits, plaintext bits, proved bits. *)
Definition keyword_benchmarks : list (Z * Z * Z * Z) :=
  [(16, 8192, 10, 47); (17, 8192, 10, 18); (18, 8192, 10, 4); (19, 8192, 9, 110); (20, 8192, 9, 50);
   (14, 819200, 10, 204); (17, 245760, 10, 13); (20, 2048, 9, 52)].

(** @C62 For the Makefile's keyword configurations, with the filter size as the code computes it:
    the probability that a stored key's value does not come back is below 2^-bits, whatever the
    keys, the values and the dimension. *)
Lemma kv_failure_benchmarks : forall log prg dbg rnd fseed pseed kvs dim m es pb w sh i kv kz ez pz bits,
  reasonable_log log -> In (kz, ez, pz, bits) keyword_benchmarks ->
  Z.of_nat (length kvs) = 2 ^ kz -> Z.of_nat es = ez -> Z.of_nat pb = pz -> is_ceil_div es pb w ->
  Forall (fun kv => length (kv_value kv) = w) kvs ->
  kv_shard_new prg dbg (f64_estimates log) rnd fseed pseed kvs dim m es pb = Ok sh ->
  (dbg = true \/ exists slots,
     (forall key, get_hash_evals dbg (kd_filter_params (ks_db sh)) key = Ok (slots key)) /\
     forall j, (load slots (map kv_key kvs) j <= 63)%nat) ->
  nth_error kvs i = Some kv -> last_with_hash fseed (map kv_key kvs) i (kv_key kv) ->
  count_tapes (kv_run_wrong prg dbg sh (kv_key kv) (map (fun x => x mod 2 ^ Z.of_nat pb) (kv_value kv)))
      (dim + kp_m (ks_params sh)) * 2 ^ bits
  <= count_tapes (fun _ => true) (dim + kp_m (ks_params sh)).
Proof.
  intros log prg dbg rnd fseed pseed kvs dim m es pb w sh i kv kz ez pz bits HL Hin Hn Hes Hpb Hw HF Hsh Hload Hi Hlast.
  assert (exists mz, In (kz, mz) shipped_sizes /\ In (mz, ez, pz, bits) kv_configs /\ pz <= 31 /\ kz <= 20) as (mz & I1 & I2 & P31 & K20).
  { cbn in Hin. unfold shipped_sizes, kv_configs.
    repeat (destruct Hin as [Hin|Hin]; [injection Hin as <- <- <- <-; eexists; (split; [cbn; eauto 10|split; [cbn; eauto 12|lia]])|]).
    destruct Hin. }
  assert (NN : length kvs = Z.to_nat (2 ^ kz)) by (rewrite <- Hn; lia).
  apply (kv_failure_shipped prg dbg (f64_estimates log) rnd fseed pseed kvs dim m es pb w sh i kv mz ez pz bits); auto.
  - pose proof Hsh as X. unfold kv_shard_new in X. apply bind_Ok in X as (db & Hdb & X).
    assert (P : (pb <= 31)%nat) by lia.
    destruct (kv_columns_share_geometry _ _ _ _ _ _ _ _ _ P Hdb) as (kv0 & g & _ & Hg & _ & _ & Hh & _).
    destruct (shipped_slots log dbg kz mz HL I1) as (g' & G & E). rewrite <- NN in G.
    assert (g' = g) by congruence. subst g'.
    assert (kp_m (ks_params sh) = g_arrlen g); [|lia].
    unfold kv_shard_of_db in X. apply bind_Ok in X as (ps & Hps & X). injection X as <-. cbn [ks_params].
    unfold kv_params_new in Hps. rewrite Hh in Hps. apply bind_Ok in Hps as (rhs & _ & Hps). cbn [bind] in Hps.
    injection Hps as <-. reflexivity.
  - apply estimates_sane; auto. unfold max_keys. rewrite Hn.
    assert (2 ^ kz <= 2 ^ 20); [|lia]. destruct (Z_lt_le_dec kz 0); [rewrite Z.pow_neg_r by lia; lia|apply Z.pow_le_mono_r; lia].
Qed.
