(** C77: the documented comparison of the filter families' sizes. *)
From Coq Require Import Floats.SpecFloat.
From Verif Require Import Base Hash Xorf Float64 Estimate Fuse3 Bfusep Bfuse Xor Fuse SpecFilter SpecXorf SpecXor SpecEst Base_facts Bfuse_facts Float_facts Estimate_facts Geom_facts FilterTop_facts Claims_xor Claims_fuse Claims_filter Claims_estimate.
Local Open Scope Z_scope.

(** Lower and upper bounds on the capacity by powers of two, in thousandths. *)
Lemma cap_low log n k L : reasonable_log log -> Z.log2 (Z.of_nat n) = k -> (2 <= n)%nat -> Z.of_nat n < 8192 ->
  1125 <= L <= 6000 -> (L - 874) * (6932 * (k + 1)) <= 34538700 -> 1000 * capacity_of log n >= Z.of_nat n * L - 501.
Proof.
  intros HL Hk H1 H2 HLr Hq. assert (H2' : Z.of_nat n < 2 ^ 32) by lia.
  destruct (factor_gen log HL n H1 H2') as (q & s & F & Bs & q0 & _ & Q1).
  destruct (factor_bounds log HL n H1 H2') as (f & Ff & Lf & Uf & _).
  destruct (log_n log HL n H1 H2') as (_ & _ & _ & K & HH). rewrite Hk in *.
  assert (f = Z.max (9 * 2 ^ 197) s).
  { destruct F as (m & e & E & _ & _ & V). destruct Ff as (m' & e' & E' & _ & _ & V'). congruence. }
  destruct (cap_gen log n f H1 H2' Ff) as (c & E & B1 & _); [lia|].
  assert (QL : (L - 875) * 2 ^ 200 <= 1000 * q).
  { set (h := hi_log n) in *. clearbody h.
    assert (A1 : q * h <= q * (6932 * (k + 1))) by (apply Z.mul_le_mono_nonneg_l; [exact q0|exact HH]).
    set (Y := 6932 * (k + 1)) in *. assert (HY : 0 < Y) by (unfold Y; lia). clearbody Y.
    destruct (Z_le_gt_dec ((L - 875) * 2 ^ 200) (1000 * q)) as [G|G]; [exact G|exfalso].
    assert (A2 : 1000 * (q * Y) <= (L - 875) * 2 ^ 200 * Y) by nia.
    assert (A3 : (L - 875) * Y <= 34538700 - Y) by nia.
    assert (A4 : 6932 <= Y) by lia.
    set (X := q * Y) in *. set (W := (L - 875) * Y) in *.
    replace ((L - 875) * 2 ^ 200 * Y) with (W * 2 ^ 200) in A2 by (unfold W; ring).
    set (X' := q * h) in *. clearbody X X' W. clear - A1 A2 A3 A4 Q1. lia. }
  assert (FL : (L * 2 ^ 200) * (2 ^ 51 - 1) <= 1000 * f * 2 ^ 51).
  { subst f. clear - QL Bs. lia. }
  assert (c <= two32 - 1 \/ two32 - 1 < c) as [C|C] by lia; rewrite E; unfold two32 in *.
  - rewrite Z.min_r by exact C.
    assert (M : Z.of_nat n * (L * 2 ^ 200 * (2 ^ 51 - 1)) <= Z.of_nat n * (1000 * f * 2 ^ 51)) by (apply Z.mul_le_mono_nonneg_l; lia).
    set (X := Z.of_nat n * f) in *. replace (Z.of_nat n * (1000 * f * 2 ^ 51)) with (1000 * X * 2 ^ 51) in M by (unfold X; ring).
    assert (NL : Z.of_nat n * L <= 8192 * 6000) by nia.
    replace (Z.of_nat n * (L * 2 ^ 200 * (2 ^ 51 - 1))) with (Z.of_nat n * L * (2 ^ 200 * (2 ^ 51 - 1))) in M by ring.
    set (T := Z.of_nat n * L) in *. clearbody X T. clear - B1 M NL. lia.
  - rewrite Z.min_l by lia. assert (Z.of_nat n * L <= 8192 * 6000) by nia. lia.
Qed.

Lemma log2_cases n a b : 0 <= a -> 2 ^ a <= n < 2 ^ b -> a <= Z.log2 n < b.
Proof.
  intros Ha [H1 H2]. assert (0 < 2 ^ a) by (apply Z.pow_pos_nonneg; lia). split.
  - apply Z.log2_le_pow2; lia.
  - destruct (Z.lt_ge_cases b 0) as [B|B]; [rewrite Z.pow_neg_r in H2 by exact B; lia|]. apply Z.log2_lt_pow2; lia.
Qed.

(** @C77 refuted: "an XorN filter is larger than a BinaryFuseN filter" is false of every set of
    128 to 8191 keys: the BinaryFuse filter always has more fingerprints. *)
Lemma xor_larger_refuted : forall log mi w dbg rnd keys f dbg' keys' f', reasonable_log log ->
  128 <= Z.of_nat (length keys) < 8192 -> length keys' = length keys ->
  xor_returns w dbg keys f -> bfuse_from_impl mi w dbg' (f64_estimates log) rnd keys' = Ok f' ->
  (length (xf_fingerprints f) < bfuse_len f')%nat.
Proof.
  intros log mi w dbg rnd keys f dbg' keys' f' HL Hn EL Hx Hb.
  destruct (xor_size w dbg keys f ltac:(lia) Hx) as [[_ XS] _]. cbv zeta in XS.
  destruct (bfuse_length _ _ _ _ _ _ _ Hb) as (g & Eg & Lb). rewrite EL in Eg. rewrite Lb. clear Hx Hb Lb.
  set (n := length keys) in *. clearbody n.
  assert (HS : sane_estimates (f64_estimates log) n) by (apply estimates_sane; [exact HL|unfold max_keys; lia]).
  destruct (geometry_shape dbg' _ _ HS) as (g' & e & G & _ & _ & _ & _ & _ & _ & B). assert (g' = g) by congruence. subst g'.
  cbv zeta in B. destruct (Nat.leb_spec n 1) as [Q|Q]; [lia|]. cbn [f64_estimates fe_cap] in B.
  assert (K : 7 <= Z.log2 (Z.of_nat n) < 13) by (apply log2_cases; lia).
  destruct (Z.log2_spec (Z.of_nat n) ltac:(lia)) as [KL KU].
  remember (Z.log2 (Z.of_nat n)) as k eqn:Ek.
  assert (C : forall L, 1125 <= L <= 6000 -> (L - 874) * (6932 * (k + 1)) <= 34538700 ->
     1000 * capacity_of log n >= Z.of_nat n * L - 501).
  { intros L H1 H2. apply (cap_low log n k L); try assumption; try (now symmetry); lia. }
  assert (D : k = 7 \/ k = 8 \/ k = 9 \/ k = 10 \/ k = 11 \/ k = 12) by lia. clear Ek.
  assert (R : 100 * capacity_of log n > 123 * Z.of_nat n + 3200).
  { destruct D as [-> | [-> | [-> | [-> | [-> | ->]]]]].
    - pose proof (C 1496 ltac:(lia) ltac:(lia)). lia.
    - pose proof (C 1427 ltac:(lia) ltac:(lia)). lia.
    - pose proof (C 1372 ltac:(lia) ltac:(lia)). lia.
    - pose proof (C 1326 ltac:(lia) ltac:(lia)). lia.
    - pose proof (C 1289 ltac:(lia) ltac:(lia)). lia.
    - pose proof (C 1257 ltac:(lia) ltac:(lia)). lia. }
  clear - R XS B. lia.
Qed.

Lemma cap_high log n k U : reasonable_log log -> Z.log2 (Z.of_nat n) = k -> (2 <= n)%nat -> Z.of_nat n < 2 ^ 20 ->
  1126 <= U <= 6000 -> 34539100 <= (U - 876) * (6931 * k) -> 1000 * capacity_of log n <= Z.of_nat n * U + 501.
Proof.
  intros HL Hk H1 H2 HU Hq. assert (H2' : Z.of_nat n < 2 ^ 32) by lia.
  destruct (factor_gen log HL n H1 H2') as (q & s & F & Bs & q0 & Q2 & _).
  destruct (factor_bounds log HL n H1 H2') as (f & Ff & Lf & Uf & _).
  destruct (log_n log HL n H1 H2') as (_ & _ & _ & K & _). rewrite Hk in *.
  assert (f = Z.max (9 * 2 ^ 197) s).
  { destruct F as (m & e & E & _ & _ & V). destruct Ff as (m' & e' & E' & _ & _ & V'). congruence. }
  destruct (cap_gen log n f H1 H2' Ff) as (c & E & _ & B2); [lia|].
  assert (QU : 1000 * q <= (U - 875) * 2 ^ 200).
  { set (Y := 6931 * k) in *. assert (HY : 6931 <= Y) by (unfold Y; lia). clearbody Y.
    destruct (Z_le_gt_dec (1000 * q) ((U - 875) * 2 ^ 200)) as [G|G]; [exact G|exfalso].
    assert (A2 : (U - 875) * 2 ^ 200 * Y <= 1000 * (q * Y)) by nia.
    set (X := q * Y) in *. set (W := (U - 876) * Y) in *.
    replace ((U - 875) * 2 ^ 200 * Y) with ((W + Y) * 2 ^ 200) in A2 by (unfold W; ring).
    clearbody X W. clear - A2 Hq HY Q2. lia. }
  assert (FU : 1000 * f * 2 ^ 51 <= (U * 2 ^ 200) * (2 ^ 51 + 1)).
  { subst f. clear - QU Bs HU. lia. }
  rewrite E. eapply Z.le_trans; [apply Z.mul_le_mono_nonneg_l; [lia|apply Z.le_min_r]|].
  assert (M : Z.of_nat n * (1000 * f * 2 ^ 51) <= Z.of_nat n * (U * 2 ^ 200 * (2 ^ 51 + 1))) by (apply Z.mul_le_mono_nonneg_l; lia).
  set (X := Z.of_nat n * f) in *. replace (Z.of_nat n * (1000 * f * 2 ^ 51)) with (1000 * X * 2 ^ 51) in M by (unfold X; ring).
  assert (NU : Z.of_nat n * U <= 2 ^ 20 * 6000) by nia.
  replace (Z.of_nat n * (U * 2 ^ 200 * (2 ^ 51 + 1))) with (Z.of_nat n * U * (2 ^ 200 * (2 ^ 51 + 1))) in M by ring.
  set (T := Z.of_nat n * U) in *. clearbody X T. clear - B2 M NU. lia.
Qed.

Lemma seglen_high log dbg n g k e : reasonable_log log -> Z.log2 (Z.of_nat n) = k -> (2 <= n)%nat -> Z.of_nat n < 2 ^ 32 ->
  geometry dbg (f64_estimates log) n = Ok g -> 0 <= e -> 6932 * (k + 1) * 1000 + 2251 * 12029 < (e + 1) * 12029 * 1000 ->
  g_seglen g <= 2 ^ e.
Proof.
  intros HL Hk H1 H2 Eg He Hb. rewrite (seglen_of_geometry log dbg n g HL ltac:(lia) H2 Eg).
  destruct (exp_bounds log HL n H1 H2) as (w & E & _ & U & K). rewrite Hk in *.
  eapply Z.le_trans; [apply Z.le_min_l|]. apply Z.pow_le_mono_r; [lia|]. rewrite E.
  eapply Z.le_trans; [apply Z.le_min_r|]. assert (w / 2 ^ 200 < e + 1); [|lia].
  apply Z.div_lt_upper_bound; [reflexivity|]. clear - U Hb. lia.
Qed.

(** @C77 from 2^17 keys on it is true: an XorN filter always has more fingerprints than a
    BinaryFuseN filter of as many keys... *)
Lemma xor_larger : forall log mi w dbg rnd keys f dbg' keys' f', reasonable_log log ->
  2 ^ 17 <= Z.of_nat (length keys) <= max_keys -> length keys' = length keys ->
  xor_returns w dbg keys f -> bfuse_from_impl mi w dbg' (f64_estimates log) rnd keys' = Ok f' ->
  (bfuse_len f' < length (xf_fingerprints f))%nat.
Proof.
  intros log mi w dbg rnd keys f dbg' keys' f' HL Hn EL Hx Hb. unfold max_keys in Hn.
  destruct (xor_size w dbg keys f ltac:(lia) Hx) as [[XS _] _]. cbv zeta in XS.
  destruct (bfuse_length _ _ _ _ _ _ _ Hb) as (g & Eg & Lb). rewrite EL in Eg. rewrite Lb. clear Hx Hb Lb.
  set (n := length keys) in *. clearbody n.
  destruct (documented_size log dbg' n HL ltac:(unfold max_keys; lia)) as (g1 & G1 & _ & DS). assert (g1 = g) by congruence. subst g1.
  destruct (Z_le_gt_dec (2 ^ 20) (Z.of_nat n)) as [S|S]; [specialize (DS S); clear - DS XS Hn; lia|]. clear DS G1.
  assert (HS : sane_estimates (f64_estimates log) n) by (apply estimates_sane; [exact HL|unfold max_keys; lia]).
  destruct (geometry_shape dbg' _ _ HS) as (g' & e & G & _ & _ & _ & _ & _ & _ & B). assert (g' = g) by congruence. subst g'.
  cbv zeta in B. destruct (Nat.leb_spec n 1) as [Q|Q]; [lia|]. cbn [f64_estimates fe_cap] in B. clear G.
  assert (K : 17 <= Z.log2 (Z.of_nat n) < 20) by (apply log2_cases; lia).
  destruct (Z.log2_spec (Z.of_nat n) ltac:(lia)) as [KL KU].
  remember (Z.log2 (Z.of_nat n)) as k eqn:Ek. symmetry in Ek.
  assert (C : forall U, 1126 <= U <= 6000 -> 34539100 <= (U - 876) * (6931 * k) ->
     1000 * capacity_of log n <= Z.of_nat n * U + 501).
  { intros U H1 H2. apply (cap_high log n k U); try assumption; lia. }
  assert (SL : forall e, 0 <= e -> 6932 * (k + 1) * 1000 + 2251 * 12029 < (e + 1) * 12029 * 1000 -> g_seglen g <= 2 ^ e).
  { intros e' H1 H2. apply (seglen_high log dbg' n g k e'); try assumption; lia. }
  assert (D : k = 17 \/ k = 18 \/ k = 19) by lia. clear Ek.
  assert (R : 100 * Z.of_nat (g_arrlen g) < 123 * Z.of_nat n + 2900).
  { destruct D as [-> | [-> | ->]].
    - pose proof (C 1170 ltac:(lia) ltac:(lia)). pose proof (SL 12 ltac:(lia) ltac:(lia)). clear - H H0 B KL. lia.
    - pose proof (C 1153 ltac:(lia) ltac:(lia)). pose proof (SL 13 ltac:(lia) ltac:(lia)). clear - H H0 B KL. lia.
    - pose proof (C 1139 ltac:(lia) ltac:(lia)). pose proof (SL 13 ltac:(lia) ltac:(lia)). clear - H H0 B KL. lia. }
  clear - R XS. lia.
Qed.

(** @C77 ... and, for every number of keys for which a Fuse filter can be built (90 or more),
    more than a FuseN filter. *)
Lemma xor_larger_than_fuse : forall mi w dbg rnd keys f dbg' keys' f', Z.of_nat (length keys) < 2 ^ 32 ->
  (90 <= length keys)%nat -> length keys' = length keys ->
  xor_returns w dbg keys f -> fuse_from_impl mi w dbg' rnd keys' = Ok f' ->
  (length (ff_fingerprints f') < length (xf_fingerprints f))%nat.
Proof.
  intros mi w dbg rnd keys f dbg' keys' f' Hn H90 EL Hx Hf.
  destruct (xor_size w dbg keys f Hn Hx) as [[XS _] _]. cbv zeta in XS.
  destruct (fuse_size mi w dbg' rnd keys' f' ltac:(rewrite EL; exact Hn) ltac:(rewrite EL; exact H90) Hf) as [[FS _] _]. cbv zeta in FS.
  rewrite EL in FS. clear - XS FS. lia.
Qed.

(** @C77 "a BinaryFuseN and FuseN filter are roughly equivalent in size": from 2^20 keys on they
    differ by less than two per cent; below 1024 keys the BinaryFuse filter is more than one
    fifth larger. *)
Lemma bfuse_fuse_equivalent : forall log mi mi' w dbg rnd keys f dbg' rnd' keys' f', reasonable_log log ->
  (90 <= length keys)%nat -> Z.of_nat (length keys) <= max_keys -> length keys' = length keys ->
  fuse_from_impl mi w dbg rnd keys = Ok f -> bfuse_from_impl mi' w dbg' (f64_estimates log) rnd' keys' = Ok f' ->
  (2 ^ 20 <= Z.of_nat (length keys) ->
    (98 * length (ff_fingerprints f) < 100 * bfuse_len f' < 102 * length (ff_fingerprints f))%nat) /\
  (Z.of_nat (length keys) < 1024 -> (6 * length (ff_fingerprints f) < 5 * bfuse_len f')%nat).
Proof.
  intros log mi mi' w dbg rnd keys f dbg' rnd' keys' f' HL H90 Hn EL Hf Hb. unfold max_keys in Hn.
  destruct (fuse_size mi w dbg rnd keys f ltac:(lia) H90 Hf) as [FS _]. cbv zeta in FS.
  destruct (bfuse_length _ _ _ _ _ _ _ Hb) as (g & Eg & Lb). rewrite EL in Eg. rewrite Lb. clear Hf Hb Lb.
  set (n := length keys) in *. clearbody n.
  destruct (documented_size log dbg' n HL ltac:(unfold max_keys; lia)) as (g1 & G1 & D1 & DS). assert (g1 = g) by congruence. subst g1.
  specialize (D1 ltac:(lia)). split.
  - intros S. specialize (DS S). clear - DS D1 FS S. lia.
  - intros S. clear DS D1 G1.
    assert (HS : sane_estimates (f64_estimates log) n) by (apply estimates_sane; [exact HL|unfold max_keys; lia]).
    destruct (geometry_shape dbg' _ _ HS) as (g' & e & G & _ & _ & _ & _ & _ & _ & B). assert (g' = g) by congruence. subst g'.
    cbv zeta in B. destruct (Nat.leb_spec n 1) as [Q|Q]; [lia|]. cbn [f64_estimates fe_cap] in B.
    assert (K : 6 <= Z.log2 (Z.of_nat n) < 10) by (apply log2_cases; lia).
    pose proof (cap_low log n _ 1372 HL eq_refl ltac:(lia) ltac:(lia) ltac:(lia)) as C.
    assert (A : (1372 - 874) * (6932 * (Z.log2 (Z.of_nat n) + 1)) <= 34538700) by (clear - K; lia).
    specialize (C A). clear - C B FS H90. lia.
Qed.
