(** Bounds on the binary64 computations of Xor/Fuse capacities. *)
From Coq Require Import ZArith Floats.SpecFloat.
From Verif Require Import Base Float64.
Local Open Scope Z_scope.

Lemma shr_1_half mrs : 0 <= shr_m mrs -> shr_m (shr_1 mrs) = shr_m mrs / 2 /\ 0 <= shr_m (shr_1 mrs).
Proof.
  destruct mrs as [m r s]; cbn [shr_m]. intros H.
  destruct m as [|p|p]; [split; reflexivity| |lia].
  destruct p as [p|p|]; cbn [shr_1 shr_m]; (split; [|lia]).
  - change (Z.pos p~1) with (2 * Z.pos p + 1). apply (Z.div_unique _ _ _ 1); lia.
  - change (Z.pos p~0) with (2 * Z.pos p). symmetry. rewrite Z.mul_comm. apply Z.div_mul. lia.
  - reflexivity.
Qed.

Lemma iter_shr p : forall mrs, 0 <= shr_m mrs ->
  shr_m (SpecFloat.iter_pos shr_1 p mrs) = shr_m mrs / 2 ^ Zpos p /\ 0 <= shr_m (SpecFloat.iter_pos shr_1 p mrs).
Proof.
  induction p as [p IH|p IH|]; intros mrs H; cbn [SpecFloat.iter_pos].
  - destruct (shr_1_half mrs H) as [E1 H1]. destruct (IH _ H1) as [E2 H2]. destruct (IH _ H2) as [E3 H3].
    split; [|exact H3]. rewrite E3, E2, E1.
    change (Zpos p~1) with (1 + 2 * Zpos p). rewrite Z.pow_add_r, Z.pow_1_r by lia.
    rewrite <- (Z.add_diag (Zpos p)), Z.pow_add_r by lia.
    rewrite !Z.div_div; try lia.
  - destruct (IH _ H) as [E2 H2]. destruct (IH _ H2) as [E3 H3].
    split; [|exact H3]. rewrite E3, E2.
    change (Zpos p~0) with (2 * Zpos p).
    rewrite <- (Z.add_diag (Zpos p)), Z.pow_add_r by lia.
    rewrite !Z.div_div; try lia.
  - destruct (shr_1_half mrs H) as [E1 H1]. split; auto.
Qed.

Lemma rne_bound mx lx : mx <= round_nearest_even mx lx <= mx + 1.
Proof.
  destruct lx as [|[]]; unfold round_nearest_even; try lia.
  destruct (Z.even mx); lia.
Qed.
Lemma rne_exact mx : round_nearest_even mx loc_Exact = mx.
Proof. reflexivity. Qed.

Lemma digits_bound p : 2 ^ (Zpos (digits2_pos p) - 1) <= Zpos p < 2 ^ Zpos (digits2_pos p).
Proof.
  assert (E : digits2_pos p = Pos.size p) by (induction p; cbn; congruence).
  rewrite E. pose proof (Pos.size_gt p). pose proof (Pos.size_le p).
  split.
  - assert (2 ^ Zpos (Pos.size p) <= Zpos p~0) by (rewrite <- Pos2Z.inj_pow; auto).
    replace (Zpos (Pos.size p)) with (Z.succ (Zpos (Pos.size p) - 1)) in H1 by lia.
    rewrite Z.pow_succ_r in H1 by lia. lia.
  - rewrite <- Pos2Z.inj_pow. auto.
Qed.

Lemma digits_unique p k : 0 < k -> 2 ^ (k - 1) <= Zpos p < 2 ^ k -> Zpos (digits2_pos p) = k.
Proof.
  intros Hk H. pose proof (digits_bound p) as D.
  assert (Zpos (digits2_pos p) - 1 < k) by (apply (Z.pow_lt_mono_r_iff 2); lia).
  assert (k - 1 < Zpos (digits2_pos p)) by (apply (Z.pow_lt_mono_r_iff 2); lia).
  lia.
Qed.

(** Rounding a positive integer of more than 53 bits. *)
Lemma round_aux_bound p e k :
  Zpos (digits2_pos p) = 53 + k -> 0 < k -> -1074 <= e -> e + k < 900 ->
  exists m e', binary_round_aux 53 1024 false (Zpos p) e loc_Exact = S754_finite false m e' /\
    e + k <= e' /\ Zpos p - 2 ^ k < Zpos m * 2 ^ (e' - e) <= Zpos p + 2 ^ k.
Proof.
  intros D Hk He He2. pose proof (digits_bound p) as B. rewrite D in B.
  unfold binary_round_aux, shr_fexp at 1. cbn [Zdigits2]. rewrite D.
  unfold fexp at 1, emin. rewrite Z.max_l by lia.
  replace (53 + k + e - 53 - e) with k by lia.
  destruct k as [|k|k]; try lia. cbn [shr].
  set (mrs := SpecFloat.iter_pos shr_1 k (shr_record_of_loc (Zpos p) loc_Exact)).
  assert (E1 : shr_m mrs = Zpos p / 2 ^ Zpos k).
  { unfold mrs. destruct (iter_shr k (shr_record_of_loc (Zpos p) loc_Exact)) as [E _]; [cbn; lia|]. exact E. }
  pose proof (rne_bound (shr_m mrs) (loc_of_shr_record mrs)) as R.
  set (r := round_nearest_even (shr_m mrs) (loc_of_shr_record mrs)) in *.
  assert (P2 : 0 < 2 ^ Zpos k) by (apply Z.pow_pos_nonneg; lia).
  assert (Q : 2 ^ 52 <= shr_m mrs < 2 ^ 53).
  { rewrite E1. split.
    - apply Z.div_le_lower_bound; [lia|]. rewrite <- Z.pow_add_r by lia.
      replace (Z.pos k + 52) with (53 + Z.pos k - 1) by lia. lia.
    - apply Z.div_lt_upper_bound; [lia|]. rewrite <- Z.pow_add_r by lia.
      replace (Z.pos k + 53) with (53 + Z.pos k) by lia. lia. }
  assert (PD : Zpos p = 2 ^ Zpos k * shr_m mrs + Zpos p mod 2 ^ Zpos k) by (rewrite E1; apply Z.div_mod; lia).
  assert (PM : 0 <= Zpos p mod 2 ^ Zpos k < 2 ^ Zpos k) by (apply Z.mod_pos_bound; lia).
  assert (VB : Zpos p - 2 ^ Zpos k < r * 2 ^ Zpos k <= Zpos p + 2 ^ Zpos k).
  { revert PD PM R P2. clear. generalize (Zpos p mod 2 ^ Zpos k) (2 ^ Zpos k) (shr_m mrs). intros; nia. }
  clearbody r. clear E1 PD.
  destruct (Z.eq_dec r (2 ^ 53)) as [R53|R53].
  - subst r.
    assert (S : shr_fexp 53 1024 (2 ^ 53) (e + Zpos k) loc_Exact =
      ({| shr_m := 2 ^ 52; shr_r := false; shr_s := false |}, e + Zpos k + 1)).
    { unfold shr_fexp, fexp, emin. change (Zdigits2 (2 ^ 53)) with 54. rewrite Z.max_l by lia.
      replace (54 + (e + Zpos k) - 53 - (e + Zpos k)) with 1 by lia. reflexivity. }
    rewrite S. cbn [shr_m]. change (2 ^ 52) with (Zpos 4503599627370496). cbn [shr_m].
    replace (Z.leb _ _) with true by (symmetry; apply Z.leb_le; lia).
    eexists _, _. split; [reflexivity|]. split; [lia|].
    replace (e + Z.pos k + 1 - e) with (1 + Z.pos k) by lia. rewrite Z.pow_add_r by lia.
    change (Z.pos 4503599627370496 * (2 ^ 1 * 2 ^ Z.pos k)) with (Z.pos 4503599627370496 * (2 * 2 ^ Z.pos k)).
    change (2 ^ 53) with (2 * Zpos 4503599627370496) in VB. lia.
  - assert (Hr : 2 ^ 52 <= r < 2 ^ 53) by lia.
    destruct r as [|r|r]; try lia.
    assert (S : shr_fexp 53 1024 (Zpos r) (e + Zpos k) loc_Exact =
      ({| shr_m := Zpos r; shr_r := false; shr_s := false |}, e + Zpos k)).
    { unfold shr_fexp, fexp, emin. cbn [Zdigits2]. rewrite (digits_unique r 53) by (try lia; exact Hr).
      rewrite Z.max_l by lia. replace (53 + (e + Zpos k) - 53 - (e + Zpos k)) with 0 by lia. reflexivity. }
    rewrite S. cbn [shr_m].
    replace (Z.leb _ _) with true by (symmetry; apply Z.leb_le; lia).
    eexists _, _. split; [reflexivity|]. split; [lia|].
    replace (e + Z.pos k - e) with (Z.pos k) by lia. lia.
Qed.

(** Integers below 2^53 convert exactly. *)
Lemma of_usize_exact n : (0 < n)%nat -> Z.of_nat n < 2 ^ 53 ->
  exists m d, f64_of_usize n = S754_finite false m (- d) /\ 0 <= d <= 52 /\
    Zpos m = Z.of_nat n * 2 ^ d /\ 2 ^ 52 <= Zpos m < 2 ^ 53.
Proof.
  intros H0 H. destruct n as [|n]; [lia|]. clear H0.
  unfold f64_of_usize, binary_normalize. remember (Z.of_nat (S n)) as N eqn:EN. destruct N as [|p|p]; try lia.
  pose proof (digits_bound p) as B. set (D := Zpos (digits2_pos p)) in *.
  assert (D1 : 1 <= D) by (unfold D; lia).
  assert (D53 : D <= 53).
  { assert (D - 1 < 53); [|lia]. apply (Z.pow_lt_mono_r_iff 2); lia. }
  assert (SH : exists m, shl_align p 0 (fexp 53 1024 (Zpos (digits2_pos p) + 0)) = (m, D - 53) /\ Zpos m = Zpos p * 2 ^ (53 - D)).
  { unfold shl_align, fexp, emin. fold D. rewrite Z.max_l by lia.
    replace (D + 0 - 53 - 0) with (D - 53) by lia.
    destruct (D - 53) as [|q|q] eqn:Eq; try lia.
    - exists p. split; [f_equal; lia|]. replace (53 - D) with 0 by lia. lia.
    - exists (shift_pos q p). split; [f_equal; lia|]. rewrite shift_pos_correct, Z.pow_pos_fold.
      replace (53 - D) with (Zpos q) by lia. lia. }
  destruct SH as (m & S1 & S2). unfold binary_round. rewrite S1.
  assert (M : 2 ^ 52 <= Zpos m < 2 ^ 53).
  { rewrite S2. assert (P : 0 < 2 ^ (53 - D)) by (apply Z.pow_pos_nonneg; lia).
    split.
    - replace 52 with ((D - 1) + (53 - D)) by lia. rewrite Z.pow_add_r by lia. nia.
    - replace 53 with (D + (53 - D)) at 2 by lia. rewrite Z.pow_add_r by lia. nia. }
  assert (S : shr_fexp 53 1024 (Zpos m) (D - 53) loc_Exact =
      ({| shr_m := Zpos m; shr_r := false; shr_s := false |}, D - 53)).
  { unfold shr_fexp, fexp, emin. cbn [Zdigits2]. rewrite (digits_unique m 53) by (try lia; exact M).
    rewrite Z.max_l by lia. replace (53 + (D - 53) - 53 - (D - 53)) with 0 by lia. reflexivity. }
  exists m, (53 - D). split; [|split; [lia|split; [exact S2|exact M]]].
  unfold binary_round_aux. rewrite S. cbn [shr_m loc_of_shr_record round_nearest_even].
  rewrite S. cbn [shr_m].
  replace (Z.leb _ _) with true by (symmetry; apply Z.leb_le; lia).
  f_equal. lia.
Qed.

(** Product of a constant in [1, 2) with an integer below 2^32, truncated. *)
Lemma mul_trunc cm n : (0 < n)%nat -> Z.of_nat n < 2 ^ 32 -> 2 ^ 52 <= Zpos cm < 2 ^ 53 ->
  let v := Z.of_nat (f64_to_usize (f64_mul (S754_finite false cm (-52)) (f64_of_usize n))) in
  v * 2 ^ 52 < Zpos cm * Z.of_nat n + 2 ^ 34 /\
  Zpos cm * Z.of_nat n < (v + 1) * 2 ^ 52 + 2 ^ 34.
Proof.
  intros H0 Hn Hc. cbv zeta.
  destruct (of_usize_exact n H0) as (m & d & E & Hd & Em & Hm); [lia|].
  rewrite E. unfold f64_mul, SFmul. cbn [xorb].
  assert (exists k, Zpos (digits2_pos (cm * m)) = 53 + k /\ 52 <= k <= 53 /\ 2 ^ k * 2 ^ 51 <= Zpos (cm * m)) as (k & Dk & Hk & Hk2).
  { destruct (Z_lt_le_dec (Zpos (cm * m)) (2 ^ 105)) as [L|L].
    - exists 52. split; [apply digits_unique; [lia|rewrite Pos2Z.inj_mul in *; change (53 + 52 - 1) with 104; change (53 + 52) with 105; nia]|]. rewrite Pos2Z.inj_mul in *. split; [lia|nia].
    - exists 53. split; [apply digits_unique; [lia|rewrite Pos2Z.inj_mul in *; change (53 + 53 - 1) with 105; change (53 + 53) with 106; nia]|]. rewrite Pos2Z.inj_mul in *. split; [lia|nia]. }
  destruct (round_aux_bound (cm * m) (-52 + - d) k) as (m' & e' & R & He' & V); try lia.
  rewrite R. cbn [f64_to_usize].
  replace (e' - (-52 + - d)) with (e' + 52 + d) in V by lia.
  assert (PD : 0 < 2 ^ d) by (apply Z.pow_pos_nonneg; lia).
  assert (SW : Z.shiftl (Zpos m') e' = Zpos m' * 2 ^ (e' + 52 + d) / 2 ^ (52 + d)).
  { destruct (Z_le_gt_dec 0 e') as [Le|Gt].
    - rewrite Z.shiftl_mul_pow2 by lia. replace (e' + 52 + d) with (e' + (52 + d)) by lia.
      rewrite Z.pow_add_r by lia. rewrite Z.mul_assoc, Z.div_mul; [reflexivity|].
      apply Z.pow_nonzero; lia.
    - rewrite <- (Z.opp_involutive e') at 1. rewrite Z.shiftl_opp_r, Z.shiftr_div_pow2 by lia.
      replace (52 + d) with (- e' + (e' + 52 + d)) by lia. rewrite (Z.pow_add_r 2 (- e')) by lia.
      rewrite Z.div_mul_cancel_r; [reflexivity| |]; apply Z.pow_nonzero; lia. }
  rewrite SW. clear SW R E. set (W := Zpos m' * 2 ^ (e' + 52 + d)) in *. clearbody W.
  assert (PN : Z.pos (cm * m) = Zpos cm * Z.of_nat n * 2 ^ d) by (rewrite Pos2Z.inj_mul, Em; ring).
  rewrite PN in *. rewrite Z.pow_add_r by lia.
  assert (P52 : 0 < 2 ^ 52 * 2 ^ d) by lia.
  pose proof (Z.div_mod W (2 ^ 52 * 2 ^ d) ltac:(lia)) as DM.
  pose proof (Z.mod_pos_bound W (2 ^ 52 * 2 ^ d) ltac:(lia)) as MB.
  set (v := W / (2 ^ 52 * 2 ^ d)) in *. clearbody v. set (rr := W mod (2 ^ 52 * 2 ^ d)) in *. clearbody rr.
  assert (CN : 2 ^ 52 <= Zpos cm * Z.of_nat n < 2 ^ 85) by nia.
  set (C := Zpos cm * Z.of_nat n) in *. clearbody C. clear Em PN Hm Dk Hc.
  assert (K2 : 2 ^ k < 2 ^ 34 * 2 ^ d) by nia.
  assert (KP : 2 ^ k * 2 ^ 51 <= C * 2 ^ d) by exact Hk2.
  set (K := 2 ^ k) in *. clearbody K. set (T := 2 ^ d) in *. clearbody T.
  assert (U : v * 2 ^ 52 < C + 2 ^ 34) by nia.
  assert (L : C < (v + 1) * 2 ^ 52 + 2 ^ 34) by nia.
  assert (v0 : 0 <= v) by (clear - L CN; lia).
  rewrite Z.min_r by (unfold two64; clear - U CN; lia). rewrite Z2Nat.id by auto. auto.
Qed.

Lemma trunc_1_23 n : Z.of_nat n < 2 ^ 32 ->
  let v := Z.of_nat (f64_to_usize (f64_mul f_1_23 (f64_of_usize n))) in
  100 * v <= 123 * Z.of_nat n <= 100 * v + 100.
Proof.
  intros Hn. cbv zeta. destruct n as [|n]; [vm_compute; split; discriminate|].
  destruct (mul_trunc 5539427541665710 (S n)) as [U L]; try lia.
  fold f_1_23 in U, L. lia.
Qed.

Lemma trunc_1_1376 n : Z.of_nat n < 2 ^ 32 ->
  let v := Z.of_nat (f64_to_usize (f64_mul (f64_div f_1_0 f_0_879) (f64_of_usize n))) in
  879 * v <= 1000 * Z.of_nat n <= 879 * v + 879.
Proof.
  intros Hn. cbv zeta. destruct n as [|n]; [vm_compute; split; discriminate|].
  set (ov := f64_div f_1_0 f_0_879). assert (E : ov = S754_finite false 5123549064130257 (-52)) by (vm_compute; reflexivity).
  rewrite E. destruct (mul_trunc 5123549064130257 (S n)) as [U L]; try lia.
Qed.
