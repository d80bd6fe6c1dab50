(** Error bounds for the binary64 operations, in integers scaled by 2^200. *)
From Coq Require Import ZArith Floats.SpecFloat Lia.
From Verif Require Import Base Float64 Fuse3 Estimate Float_facts.
Local Open Scope Z_scope.

Lemma record_m p lx : shr_m (shr_record_of_loc p lx) = p.
Proof. destruct lx as [|[]]; reflexivity. Qed.

(** Rounding any significand of at least 53 bits, with any location. *)
Lemma round_aux_gen p e lx : 2 ^ 52 <= Zpos p -> -900 <= e -> Zpos p < 2 ^ 400 -> e < 400 ->
  exists m e' k, binary_round_aux 53 1024 false (Zpos p) e lx = S754_finite false m e' /\
    2 ^ 52 <= Zpos m < 2 ^ 53 /\ e + k <= e' <= e + k + 1 /\ 0 <= k /\ 2 ^ k * 2 ^ 52 <= Zpos p < 2 ^ k * 2 ^ 53 /\
    Zpos p - 2 ^ k <= Zpos m * 2 ^ (e' - e) <= Zpos p + 2 ^ k.
Proof.
  intros Hp He Hp2 He2.
  pose proof (digits_bound p) as B.
  assert (Dl : 53 <= Zpos (digits2_pos p)).
  { assert (52 < Zpos (digits2_pos p)); [|lia]. apply (Z.pow_lt_mono_r_iff 2); lia. }
  assert (Du : Zpos (digits2_pos p) <= 400).
  { assert (Zpos (digits2_pos p) - 1 < 400); [|lia]. apply (Z.pow_lt_mono_r_iff 2); lia. }
  remember (Zpos (digits2_pos p) - 53) as k eqn:Ek.
  assert (D : Zpos (digits2_pos p) = 53 + k) by lia. rewrite D in B.
  assert (Hk : 0 <= k) by lia.
  assert (B2 : 2 ^ k * 2 ^ 52 <= Zpos p < 2 ^ k * 2 ^ 53).
  { rewrite <- !Z.pow_add_r by lia. replace (k + 52) with (53 + k - 1) by lia. replace (k + 53) with (53 + k) by lia. exact B. }
  unfold binary_round_aux, shr_fexp at 1. cbn [Zdigits2]. rewrite D.
  unfold fexp at 1, emin. rewrite Z.max_l by lia.
  replace (53 + k + e - 53 - e) with k by lia.
  assert (SH : exists mrs, shr (shr_record_of_loc (Zpos p) lx) e k = (mrs, e + k) /\ shr_m mrs = Zpos p / 2 ^ k).
  { destruct k as [|k|k]; try lia; cbn [shr].
    - eexists. split; [rewrite Z.add_0_r; reflexivity|]. rewrite record_m. cbn. rewrite Z.div_1_r. reflexivity.
    - eexists. split; [reflexivity|]. destruct (iter_shr k (shr_record_of_loc (Zpos p) lx)) as [E _].
      + rewrite record_m. lia.
      + rewrite E, record_m. reflexivity. }
  destruct SH as (mrs & S0 & E1). rewrite S0.
  pose proof (rne_bound (shr_m mrs) (loc_of_shr_record mrs)) as R.
  set (r := round_nearest_even (shr_m mrs) (loc_of_shr_record mrs)) in *.
  assert (P2 : 0 < 2 ^ k) by (apply Z.pow_pos_nonneg; lia).
  assert (Q : 2 ^ 52 <= shr_m mrs < 2 ^ 53).
  { rewrite E1. split.
    - apply Z.div_le_lower_bound; lia.
    - apply Z.div_lt_upper_bound; lia. }
  assert (PD : Zpos p = 2 ^ k * shr_m mrs + Zpos p mod 2 ^ k) by (rewrite E1; apply Z.div_mod; lia).
  assert (PM : 0 <= Zpos p mod 2 ^ k < 2 ^ k) by (apply Z.mod_pos_bound; lia).
  assert (VB : Zpos p - 2 ^ k <= r * 2 ^ k <= Zpos p + 2 ^ k).
  { revert PD PM R P2. clear. generalize (Zpos p mod 2 ^ k) (2 ^ k) (shr_m mrs). intros; nia. }
  clearbody r. clear E1 PD S0.
  destruct (Z.eq_dec r (2 ^ 53)) as [R53|R53].
  - subst r.
    assert (S : shr_fexp 53 1024 (2 ^ 53) (e + k) loc_Exact =
      ({| shr_m := 2 ^ 52; shr_r := false; shr_s := false |}, e + k + 1)).
    { unfold shr_fexp, fexp, emin. change (Zdigits2 (2 ^ 53)) with 54. rewrite Z.max_l by lia.
      replace (54 + (e + k) - 53 - (e + k)) with 1 by lia. reflexivity. }
    rewrite S. cbn [shr_m]. change (2 ^ 52) with (Zpos 4503599627370496). cbn [shr_m].
    replace (Z.leb _ _) with true by (symmetry; apply Z.leb_le; lia).
    exists 4503599627370496%positive, (e + k + 1), k. split; [reflexivity|].
    split; [split; [apply Z.le_refl|reflexivity]|]. split; [lia|]. split; [lia|]. split; [exact B2|].
    replace (e + k + 1 - e) with (1 + k) by lia. rewrite Z.pow_add_r by lia.
    change (2 ^ 1) with 2.
    change (2 ^ 53) with (2 * Zpos 4503599627370496) in VB. lia.
  - assert (Hr : 2 ^ 52 <= r < 2 ^ 53) by lia.
    destruct r as [|r|r]; try lia.
    assert (S : shr_fexp 53 1024 (Zpos r) (e + k) loc_Exact =
      ({| shr_m := Zpos r; shr_r := false; shr_s := false |}, e + k)).
    { unfold shr_fexp, fexp, emin. cbn [Zdigits2]. rewrite (digits_unique r 53) by (try lia; exact Hr).
      rewrite Z.max_l by lia. replace (53 + (e + k) - 53 - (e + k)) with 0 by lia. reflexivity. }
    rewrite S. cbn [shr_m].
    replace (Z.leb _ _) with true by (symmetry; apply Z.leb_le; lia).
    exists r, (e + k), k. split; [reflexivity|]. split; [exact Hr|]. split; [lia|]. split; [lia|]. split; [exact B2|].
    replace (e + k - e) with k by lia. lia.
Qed.

(** [fin x v]: x is a positive normal number of moderate exponent whose value is v / 2^200. *)
Definition fin (x : f64) (v : Z) : Prop :=
  exists m e, x = S754_finite false m e /\ 2 ^ 52 <= Zpos m < 2 ^ 53 /\ -60 <= e <= -9 /\
    v = Zpos m * 2 ^ (e + 200).

Lemma pow_split a b : 0 <= a -> 0 <= b -> 2 ^ (a + b) = 2 ^ a * 2 ^ b.
Proof. intros. apply Z.pow_add_r; lia. Qed.

(** The exponent follows from the size of the value. *)
Lemma fin_range m e : 2 ^ 52 <= Zpos m < 2 ^ 53 -> -200 <= e ->
  2 ^ 193 <= Zpos m * 2 ^ (e + 200) < 2 ^ 243 -> -60 <= e <= -9.
Proof.
  intros [Hm1 Hm2] He [A B].
  assert (P : 0 < 2 ^ (e + 200)) by (apply Z.pow_pos_nonneg; lia).
  assert (X1 : 2 ^ 193 < 2 ^ (53 + (e + 200))).
  { rewrite pow_split by lia. eapply Z.le_lt_trans; [exact A|]. apply Z.mul_lt_mono_pos_r; auto. }
  assert (X2 : 2 ^ (52 + (e + 200)) < 2 ^ 243).
  { rewrite pow_split by lia. eapply Z.le_lt_trans; [|exact B]. apply Z.mul_le_mono_nonneg_r; lia. }
  clear A B P. apply Z.pow_lt_mono_r_iff in X1; try lia. apply Z.pow_lt_mono_r_iff in X2; lia.
Qed.

Lemma prod_bounds a b : 2 ^ 52 <= a < 2 ^ 53 -> 2 ^ 52 <= b < 2 ^ 53 -> 2 ^ 104 <= a * b < 2 ^ 106.
Proof.
  intros [A1 A2] [B1 B2]. change (2 ^ 104) with (2 ^ 52 * 2 ^ 52). change (2 ^ 106) with (2 ^ 53 * 2 ^ 53).
  split; [apply Z.mul_le_mono_nonneg; lia|apply Z.mul_lt_mono_nonneg; lia].
Qed.

Lemma rel_of_abs P q K : 0 < K -> K * 2 ^ 52 <= P -> P - K <= q <= P + K ->
  P * (2 ^ 51 - 1) <= q * 2 ^ 51 <= P * (2 ^ 51 + 1).
Proof. intros. lia. Qed.

Lemma scale_rel P q w c d : 0 <= w -> P * c <= q * 2 ^ 51 <= P * d -> P * w * c <= q * w * 2 ^ 51 <= P * w * d.
Proof.
  intros Hw [A B]. replace (P * w * c) with (P * c * w) by ring. replace (P * w * d) with (P * d * w) by ring.
  replace (q * w * 2 ^ 51) with (q * 2 ^ 51 * w) by ring.
  split; apply Z.mul_le_mono_nonneg_r; auto.
Qed.

Lemma rel_range P q L U : P * (2 ^ 51 - 1) <= q * 2 ^ 51 <= P * (2 ^ 51 + 1) ->
  0 <= L -> 2 * L <= P -> 2 * P < U -> L <= q < U.
Proof. intros. lia. Qed.


Lemma cancel_range z D N : 0 < D -> N * (2 ^ 51 - 1) <= z * D * 2 ^ 51 <= N * (2 ^ 51 + 1) ->
  2 ^ 194 * D <= N -> N < 2 ^ 242 * D -> 2 ^ 193 <= z < 2 ^ 243.
Proof.
  intros HD R L U. 
  assert (L' : 2 ^ 193 * D <= z * D) by (change (2 ^ 194) with (2 * 2 ^ 193) in L; clear U; lia).
  assert (U' : z * D < 2 ^ 243 * D) by (change (2 ^ 243) with (2 * 2 ^ 242); clear L; lia).
  split.
  - apply (Z.mul_le_mono_pos_r _ _ D); auto.
  - apply (Z.mul_lt_mono_pos_r D); auto.
Qed.

(** Multiplication: relative error below 2^-51. *)
Lemma mul_fin x y vx vy : fin x vx -> fin y vy ->
  2 ^ 194 * 2 ^ 200 <= vx * vy -> vx * vy < 2 ^ 242 * 2 ^ 200 ->
  exists z, fin (f64_mul x y) z /\
    vx * vy * (2 ^ 51 - 1) <= z * 2 ^ 200 * 2 ^ 51 <= vx * vy * (2 ^ 51 + 1).
Proof.
  intros (mx & ex & Ex & Hx & Rx & Vx) (my & ey & Ey & Hy & Ry & Vy) L U.
  subst x y. unfold f64_mul, SFmul. cbn [xorb].
  pose proof (prod_bounds _ _ Hx Hy) as PB. clear Hx Hy.
  destruct (round_aux_gen (mx * my) (ex + ey) loc_Exact) as (m & e & k & E & Hm & He & Hk & HB & HV).
  { rewrite Pos2Z.inj_mul. clear - PB. lia. }
  { clear - Rx Ry. lia. }
  { rewrite Pos2Z.inj_mul. eapply Z.lt_trans; [apply PB|]. apply Z.pow_lt_mono_r; lia. }
  { clear - Rx Ry. lia. }
  rewrite E. clear E. rewrite Pos2Z.inj_mul in *.
  assert (V : vx * vy = Zpos mx * Zpos my * 2 ^ (ex + ey + 400)).
  { rewrite Vx, Vy. replace (ex + ey + 400) with ((ex + 200) + (ey + 200)) by lia. rewrite (pow_split (ex + 200)) by (clear - Rx Ry; lia). ring. }
  clear Vx Vy. set (P := Zpos mx * Zpos my) in *. clearbody P.
  assert (Pp : 0 < 2 ^ (ex + ey + 400)) by (apply Z.pow_pos_nonneg; clear - Rx Ry; lia).
  assert (Z1 : Zpos m * 2 ^ (e + 200) * 2 ^ 200 = Zpos m * 2 ^ (e - (ex + ey)) * 2 ^ (ex + ey + 400)).
  { rewrite <- !Z.mul_assoc. f_equal. rewrite <- !pow_split; [f_equal; ring| | | |]; clear - He Hk Rx Ry; lia. }
  assert (Kp : 0 < 2 ^ k) by (apply Z.pow_pos_nonneg; clear - Hk; lia).
  pose proof (rel_of_abs _ _ _ Kp (proj1 HB) HV) as REL.
  apply (scale_rel _ _ (2 ^ (ex + ey + 400))) in REL; [|clear - Pp; lia].
  rewrite <- Z1, <- V in REL.
  exists (Zpos m * 2 ^ (e + 200)). split; [|exact REL].
  exists m, e. split; [reflexivity|]. split; [exact Hm|]. split; [|reflexivity].
  apply (fin_range m); auto.
  - clear - He Hk Rx Ry; lia.
  - apply (cancel_range _ (2 ^ 200) (vx * vy)); auto; try exact REL; reflexivity.
Qed.

(** Division: relative error below 2^-51. *)
Lemma div_fin x y vx vy : fin x vx -> fin y vy ->
  2 ^ 194 * vy <= vx * 2 ^ 200 -> vx * 2 ^ 200 < 2 ^ 242 * vy ->
  exists z, fin (f64_div x y) z /\
    vx * 2 ^ 200 * (2 ^ 51 - 1) <= z * vy * 2 ^ 51 <= vx * 2 ^ 200 * (2 ^ 51 + 1).
Proof.
  intros (mx & ex & Ex & Hx & Rx & Vx) (my & ey & Ey & Hy & Ry & Vy) L U.
  subst x y. unfold f64_div, SFdiv, SFdiv_core_binary. cbn [xorb].
  cbn [Zdigits2]. rewrite (digits_unique mx 53) by (try lia; exact Hx).
  rewrite (digits_unique my 53) by (try lia; exact Hy).
  unfold fexp, emin. rewrite Z.max_l by (clear - Rx Ry; lia).
  rewrite Z.min_l by (clear - Rx Ry; lia).
  replace (ex - ey - (53 + ex - (53 + ey) - 53)) with 53 by ring.
  replace (53 + ex - (53 + ey) - 53) with (ex - ey - 53) by ring.
  cbv iota. rewrite Z.shiftl_mul_pow2 by lia.
  pose proof (Z_div_mod (Zpos mx * 2 ^ 53) (Zpos my) ltac:(reflexivity)) as DM.
  destruct (Z.div_eucl (Zpos mx * 2 ^ 53) (Zpos my)) as [q r]. destruct DM as [DQ DR].
  set (loc := new_location (Zpos my) r). clearbody loc.
  assert (Q1 : 2 ^ 52 <= q).
  { clear - DQ DR Hx Hy. destruct Hx as [Hx _], Hy as [_ Hy].
    destruct (Z_lt_le_dec q (2 ^ 52)) as [H|H]; [exfalso|exact H].
    assert (Zpos my * q <= Zpos my * (2 ^ 52 - 1)) by (apply Z.mul_le_mono_nonneg_l; lia). lia. }
  assert (Q2 : q < 2 ^ 54).
  { clear - DQ DR Hx Hy. destruct Hx as [_ Hx], Hy as [Hy _].
    destruct (Z_lt_le_dec q (2 ^ 54)) as [H|H]; [exact H|exfalso].
    assert (Zpos my * 2 ^ 54 <= Zpos my * q) by (apply Z.mul_le_mono_nonneg_l; lia). lia. }
  destruct q as [|q|q]; try (exfalso; clear - Q1; lia).
  destruct (round_aux_gen q (ex - ey - 53) loc) as (m & e & k & E & Hm & He & Hk & HB & HV).
  { exact Q1. }
  { clear - Rx Ry. lia. }
  { eapply Z.lt_trans; [apply Q2|]. apply Z.pow_lt_mono_r; lia. }
  { clear - Rx Ry. lia. }
  rewrite E. clear E.
  assert (V : vx * 2 ^ 200 = Zpos mx * 2 ^ 53 * 2 ^ (ex + 347)).
  { rewrite Vx. rewrite <- !Z.mul_assoc. f_equal. rewrite <- !pow_split; [f_equal; ring| | | |]; clear - Rx; lia. }
  assert (Wp : 0 < 2 ^ (ex + 347)) by (apply Z.pow_pos_nonneg; clear - Rx; lia).
  assert (Z1 : Zpos m * 2 ^ (e + 200) * vy = Zpos m * 2 ^ (e - (ex - ey - 53)) * Zpos my * 2 ^ (ex + 347)).
  { rewrite Vy. replace (Zpos m * 2 ^ (e + 200) * (Zpos my * 2 ^ (ey + 200))) with (Zpos m * Zpos my * (2 ^ (e + 200) * 2 ^ (ey + 200))) by ring.
    replace (Zpos m * 2 ^ (e - (ex - ey - 53)) * Zpos my * 2 ^ (ex + 347)) with (Zpos m * Zpos my * (2 ^ (e - (ex - ey - 53)) * 2 ^ (ex + 347))) by ring.
    f_equal. rewrite <- !pow_split; [f_equal; ring| | | |]; clear - He Hk Rx Ry; lia. }
  assert (Kp : 1 <= 2 ^ k) by (assert (0 < 2 ^ k) by (apply Z.pow_pos_nonneg; clear - Hk; lia); lia).
  assert (REL : Zpos mx * 2 ^ 53 * (2 ^ 51 - 1) <= Zpos m * 2 ^ (e - (ex - ey - 53)) * Zpos my * 2 ^ 51 <= Zpos mx * 2 ^ 53 * (2 ^ 51 + 1)).
  { set (t := Zpos m * 2 ^ (e - (ex - ey - 53))) in *. clearbody t. set (K := 2 ^ k) in *. clearbody K.
    set (X := Zpos mx * 2 ^ 53) in *. clearbody X. clear - DQ DR HB HV Kp Hy.
    set (Y := Zpos my) in *. assert (Yp : 0 < Y) by lia. clearbody Y.
    assert (A1 : (Zpos q - K) * Y <= t * Y) by (apply Z.mul_le_mono_nonneg_r; lia).
    assert (A2 : t * Y <= (Zpos q + K) * Y) by (apply Z.mul_le_mono_nonneg_r; lia).
    assert (A3 : K * 2 ^ 52 * Y <= Zpos q * Y) by (apply Z.mul_le_mono_nonneg_r; lia).
    assert (A4 : Y <= K * Y) by nia.
    clear HV HB. lia. }
  apply (scale_rel _ _ (2 ^ (ex + 347))) in REL; [|clear - Wp; lia].
  rewrite <- Z1, <- V in REL.
  assert (Vp : 0 < vy) by (rewrite Vy; apply Z.mul_pos_pos; [reflexivity|apply Z.pow_pos_nonneg; clear - Ry; lia]).
  exists (Zpos m * 2 ^ (e + 200)). split; [|exact REL].
  exists m, e. split; [reflexivity|]. split; [exact Hm|]. split; [|reflexivity].
  apply (fin_range m); auto.
  - clear - He Hk Rx Ry; lia.
  - apply (cancel_range _ vy (vx * 2 ^ 200)); auto; try exact REL.
Qed.

Lemma align_val m e ez : ez <= e -> Zpos (fst (shl_align m e ez)) = Zpos m * 2 ^ (e - ez).
Proof.
  intros H. unfold shl_align. destruct (ez - e) as [|p|p] eqn:E; try lia.
  - replace (e - ez) with 0 by lia. cbn [fst]. rewrite Z.pow_0_r. lia.
  - cbn [fst]. rewrite shift_pos_correct, Z.pow_pos_fold. replace (e - ez) with (Zpos p) by lia. ring.
Qed.

(** Addition: relative error below 2^-51. *)
Lemma add_fin x y vx vy : fin x vx -> fin y vy ->
  2 ^ 194 <= vx + vy -> vx + vy < 2 ^ 242 ->
  exists z, fin (f64_add x y) z /\
    (vx + vy) * (2 ^ 51 - 1) <= z * 2 ^ 51 <= (vx + vy) * (2 ^ 51 + 1).
Proof.
  intros (mx & ex & Ex & Hx & Rx & Vx) (my & ey & Ey & Hy & Ry & Vy) L U.
  subst x y. unfold f64_add, SFadd, cond_Zopp.
  set (ez := Z.min ex ey).
  rewrite !align_val by (unfold ez; clear; lia).
  assert (Rz : -60 <= ez <= -9 /\ 0 <= ex - ez <= 51 /\ 0 <= ey - ez <= 51) by (unfold ez; clear - Rx Ry; lia).
  clearbody ez.
  assert (S1 : 1 <= 2 ^ (ex - ez) <= 2 ^ 51).
  { split; [assert (0 < 2 ^ (ex - ez)) by (apply Z.pow_pos_nonneg; lia); lia|apply Z.pow_le_mono_r; lia]. }
  assert (S2 : 1 <= 2 ^ (ey - ez) <= 2 ^ 51).
  { split; [assert (0 < 2 ^ (ey - ez)) by (apply Z.pow_pos_nonneg; lia); lia|apply Z.pow_le_mono_r; lia]. }
  assert (B1 : 2 ^ 52 <= Zpos mx * 2 ^ (ex - ez) < 2 ^ 53 * 2 ^ 51).
  { revert S1 Hx. generalize (2 ^ (ex - ez)). clear. intros; nia. }
  assert (B2 : 2 ^ 52 <= Zpos my * 2 ^ (ey - ez) < 2 ^ 53 * 2 ^ 51).
  { revert S2 Hy. generalize (2 ^ (ey - ez)). clear. intros; nia. }
  assert (VX : vx = Zpos mx * 2 ^ (ex - ez) * 2 ^ (ez + 200)).
  { rewrite Vx, <- Z.mul_assoc, <- pow_split; [f_equal; f_equal; ring| |]; lia. }
  assert (VY : vy = Zpos my * 2 ^ (ey - ez) * 2 ^ (ez + 200)).
  { rewrite Vy, <- Z.mul_assoc, <- pow_split; [f_equal; f_equal; ring| |]; lia. }
  clear Vx Vy S1 S2.
  set (a := Zpos mx * 2 ^ (ex - ez)) in *. set (b := Zpos my * 2 ^ (ey - ez)) in *. clearbody a b.
  destruct (a + b) as [|p|p] eqn:AB; try (exfalso; clear - AB B1 B2; lia).
  unfold binary_normalize, binary_round.
  assert (Pl : 2 ^ 53 <= Zpos p) by (clear - AB B1 B2; lia).
  assert (SA : shl_align p ez (fexp 53 1024 (Zpos (digits2_pos p) + ez)) = (p, ez)).
  { pose proof (digits_bound p) as DB.
    assert (53 < Zpos (digits2_pos p)) by (apply (Z.pow_lt_mono_r_iff 2); lia).
    unfold shl_align, fexp, emin. rewrite Z.max_l by (clear - Rz H; lia).
    destruct (Zpos (digits2_pos p) + ez - 53 - ez) eqn:Q; try reflexivity. exfalso. clear - Q H. lia. }
  rewrite SA. clear SA.
  destruct (round_aux_gen p ez loc_Exact) as (m & e & k & E & Hm & He & Hk & HB & HV).
  { clear - Pl; lia. }
  { clear - Rz. lia. }
  { apply (Z.lt_trans _ (2 ^ 106)); [clear - AB B1 B2; lia|]. apply Z.pow_lt_mono_r; lia. }
  { clear - Rz. lia. }
  rewrite E. clear E.
  assert (V : vx + vy = Zpos p * 2 ^ (ez + 200)) by (rewrite VX, VY, <- AB; ring).
  assert (Wp : 0 < 2 ^ (ez + 200)) by (apply Z.pow_pos_nonneg; clear - Rz; lia).
  assert (Z1 : Zpos m * 2 ^ (e + 200) = Zpos m * 2 ^ (e - ez) * 2 ^ (ez + 200)).
  { rewrite <- Z.mul_assoc, <- pow_split; [f_equal; f_equal; ring| |]; clear - He Hk Rz; lia. }
  assert (Kp : 0 < 2 ^ k) by (apply Z.pow_pos_nonneg; clear - Hk; lia).
  pose proof (rel_of_abs _ _ _ Kp (proj1 HB) HV) as REL.
  apply (scale_rel _ _ (2 ^ (ez + 200))) in REL; [|clear - Wp; lia].
  rewrite <- Z1, <- V in REL.
  exists (Zpos m * 2 ^ (e + 200)). split; [|exact REL].
  exists m, e. split; [reflexivity|]. split; [exact Hm|]. split; [|reflexivity].
  apply (fin_range m); auto.
  - clear - He Hk Rz; lia.
  - apply (cancel_range _ 1 (vx + vy)); [reflexivity| | |]; rewrite ?Z.mul_1_r; auto.
Qed.

Lemma lt_fin x y vx vy : fin x vx -> fin y vy -> SFltb x y = (vx <? vy).
Proof.
  intros (mx & ex & Ex & Hx & Rx & Vx) (my & ey & Ey & Hy & Ry & Vy). subst x y.
  unfold SFltb, SFcompare.
  assert (G : forall m1 e1 m2 e2, 2 ^ 52 <= Zpos m1 < 2 ^ 53 -> 2 ^ 52 <= Zpos m2 < 2 ^ 53 ->
    -60 <= e1 -> e1 < e2 -> Zpos m1 * 2 ^ (e1 + 200) < Zpos m2 * 2 ^ (e2 + 200)).
  { clear. intros m1 e1 m2 e2 H1 H2 He1 He.
    replace (e2 + 200) with ((e2 - e1) + (e1 + 200)) by ring. rewrite (pow_split (e2 - e1)) by lia.
    assert (A : 2 <= 2 ^ (e2 - e1)).
    { change 2 with (2 ^ 1) at 1. apply Z.pow_le_mono_r; lia. }
    assert (P : 0 < 2 ^ (e1 + 200)) by (apply Z.pow_pos_nonneg; lia).
    rewrite Z.mul_assoc. apply Z.mul_lt_mono_pos_r; auto. nia. }
  destruct (Z.compare_spec ex ey) as [E|Lt|Gt].
  - subst ey. rewrite Vx, Vy. change (Pos.compare_cont Eq mx my) with (mx ?= my)%positive.
    assert (P : 0 < 2 ^ (ex + 200)) by (apply Z.pow_pos_nonneg; lia).
    destruct (Pos.compare_spec mx my) as [E|Lt|Gt]; symmetry.
    + subst. apply Z.ltb_ge. lia.
    + apply Z.ltb_lt. apply Z.mul_lt_mono_pos_r; auto.
    + apply Z.ltb_ge. apply Z.mul_le_mono_nonneg_r; lia.
  - symmetry. apply Z.ltb_lt. rewrite Vx, Vy. apply G; auto; lia.
  - symmetry. apply Z.ltb_ge. rewrite Vx, Vy. apply Z.lt_le_incl. apply G; auto; lia.
Qed.

Lemma usize_fin n : (0 < n)%nat -> Z.of_nat n < 2 ^ 43 -> fin (f64_of_usize n) (Z.of_nat n * 2 ^ 200).
Proof.
  intros H0 H. destruct (of_usize_exact n H0) as (m & d & E & Hd & Em & Hm); [lia|].
  exists m, (- d). split; [exact E|]. split; [exact Hm|]. split.
  - assert (9 <= d); [|lia]. destruct (Z_lt_le_dec d 9) as [X|X]; [exfalso|exact X].
    assert (2 ^ d <= 2 ^ 8) by (apply Z.pow_le_mono_r; lia).
    assert (0 < 2 ^ d) by (apply Z.pow_pos_nonneg; lia). nia.
  - rewrite Em, <- Z.mul_assoc, <- pow_split by lia. f_equal. f_equal. ring.
Qed.

Lemma floor_fin x v : fin x v -> f64_floor_u32 x = Z.min (two32 - 1) (v / 2 ^ 200).
Proof.
  intros (m & e & E & Hm & He & V). subst x. cbn [f64_floor_u32]. f_equal.
  rewrite <- (Z.opp_involutive e) at 1. rewrite Z.shiftl_opp_r, Z.shiftr_div_pow2 by lia.
  rewrite V. replace 200 with (- e + (e + 200)) at 2 by ring. rewrite (pow_split (- e)) by lia.
  rewrite Z.div_mul_cancel_r; [reflexivity| |]; apply Z.pow_nonzero; lia.
Qed.

Lemma round_fin x v : fin x v -> f64_round_u32 x = Z.min (two32 - 1) ((2 * v + 2 ^ 200) / 2 ^ 201).
Proof.
  intros (m & e & E & Hm & He & V). subst x. cbn [f64_round_u32]. f_equal.
  rewrite <- (Z.opp_involutive (e + 1)). rewrite Z.shiftl_opp_r, Z.shiftr_div_pow2 by lia.
  set (w := 2 ^ - (e + 1)). assert (Wp : 0 < w) by (apply Z.pow_pos_nonneg; lia).
  assert (W2 : 2 ^ 200 = w * 2 ^ (e + 201)).
  { unfold w. rewrite <- pow_split by lia. f_equal. ring. }
  assert (Tp : 0 < 2 ^ (e + 201)) by (apply Z.pow_pos_nonneg; lia).
  assert (V2 : 2 * v = Zpos m * 2 ^ (e + 201)).
  { rewrite V. replace (e + 201) with (1 + (e + 200)) by ring. rewrite (pow_split 1) by lia. change (2 ^ 1) with 2. ring. }
  rewrite V2. change (2 ^ 201) with (2 ^ 200 * 2). rewrite W2.
  replace (Zpos m * 2 ^ (e + 201) + w * 2 ^ (e + 201)) with ((Zpos m + 1 * w) * 2 ^ (e + 201)) by ring.
  replace (w * 2 ^ (e + 201) * 2) with (w * 2 * 2 ^ (e + 201)) by ring.
  rewrite Z.div_mul_cancel_r by lia.
  rewrite <- Z.div_div by lia. rewrite Z.div_add by lia. reflexivity.
Qed.
