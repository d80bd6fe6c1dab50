(** C69: how many keys an Xor filter accepts. *)
From Verif Require Import Base Hash Xorf Float64 Xor SpecXorf SpecXor SpecRate Base_facts HashInj_facts Window_facts Peel_facts KeyPeel_facts Xor_facts Rate_facts Claims_xor Claims_anysize Claims_rate Claims_xorrate.
Local Open Scope Z_scope.

Notation L32 := 4294967296.

Lemma fingerprint_split w x lo : (w <= 32)%nat -> 0 <= x < L32 -> 0 <= lo < L32 ->
  fingerprint w (x * L32 + lo) = Z.lxor (lo mod 2 ^ Z.of_nat w) (x mod 2 ^ Z.of_nat w).
Proof.
  intros Hw Hx Hlo. set (h := x * L32 + lo).
  unfold fingerprint. rewrite <- !Z.land_ones by lia.
  assert (EX : Z.shiftr h 32 = x) by (rewrite Z.shiftr_div_pow2 by lia; change (2 ^ 32) with L32; unfold h; rewrite Z.div_add_l by lia; rewrite Z.div_small by lia; lia).
  rewrite EX.
  assert (EH : Z.land h (Z.ones (Z.of_nat w)) = Z.land lo (Z.ones (Z.of_nat w))).
  { rewrite !Z.land_ones by lia. unfold h. replace (x * L32) with (x * 2 ^ (32 - Z.of_nat w) * 2 ^ Z.of_nat w).
    - rewrite Z.add_comm. apply Z_mod_plus_full.
    - rewrite <- Z.mul_assoc, <- Z.pow_add_r by lia. change L32 with (2 ^ 32). do 2 f_equal. lia. }
  rewrite <- EH. apply Z.bits_inj'. intros n Hn. rewrite !Z.lxor_spec, !Z.land_spec, !Z.lxor_spec.
  destruct (Z.testbit h n), (Z.testbit x n), (Z.testbit (Z.ones (Z.of_nat w)) n); reflexivity.
Qed.

(** The windows from the two halves of the hash. *)
Lemma windows_split x lo : 0 <= x < L32 -> 0 <= lo < L32 ->
  rotl64 (x * L32 + lo) 0 mod two32 = lo /\
  rotl64 (x * L32 + lo) 21 mod two32 = lo mod 2 ^ 11 * 2 ^ 21 + x / 2 ^ 11 /\
  rotl64 (x * L32 + lo) 42 mod two32 = x mod 2 ^ 22 * 2 ^ 10 + lo / 2 ^ 22.
Proof.
  intros Hx Hlo. assert (U : is_u64 (x * L32 + lo)) by (unfold is_u64, two64; lia).
  destruct (fields_of _ U) as (a & b & c & t & u & v & R & E). rewrite E.
  pose proof R as (R1 & R2 & R3 & R4 & R5 & R6).
  rewrite window0, window21, window42 by exact R. unfold fields in E.
  assert (EX : x = t * 2 ^ 22 + u * 2 ^ 11 + v) by lia.
  assert (EL : lo = a * 2 ^ 22 + b * 2 ^ 11 + c) by lia.
  split; [lia|]. split.
  - replace (lo mod 2 ^ 11) with c by (apply (Z.mod_unique_pos _ _ (a * 2 ^ 11 + b)); lia).
    replace (x / 2 ^ 11) with (t * 2 ^ 11 + u) by (apply (Z.div_unique_pos _ _ _ v); lia). lia.
  - replace (x mod 2 ^ 22) with (u * 2 ^ 11 + v) by (apply (Z.mod_unique_pos _ _ t); lia).
    replace (lo / 2 ^ 22) with a by (apply (Z.div_unique_pos _ _ _ (b * 2 ^ 11 + c)); lia). lia.
Qed.

Lemma telescope (f : Z -> Z) d n : zsum (fun t => f (t * d + d) - f (t * d)) n = f (Z.of_nat n * d) - f 0.
Proof.
  induction n as [|n IH]; cbn [zsum]; [change (Z.of_nat 0 * d) with 0; lia|].
  rewrite IH, Nat2Z.inj_succ, Z.mul_succ_l. lia.
Qed.

Section COUNT.
Variable bl : nat.
Hypothesis Hbl0 : (0 < bl)%nat.
Hypothesis Hbl : Z.of_nat bl < two32.
Variable w : nat.
Hypothesis Hw : (w <= 22)%nat.
Variable fps : list Z.
Notation W := (2 ^ Z.of_nat w).
Notation B := (Z.of_nat bl).

Definition xcell (lo p q : Z) : Z :=
  Z.lxor (Z.lxor (nth (xfl bl 0 lo) fps 0) (nth (1 * bl + Z.to_nat p) fps 0)) (nth (2 * bl + Z.to_nat q) fps 0).
Definition t1 (lo x : Z) : Z := Z.min (B - 1) ((lo mod 2 ^ 11 * 2 ^ 21 + x / 2 ^ 11) * B / 2 ^ 32).
Definition t2 (lo m : Z) : Z := Z.min (B - 1) ((m * 2 ^ 10 + lo / 2 ^ 22) * B / 2 ^ 32).
Definition xaccepts (h : Z) : bool := fingerprint w h =? x3 (xfl bl 0) (xfl bl 1) (xfl bl 2) fps h.

Lemma scale_lt y : 0 <= y < 2 ^ 32 -> Z.min (B - 1) (y * B / 2 ^ 32) = y * B / 2 ^ 32.
Proof.
  intros Hy. apply Z.min_r. assert (y * B / 2 ^ 32 < B); [|lia].
  apply Z.div_lt_upper_bound; [reflexivity|]. apply Z.mul_lt_mono_pos_r; lia.
Qed.

Lemma xaccepts_split t m lo : 0 <= t < 2 ^ 10 -> 0 <= m < 2 ^ 22 -> 0 <= lo < L32 ->
  xaccepts ((t * 2 ^ 22 + m) * L32 + lo) =
  (xcell lo (t1 lo (t * 2 ^ 22 + m)) (t2 lo m) =? Z.lxor (lo mod W) (m mod W)).
Proof.
  intros Ht Hm Hlo. set (x := t * 2 ^ 22 + m). assert (Hx : 0 <= x < L32) by (unfold x; lia).
  unfold xaccepts. rewrite fingerprint_split by (try assumption; lia).
  assert (EW : x mod W = m mod W).
  { unfold x. replace (t * 2 ^ 22) with (t * 2 ^ (22 - Z.of_nat w) * W).
    - rewrite Z.add_comm. apply Z_mod_plus_full.
    - rewrite <- Z.mul_assoc, <- Z.pow_add_r by lia. do 2 f_equal. lia. }
  rewrite EW, Z.eqb_sym. f_equal. unfold x3, xcell, xfl, xpos.
  destruct (windows_split x lo Hx Hlo) as (E0 & E1 & E2).
  assert (EM : x mod 2 ^ 22 = m) by (symmetry; apply (Z.mod_unique_pos _ _ t); unfold x; lia).
  rewrite EM in E2.
  change (Z.of_nat 0 * 21) with 0. change (Z.of_nat 1 * 21) with 21. change (Z.of_nat 2 * 21) with 42.
  rewrite E0, E1, E2. rewrite (Z.mod_small (rotl64 lo 0)).
  2:{ rewrite rotl_0 by (unfold is_u64, two64; lia). unfold two32. lia. }
  rewrite rotl_0 by (unfold is_u64, two64; lia).
  rewrite !Z.shiftr_div_pow2 by lia. unfold t1, t2.
  rewrite (scale_lt (lo mod 2 ^ 11 * 2 ^ 21 + x / 2 ^ 11)), (scale_lt (m * 2 ^ 10 + lo / 2 ^ 22)); [reflexivity| |].
  - assert (Q : 0 <= lo / 2 ^ 22 < 2 ^ 10) by (clear - Hlo; split; [apply Z.div_pos; lia|apply Z.div_lt_upper_bound; lia]).
    revert Q. generalize (lo / 2 ^ 22). clear - Hm. intros q Q. lia.
  - pose proof (Z.mod_pos_bound lo (2 ^ 11) eq_refl) as M.
    assert (Q : 0 <= x / 2 ^ 11 < 2 ^ 21) by (clear - Hx; split; [apply Z.div_pos; lia|apply Z.div_lt_upper_bound; lia]).
    revert M Q. generalize (x / 2 ^ 11) (lo mod 2 ^ 11). clear. intros q r M Q. lia.
Qed.

Lemma t1_mono lo x y : 0 <= x <= y -> t1 lo x <= t1 lo y.
Proof.
  intros H. unfold t1. apply Z.min_le_compat_l. apply Z.div_le_mono; [reflexivity|].
  apply Z.mul_le_mono_nonneg_r; [lia|]. pose proof (Z.div_le_mono x y (2 ^ 11) ltac:(lia) ltac:(lia)). lia.
Qed.
Lemma t2_mono lo x y : 0 <= x <= y -> t2 lo x <= t2 lo y.
Proof.
  intros H. unfold t2. apply Z.min_le_compat_l. apply Z.div_le_mono; [reflexivity|].
  apply Z.mul_le_mono_nonneg_r; [lia|]. lia.
Qed.
Lemma t1_range lo x : 0 <= lo -> 0 <= x -> 0 <= t1 lo x <= B - 1.
Proof.
  intros Hl Hx. unfold t1. pose proof (Z.mod_pos_bound lo (2 ^ 11) ltac:(lia)).
  assert (0 <= x / 2 ^ 11) by (apply Z.div_pos; lia).
  assert (0 <= (lo mod 2 ^ 11 * 2 ^ 21 + x / 2 ^ 11) * B / 2 ^ 32) by (apply Z.div_pos; [apply Z.mul_nonneg_nonneg; lia|reflexivity]).
  lia.
Qed.
Lemma t2_range lo x : 0 <= lo -> 0 <= x -> 0 <= t2 lo x <= B - 1.
Proof.
  intros Hl Hx. unfold t2. assert (0 <= lo / 2 ^ 22) by (apply Z.div_pos; lia).
  assert (0 <= (x * 2 ^ 10 + lo / 2 ^ 22) * B / 2 ^ 32) by (apply Z.div_pos; [apply Z.mul_nonneg_nonneg; lia|reflexivity]).
  lia.
Qed.

(** Both moving slots at once. *)
Definition tt (lo t m : Z) : Z := t1 lo (t * 2 ^ 22 + m) + t2 lo m.
Lemma tt_mono lo t x y : 0 <= t -> 0 <= x <= y -> tt lo t x <= tt lo t y.
Proof.
  intros Ht H. unfold tt. pose proof (t1_mono lo (t * 2 ^ 22 + x) (t * 2 ^ 22 + y) ltac:(lia)).
  pose proof (t2_mono lo x y H). lia.
Qed.

Lemma xgroup t lo hi : 0 <= t < 2 ^ 10 -> 0 <= lo < L32 -> 0 <= hi -> hi * W + (W - 1) < 2 ^ 22 ->
  let c := how_many (fun j => xaccepts ((t * 2 ^ 22 + (hi * W + j)) * L32 + lo)) W in
  let climb := tt lo t (hi * W + (W - 1)) - tt lo t (hi * W) in
  c <= 1 + climb /\ (Forall (in_w w) fps -> 1 - climb <= c).
Proof.
  intros Ht Hlo Hhi Hlast. cbv zeta. assert (W0 : 0 < W) by (apply Z.pow_pos_nonneg; lia).
  assert (HI : 0 <= hi * W) by (apply Z.mul_nonneg_nonneg; lia).
  assert (EA : forall j, 0 <= j < W -> xaccepts ((t * 2 ^ 22 + (hi * W + j)) * L32 + lo) =
     (xcell lo (t1 lo (t * 2 ^ 22 + (hi * W + j))) (t2 lo (hi * W + j)) =? Z.lxor (lo mod W) j)).
  { intros j Hj. rewrite xaccepts_split by (try assumption; lia). f_equal. f_equal. rewrite (Z.add_comm (hi * W) j), Z_mod_plus_full. apply Z.mod_small. exact Hj. }
  assert (M : forall j, 0 <= j < W -> tt lo t (hi * W) <= tt lo t (hi * W + j) <= tt lo t (hi * W + (W - 1))).
  { intros j Hj. split; apply tt_mono; lia. }
  pose proof (M (W - 1) ltac:(lia)) as ML.
  assert (SAME : forall i j, 0 <= i < W -> 0 <= j < W -> tt lo t (hi * W + i) = tt lo t (hi * W + j) ->
     t1 lo (t * 2 ^ 22 + (hi * W + i)) = t1 lo (t * 2 ^ 22 + (hi * W + j)) /\ t2 lo (hi * W + i) = t2 lo (hi * W + j)).
  { assert (G : forall i j, 0 <= i <= j -> tt lo t (hi * W + i) = tt lo t (hi * W + j) ->
     t1 lo (t * 2 ^ 22 + (hi * W + i)) = t1 lo (t * 2 ^ 22 + (hi * W + j)) /\ t2 lo (hi * W + i) = t2 lo (hi * W + j)).
    { intros i j Hij E. unfold tt in E.
      pose proof (t1_mono lo (t * 2 ^ 22 + (hi * W + i)) (t * 2 ^ 22 + (hi * W + j)) ltac:(lia)).
      pose proof (t2_mono lo (hi * W + i) (hi * W + j) ltac:(lia)). lia. }
    intros i j Hi Hj E. destruct (Z.le_ge_cases i j) as [C|C].
    - apply G; [lia|exact E].
    - destruct (G j i ltac:(lia) (eq_sym E)). split; congruence. }
  split.
  - replace (1 + (tt lo t (hi * W + (W - 1)) - tt lo t (hi * W))) with (tt lo t (hi * W + (W - 1)) - tt lo t (hi * W) + 1) by lia.
    apply (how_many_room _ _ (fun j => tt lo t (hi * W + j))); [lia|intros j Hj _; apply M; exact Hj|].
    intros i j Hi Hj Pi Pj ET. rewrite EA in Pi, Pj by assumption. apply Z.eqb_eq in Pi, Pj.
    destruct (SAME i j Hi Hj ET) as [E1 E2]. rewrite E1, E2 in Pi.
    assert (XX : Z.lxor (lo mod W) i = Z.lxor (lo mod W) j) by congruence.
    apply (f_equal (Z.lxor (lo mod W))) in XX. rewrite <- !Z.lxor_assoc, Z.lxor_nilpotent, !Z.lxor_0_l in XX. exact XX.
  - intros HF. destruct (Z.eq_dec (tt lo t (hi * W + (W - 1))) (tt lo t (hi * W))) as [E|N].
    2:{ pose proof (how_many_pos (fun j => xaccepts ((t * 2 ^ 22 + (hi * W + j)) * L32 + lo)) W). lia. }
    set (k := xcell lo (t1 lo (t * 2 ^ 22 + (hi * W + 0))) (t2 lo (hi * W + 0))). set (j := Z.lxor k (lo mod W)).
    assert (RC : in_w w k).
    { assert (RN : forall i, in_w w (nth i fps 0)).
      { intros i. destruct (Nat.lt_ge_cases i (length fps)) as [Hi|Hi].
        - eapply Forall_forall; [exact HF|]. now apply nth_In.
        - rewrite nth_overflow by exact Hi. unfold in_w. lia. }
      unfold k, xcell. apply lxor_range; [apply lxor_range|]; apply RN. }
    assert (Hj : 0 <= j < W) by (apply lxor_range; [exact RC|apply Z.mod_pos_bound; lia]).
    assert (1 <= how_many (fun j => xaccepts ((t * 2 ^ 22 + (hi * W + j)) * L32 + lo)) W); [|lia].
    apply (how_many_one _ _ j Hj). rewrite EA by exact Hj. pose proof (M j Hj).
    destruct (SAME 0 j ltac:(lia) Hj) as [E1 E2]; [rewrite Z.add_0_r; lia|].
    rewrite <- E1, <- E2. fold k. apply Z.eqb_eq. unfold j.
    rewrite (Z.lxor_comm k), <- Z.lxor_assoc, Z.lxor_nilpotent, Z.lxor_0_l. reflexivity.
Qed.

Lemma xcount_hashes : let c := how_many xaccepts (2 ^ 64) in
  c <= 2 ^ (64 - Z.of_nat w) + (B - 1) * 1025 * 2 ^ 32 /\
  (Forall (in_w w) fps -> 2 ^ (64 - Z.of_nat w) - (B - 1) * 1025 * 2 ^ 32 <= c).
Proof.
  cbv zeta. assert (W0 : 0 < W) by (apply Z.pow_pos_nonneg; lia).
  set (H := 2 ^ (22 - Z.of_nat w)). assert (H0 : 0 < H) by (apply Z.pow_pos_nonneg; lia).
  assert (HW : H * W = 2 ^ 22) by (unfold H; rewrite <- Z.pow_add_r by lia; f_equal; lia).
  assert (E64 : 2 ^ (64 - Z.of_nat w) = 2 ^ 10 * H * L32).
  { unfold H. change L32 with (2 ^ 32). rewrite <- !Z.pow_add_r by lia. f_equal. lia. }
  assert (EC : how_many xaccepts (2 ^ 64) =
    zsum (fun lo => zsum (fun t => zsum (fun hi => how_many (fun j => xaccepts ((t * 2 ^ 22 + (hi * W + j)) * L32 + lo)) W) (Z.to_nat H)) (Z.to_nat (2 ^ 10))) (Z.to_nat L32)).
  { rewrite how_many_sum by lia. replace (Z.to_nat (2 ^ 64)) with ((Z.to_nat (2 ^ 10) * (Z.to_nat H * Z.to_nat W)) * Z.to_nat L32)%nat.
    2:{ rewrite <- !Z2Nat.inj_mul by lia. f_equal. rewrite HW. reflexivity. }
    rewrite zsum_block, Z2Nat.id by lia. rewrite zsum_swap. apply zsum_ext. intros lo Hlo.
    rewrite zsum_block. apply zsum_ext. intros t Ht. rewrite zsum_block. apply zsum_ext. intros hi Hhi.
    rewrite how_many_sum by lia. apply zsum_ext. intros j Hj.
    rewrite <- Z2Nat.inj_mul by lia. rewrite HW, !Z2Nat.id by lia. reflexivity. }
  rewrite EC, E64.
  assert (Last : forall hi, 0 <= hi < Z.of_nat (Z.to_nat H) -> 0 <= hi /\ hi * W + (W - 1) < 2 ^ 22).
  { intros hi Hhi. rewrite Z2Nat.id in Hhi by lia. split; [lia|]. rewrite <- HW. clear - Hhi W0. nia. }
  set (climb := fun lo t => zsum (fun hi => tt lo t (hi * W + (W - 1)) - tt lo t (hi * W)) (Z.to_nat H)).
  assert (Climb : forall lo, 0 <= lo < L32 -> zsum (climb lo) (Z.to_nat (2 ^ 10)) <= (B - 1) * 1025).
  { intros lo Hlo.
    apply Z.le_trans with (zsum (fun t => (t1 lo (t * 2 ^ 22 + 2 ^ 22) - t1 lo (t * 2 ^ 22)) + (B - 1)) (Z.to_nat (2 ^ 10))).
    - apply zsum_le. intros t Ht. rewrite Z2Nat.id in Ht by lia. unfold climb.
      eapply Z.le_trans; [apply (jumps (tt lo t) W); [lia|intros; apply tt_mono; lia]|].
      rewrite Z2Nat.id, HW by lia. unfold tt. rewrite Z.add_0_r.
      pose proof (t2_range lo (2 ^ 22) ltac:(lia) ltac:(lia)). pose proof (t2_range lo 0 ltac:(lia) ltac:(lia)). lia.
    - rewrite zsum_add, zsum_const, Z2Nat.id by lia.
      rewrite (telescope (t1 lo) (2 ^ 22)). pose proof (t1_range lo (Z.of_nat (Z.to_nat (2 ^ 10)) * 2 ^ 22) ltac:(lia) ltac:(lia)).
      pose proof (t1_range lo 0 ltac:(lia) ltac:(lia)). lia. }
  assert (EH : forall s : Z, zsum (fun _ => s) (Z.to_nat (2 ^ 10)) = 2 ^ 10 * s) by (intros s; rewrite zsum_const, Z2Nat.id by lia; reflexivity).
  split.
  - apply Z.le_trans with (zsum (fun _ => 2 ^ 10 * H + (B - 1) * 1025) (Z.to_nat L32)).
    + apply zsum_le. intros lo Hlo. rewrite Z2Nat.id in Hlo by lia.
      apply Z.le_trans with (zsum (fun t => H + climb lo t) (Z.to_nat (2 ^ 10))).
      * apply zsum_le. intros t Ht. rewrite Z2Nat.id in Ht by lia.
        apply Z.le_trans with (zsum (fun hi => 1 + (tt lo t (hi * W + (W - 1)) - tt lo t (hi * W))) (Z.to_nat H)).
        -- apply zsum_le. intros hi Hhi. destruct (Last hi Hhi) as [A A']. apply xgroup; auto.
        -- rewrite zsum_add, zsum_const, Z2Nat.id by lia. unfold climb. lia.
      * rewrite zsum_add, EH. specialize (Climb lo Hlo). lia.
    + rewrite zsum_const, Z2Nat.id by lia. change (2 ^ 32) with L32. lia.
  - intros HF. apply Z.le_trans with (zsum (fun _ => 2 ^ 10 * H - (B - 1) * 1025) (Z.to_nat L32)).
    + rewrite zsum_const, Z2Nat.id by lia. change (2 ^ 32) with L32. lia.
    + apply zsum_le. intros lo Hlo. rewrite Z2Nat.id in Hlo by lia.
      apply Z.le_trans with (zsum (fun t => H + - climb lo t) (Z.to_nat (2 ^ 10))).
      * rewrite zsum_add, EH, zsum_opp. specialize (Climb lo Hlo). lia.
      * apply zsum_le. intros t Ht. rewrite Z2Nat.id in Ht by lia.
        apply Z.le_trans with (zsum (fun hi => 1 + - (tt lo t (hi * W + (W - 1)) - tt lo t (hi * W))) (Z.to_nat H)).
        -- rewrite zsum_add, zsum_opp, zsum_const, Z2Nat.id by lia. unfold climb. lia.
        -- apply zsum_le. intros hi Hhi. destruct (Last hi Hhi) as [A A'].
           destruct (xgroup t lo hi Ht Hlo A A') as [_ G]. specialize (G HF). lia.
Qed.
End COUNT.

Lemma xor_assign_range w dbg bl stack : forall B B', Forall (in_w w) B ->
  foldM (xor_assign_one w dbg bl) stack B = Ok B' -> Forall (in_w w) B'.
Proof.
  intros B B' HB E. apply (foldM_shape (Forall (in_w w)) (xor_assign_one w dbg bl) stack) with (b := B); auto.
  clear. intros B [h i] B' F E. unfold xor_assign_one in E.
  apply bind_Ok in E as (h0 & _ & E). apply bind_Ok in E as (x0 & X0 & E).
  apply bind_Ok in E as (h1 & _ & E). apply bind_Ok in E as (x1 & X1 & E).
  apply bind_Ok in E as (h2 & _ & E). apply bind_Ok in E as (x2 & X2 & E).
  apply (set_shape (in_w w)) in E; [tauto|exact F|].
  apply lxor_range; [apply lxor_range; [apply lxor_range; [apply fingerprint_range|]|]|].
  - apply (idx_Forall (in_w w) _ _ _ F X0).
  - apply (idx_Forall (in_w w) _ _ _ F X1).
  - apply (idx_Forall (in_w w) _ _ _ F X2).
Qed.

Lemma xor_fps_range tries w dbg keys f : xor_from tries w dbg keys = Ok f -> Forall (in_w w) (xf_fingerprints f).
Proof.
  unfold xor_from. destruct (dbg && _); [discriminate|]. intros E. destruct (splitmix64 1) as [rng seed].
  apply bind_Ok in E as ([s stack] & _ & E). apply bind_Ok in E as (B & EB & E).
  assert (EF : xf_fingerprints f = B) by (apply (f_equal (fun r => match r with Ok f => xf_fingerprints f | _ => [] end)) in E; symmetry; exact E).
  rewrite EF. eapply xor_assign_range; [|exact EB].
  apply Forall_forall. intros x Hx. apply repeat_spec in Hx. subst x. unfold in_w. split; [lia|]. apply Z.pow_pos_nonneg; lia.
Qed.

(** @C69 Xor filters of any fingerprint width up to 22 bits: of the 2^64 keys, the number that a
    built filter accepts differs from 2^64 / 2^width by at most
    (block_length - 1) * 1025 * 2^32, whatever the keys and the seed that succeeded. *)
Lemma xor_accepted_keys : forall tries w dbg keys f dbg',
  Z.of_nat (length keys) < 2 ^ 32 -> (w <= 22)%nat -> xor_from tries w dbg keys = Ok f ->
  Z.abs (how_many (fun key => says_yes (xor_contains w dbg' f key)) (2 ^ 64) - 2 ^ (64 - Z.of_nat w)) <=
  (Z.of_nat (xf_block_length f) - 1) * 1025 * 2 ^ 32.
Proof.
  intros mi w dbg keys f dbg' Hn Hw E. pose proof (xor_bl_small _ Hn) as Hbl.
  pose proof (xor_fps_range _ _ _ _ _ E) as RF.
  assert (HD : dbg = true -> NoDup keys) by (intros ->; eapply xor_dbg_distinct; eauto).
  destruct (xor_construct dbg keys Hbl Hn mi w HD) as [(i & fps & Hi & L & _ & _ & _ & EE)|[EE _]];
    rewrite EE in E; [|discriminate E].
  injection E as <-. cbn [xf_block_length xf_fingerprints] in *.
  set (bl := xor_block_length (length keys)) in *. set (seed := retry_seed i).
  rewrite (how_many_ext _ (fun key => xaccepts bl w fps (mix key seed))).
  2:{ intros key _. rewrite xor_contains_x3; [|apply xor_bl_pos0|exact Hbl|exact L]. cbn [says_yes]. unfold xaccepts.
      destruct (_ =? _); reflexivity. }
  rewrite (how_many_inj (xaccepts bl w fps) (fun key => mix key seed)).
  - destruct (xcount_hashes bl (xor_bl_pos0 _) w Hw fps) as [A B]. specialize (B RF). apply Z.abs_le. lia.
  - intros x Hx. pose proof (mix_is_u64 x seed) as U. unfold is_u64, two64 in U. lia.
  - intros x y Hx Hy. apply mix_inj; unfold is_u64, two64; lia.
Qed.

Lemma xor_bl_of tries w dbg keys f : Z.of_nat (length keys) < 2 ^ 32 -> xor_from tries w dbg keys = Ok f ->
  300 * Z.of_nat (xf_block_length f) <= 123 * Z.of_nat (length keys) + 3200.
Proof.
  intros Hn E. assert (EB : xf_block_length f = xor_block_length (length keys)).
  { unfold xor_from in E. destruct (dbg && _); [discriminate|]. destruct (splitmix64 1) as [rng seed].
    apply bind_Ok in E as ([s stack] & _ & E). apply bind_Ok in E as (B & EB & E).
    apply (f_equal (fun r => match r with Ok f => xf_block_length f | _ => O end)) in E. symmetry. exact E. }
  rewrite EB. apply xor_bl_bounds. exact Hn.
Qed.

(** @C69 Xor8, as documented: "a false positive rate of <0.4%", for up to 930 keys, whatever the
    set. (Refuted for large sets: xor_documented_rate_refuted.) *)
Lemma xor8_documented_rate_small : forall tries dbg keys f dbg', Z.of_nat (length keys) <= 930 ->
  xor_from tries 8 dbg keys = Ok f ->
  1000 * false_positives (xor_contains 8 dbg' f) keys < 4 * (2 ^ 64 - Z.of_nat (length keys)).
Proof.
  intros mi dbg keys f dbg' Hn E. assert (Hn32 : Z.of_nat (length keys) < 2 ^ 32) by lia. pose proof (xor_bl_of _ _ _ _ _ Hn32 E) as HB.
  pose proof (xor_accepted_keys mi 8 dbg keys f dbg' Hn32 ltac:(lia) E) as A. apply Z.abs_le in A. destruct A as [_ A].
  pose proof (fp_le (xor_contains 8 dbg' f) keys) as P.
  revert A P. generalize (how_many (fun key => says_yes (xor_contains 8 dbg' f key)) (2 ^ 64)) (false_positives (xor_contains 8 dbg' f) keys).
  clear - HB Hn. intros a b A P. change (2 ^ (64 - Z.of_nat 8)) with 72057594037927936 in A. lia.
Qed.

(** @C69 Xor16: "<0.002%", for up to 24 keys. *)
Lemma xor16_documented_rate_small : forall tries dbg keys f dbg', Z.of_nat (length keys) <= 24 ->
  xor_from tries 16 dbg keys = Ok f ->
  100000 * false_positives (xor_contains 16 dbg' f) keys < 2 * (2 ^ 64 - Z.of_nat (length keys)).
Proof.
  intros mi dbg keys f dbg' Hn E. assert (Hn32 : Z.of_nat (length keys) < 2 ^ 32) by lia. pose proof (xor_bl_of _ _ _ _ _ Hn32 E) as HB.
  pose proof (xor_accepted_keys mi 16 dbg keys f dbg' Hn32 ltac:(lia) E) as A. apply Z.abs_le in A. destruct A as [_ A].
  pose proof (fp_le (xor_contains 16 dbg' f) keys) as P.
  revert A P. generalize (how_many (fun key => says_yes (xor_contains 16 dbg' f key)) (2 ^ 64)) (false_positives (xor_contains 16 dbg' f) keys).
  clear - HB Hn. intros a b A P. change (2 ^ (64 - Z.of_nat 16)) with 281474976710656 in A. lia.
Qed.

(** @C69 example: five keys for which the Xor8 construction succeeds at once. *)
Example xor_small_example : exists f, xor_from 1 8 true [1; 2; 3; 4; 5] = Ok f /\
  1000 * false_positives (xor_contains 8 true f) [1; 2; 3; 4; 5] < 4 * (2 ^ 64 - 5).
Proof.
  destruct (xor_from 1 8 true [1; 2; 3; 4; 5]) as [f| | |] eqn:E; [|vm_compute in E; discriminate..].
  exists f. split; [reflexivity|]. exact (xor8_documented_rate_small 1 true [1; 2; 3; 4; 5] f true ltac:(discriminate) E).
Qed.
