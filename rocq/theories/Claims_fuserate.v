(** C69: the rates documented for Fuse8 and Fuse16. *)
From Coq Require Import Permutation.
From Verif Require Import Base Hash Xorf Float64 Fuse SpecFilter SpecXorf SpecRate Base_facts HashInj_facts Peel_facts KeyPeel_facts Fuse_facts Rate_facts Claims_fuse Claims_rate FuseStar_facts.
Local Open Scope Z_scope.

Lemma radix m q r q' r' : 0 <= r < m -> 0 <= r' < m -> q * m + r = q' * m + r' -> q = q' /\ r = r'.
Proof.
  intros H H' E. rewrite !(Z.mul_comm _ m) in E. apply (Z.div_mod_unique m); [now left|now left|exact E].
Qed.

(** Segments of 2^17 slots, for 8-bit fingerprints. *)
Definition base8 (s : Z) : Z := (s * 2 ^ 32 / 204800 + 1) * 2 ^ 11.
Definition mk8 (j a b x y : Z) : Z := a mod 2 ^ 6 * 2 ^ 58 + x * 2 ^ 54 + b * 2 ^ 37 + base8 (3 * j) + y * 2 ^ 11 + a / 2 ^ 6.

Lemma mk8_parts j a b x y : 0 <= j < 30 -> 0 <= a < 2 ^ 17 -> 0 <= b < 2 ^ 17 -> 0 <= x < 2 ^ 4 -> 0 <= y < 20970 ->
  exists z t B, a = z * 2 ^ 6 + t /\ 0 <= z < 2 ^ 11 /\ 0 <= t < 2 ^ 6 /\ a mod 2 ^ 6 = t /\ a / 2 ^ 6 = z /\ base8 (3 * j) = B * 2 ^ 11 /\
    3 * j * 2 ^ 32 <= B * 204800 <= 3 * j * 2 ^ 32 + 204800 /\
    mk8 j a b x y = t * 2 ^ 58 + x * 2 ^ 54 + b * 2 ^ 37 + B * 2 ^ 11 + y * 2 ^ 11 + z.
Proof.
  intros Hj Ha Hb Hx Hy. exists (a / 2 ^ 6), (a mod 2 ^ 6), (3 * j * 2 ^ 32 / 204800 + 1).
  pose proof (Z.div_mod a (2 ^ 6) ltac:(lia)) as D. pose proof (Z.mod_pos_bound a (2 ^ 6) ltac:(lia)) as M.
  pose proof (Z.div_mod (3 * j * 2 ^ 32) 204800 ltac:(lia)) as DB. pose proof (Z.mod_pos_bound (3 * j * 2 ^ 32) 204800 ltac:(lia)) as MB.
  unfold mk8, base8. set (z := a / 2 ^ 6) in *. set (t := a mod 2 ^ 6) in *. set (B := 3 * j * 2 ^ 32 / 204800) in *. set (m := (3 * j * 2 ^ 32) mod 204800) in *.
  clearbody z t B m. repeat split; lia.
Qed.

Lemma mk8_ok sl j a b x y : Z.of_nat sl = 2 ^ 17 -> 0 <= j < 30 -> 0 <= a < 2 ^ 17 -> 0 <= b < 2 ^ 17 -> 0 <= x < 2 ^ 4 -> 0 <= y < 20970 ->
  is_u64 (mk8 j a b x y) /\ Z.of_nat (fs1 sl (mk8 j a b x y)) = 3 * (j * 2 ^ 17) + a /\
  Z.of_nat (fs2 sl (mk8 j a b x y)) = 3 * (j * 2 ^ 17) + 2 ^ 17 + b /\
  Z.of_nat (fs3 sl (mk8 j a b x y)) = 3 * (j * 2 ^ 17) + 2 * 2 ^ 17 + (H3 * mk8 j a b x y) mod 2 ^ 64 / 2 ^ 47 /\
  fingerprint 8 (mk8 j a b x y) = Z.lxor (a / 2 ^ 6 mod 2 ^ 8) (b * 2 ^ 5 mod 2 ^ 8).
Proof.
  intros Esl Hj Ha Hb Hx Hy. destruct (mk8_parts j a b x y Hj Ha Hb Hx Hy) as (z & t & B & Ea & Hz & Ht & _ & Ez & _ & HB & ->). rewrite Ez.
  set (h := t * 2 ^ 58 + x * 2 ^ 54 + b * 2 ^ 37 + B * 2 ^ 11 + y * 2 ^ 11 + z).
  set (lo := B * 2 ^ 11 + y * 2 ^ 11 + z). set (hi := t * 2 ^ 26 + x * 2 ^ 22 + b * 2 ^ 5).
  assert (Hlo : 0 <= lo < 2 ^ 32) by (unfold lo; lia). assert (Eh : h = hi * 2 ^ 32 + lo) by (unfold h, hi, lo; lia).
  assert (U : is_u64 h) by (unfold is_u64, two64; rewrite Eh; unfold hi; lia).
  split; [exact U|].
  destruct (slots_of sl 17 h (3 * j) lo hi Esl ltac:(lia) U Eh Hlo ltac:(lia) ltac:(unfold lo; lia)) as (E1 & E2 & E3).
  rewrite E1, E2, E3. clear E1 E2 E3. change (32 - 17) with 15.
  assert (A1 : h mod 2 ^ 11 = z) by (symmetry; apply (Z.mod_unique_pos _ _ (hi * 2 ^ 21 + B + y)); [lia|rewrite Eh; unfold lo; lia]).
  assert (A2 : h / 2 ^ 43 = t * 2 ^ 15 + x * 2 ^ 11 + b / 2 ^ 6).
  { pose proof (Z.div_mod b (2 ^ 6) ltac:(lia)) as D. pose proof (Z.mod_pos_bound b (2 ^ 6) ltac:(lia)) as M.
    symmetry. apply (Z.div_unique_pos _ _ _ (b mod 2 ^ 6 * 2 ^ 37 + lo)); [lia|]. rewrite Eh. unfold hi. lia. }
  rewrite A1, A2. split; [|split; [|split]].
  - assert (0 <= b / 2 ^ 6 < 2 ^ 11) by (split; [apply Z.div_pos; lia|apply Z.div_lt_upper_bound; lia]).
    set (q := b / 2 ^ 6) in *. clearbody q.
    replace ((z * 2 ^ 21 + (t * 2 ^ 15 + x * 2 ^ 11 + q)) / 2 ^ 15) with a; [lia|]. apply (Z.div_unique_pos _ _ _ (x * 2 ^ 11 + q)); lia.
  - assert (L : 0 <= lo / 2 ^ 22 < 2 ^ 10) by (split; [apply Z.div_pos; lia|apply Z.div_lt_upper_bound; lia]).
    pose proof (Z.div_mod lo (2 ^ 22) ltac:(lia)) as D. pose proof (Z.mod_pos_bound lo (2 ^ 22) ltac:(lia)) as M.
    set (q := lo / 2 ^ 22) in *. set (m := lo mod 2 ^ 22) in *.
    replace (h / 2 ^ 22) with (hi * 2 ^ 10 + q) by (apply (Z.div_unique_pos _ _ _ m); lia).
    replace ((hi * 2 ^ 10 + q) mod 2 ^ 32) with (b * 2 ^ 15 + q) by (apply (Z.mod_unique_pos _ _ (t * 2 ^ 4 + x)); unfold hi; lia).
    replace ((b * 2 ^ 15 + q) / 2 ^ 15) with b by (apply (Z.div_unique_pos _ _ _ q); lia). lia.
  - rewrite Z.div_div by lia. change (2 ^ 32 * 2 ^ 15) with (2 ^ 47). lia.
  - rewrite fingerprint_halves. change (Z.of_nat 8) with 8.
    assert (P1 : h mod 2 ^ 8 = z mod 2 ^ 8).
    { rewrite <- A1. apply Znumtheory.Zmod_div_mod; try lia. exists (2 ^ 3). reflexivity. }
    assert (P2 : h / 2 ^ 32 = hi) by (symmetry; apply (Z.div_unique_pos _ _ _ lo); lia).
    rewrite P1, P2. f_equal.
    replace hi with (b * 2 ^ 5 + (t * 2 ^ 18 + x * 2 ^ 14) * 2 ^ 8) by (unfold hi; lia). apply Z.mod_add. lia.
Qed.

Lemma mk8_inj : forall j a b x y j' a' b' x' y',
  0 <= j < 30 -> 0 <= a < 2 ^ 17 -> 0 <= b < 2 ^ 17 -> 0 <= x < 2 ^ 4 -> 0 <= y < 20970 ->
  0 <= j' < 30 -> 0 <= a' < 2 ^ 17 -> 0 <= b' < 2 ^ 17 -> 0 <= x' < 2 ^ 4 -> 0 <= y' < 20970 ->
  mk8 j a b x y = mk8 j' a' b' x' y' -> j = j' /\ a = a' /\ b = b' /\ x = x' /\ y = y'.
Proof.
  intros j a b x y j' a' b' x' y' Hj Ha Hb Hx Hy Hj' Ha' Hb' Hx' Hy' E.
  destruct (mk8_parts j a b x y Hj Ha Hb Hx Hy) as (z & t & B & Ea & Hz & Ht & _ & _ & EB & HB & E1).
  destruct (mk8_parts j' a' b' x' y' Hj' Ha' Hb' Hx' Hy') as (z' & t' & B' & Ea' & Hz' & Ht' & _ & _ & EB' & HB' & E2).
  rewrite E1, E2 in E. clear E1 E2.
  assert (Hl : 0 <= (B + y) * 2 ^ 11 + z < 2 ^ 37) by (clear - Hz HB Hy Hj; lia).
  assert (Hl' : 0 <= (B' + y') * 2 ^ 11 + z' < 2 ^ 37) by (clear - Hz' HB' Hy' Hj'; lia).
  destruct (radix (2 ^ 37) ((t * 2 ^ 4 + x) * 2 ^ 17 + b) ((B + y) * 2 ^ 11 + z) ((t' * 2 ^ 4 + x') * 2 ^ 17 + b') ((B' + y') * 2 ^ 11 + z') Hl Hl' ltac:(clear - E; lia)) as [F1 F2].
  apply radix in F1; [|exact Hb|exact Hb']. destruct F1 as [F1 ->]. apply radix in F1; [|exact Hx|exact Hx']. destruct F1 as [-> ->].
  apply radix in F2; [|exact Hz|exact Hz']. destruct F2 as [EY ->]. clear E Hl Hl'. assert (a = a') by lia. subst a'.
  assert (j = j') by (clear - EY HB HB' Hy Hy'; lia). subst j'.
  assert (B = B') by (clear - EB EB'; lia). subst B'. repeat split; lia.
Qed.

Lemma mod_lin E A B x y M : 0 < M -> (E + A * y + B * x) mod M = (E + A mod M * y + B mod M * x) mod M.
Proof.
  intros HM. pose proof (Z.div_mod A M ltac:(lia)) as DA. pose proof (Z.div_mod B M ltac:(lia)) as DB.
  set (a := A mod M) in *. set (b := B mod M) in *. set (qa := A / M) in *. set (qb := B / M) in *. clearbody a b qa qb. subst A B.
  replace (E + (M * qa + a) * y + (M * qb + b) * x) with (E + a * y + b * x + (qa * y + qb * x) * M) by ring. apply Z.mod_add. lia.
Qed.

Lemma step8 : forall x y, 0 <= x < 2 ^ 4 -> 0 <= y < 20970 ->
  exists p q d k, 0 <= x + q < 2 ^ 4 /\ 0 <= y + p < 20970 /\ 0 < d <= 2 ^ 47 /\
    (H3 * 2 ^ 11) mod 2 ^ 64 * p + (H3 * 2 ^ 54) mod 2 ^ 64 * q = d + k * 2 ^ 64.
Proof.
  intros x y Hx Hy.
  assert (S : 739 <= y /\ 10 <= x \/ y < 9077 /\ 8 <= x \/ 9983 <= y /\ x < 13 \/ y < 18321 /\ x < 11) by (clear - Hx Hy; lia).
  destruct S as [[S1 S2]|[[S1 S2]|[[S1 S2]|[S1 S2]]]].
  - exists (-739), (-10), 49176953464832, (-565). split; [clear - Hx S2; lia|]. split; [clear - Hy S1; lia|]. split; [lia|reflexivity].
  - exists (11893), (-8), 134892605958144, (9020). split; [clear - Hx S2; lia|]. split; [clear - Hy S1; lia|]. split; [lia|reflexivity].
  - exists (-9983), (3), 54903333832704, (-7573). split; [clear - Hx S2; lia|]. split; [clear - Hy S1; lia|]. split; [lia|reflexivity].
  - exists (2649), (5), 140618986326016, (2012). split; [clear - Hx S2; lia|]. split; [clear - Hy S1; lia|]. split; [lia|reflexivity].
Qed.

Lemma mk8_cover : forall j c, 0 <= j < 30 -> 0 <= c < 2 ^ 17 -> exists x y, 0 <= x < 2 ^ 4 /\ 0 <= y < 20970 /\
  (H3 * mk8 j 0 0 x y) mod 2 ^ 64 / 2 ^ 47 = c.
Proof.
  intros j c Hj Hc.
  destruct (walk_hits (2 ^ 64) (2 ^ 47) ((H3 * 2 ^ 11) mod 2 ^ 64) ((H3 * 2 ^ 54) mod 2 ^ 64) (2 ^ 4) 20970 ltac:(lia)) with (E := H3 * base8 (3 * j)) (c := c)
    as (x & y & Hx & Hy & E); try lia.
  { apply step8. }
  exists x, y. split; [exact Hx|]. split; [exact Hy|]. rewrite <- E. f_equal.
  unfold mk8. change (0 mod 2 ^ 6) with 0. change (0 / 2 ^ 6) with 0.
  replace (H3 * (0 * 2 ^ 58 + x * 2 ^ 54 + 0 * 2 ^ 37 + base8 (3 * j) + y * 2 ^ 11 + 0))
    with (H3 * base8 (3 * j) + H3 * 2 ^ 11 * y + H3 * 2 ^ 54 * x) by ring.
  apply mod_lin; lia.
Qed.

(** Segments of 2^14 slots, for 16-bit fingerprints. *)
Definition base16 (s : Z) : Z := (s * 2 ^ 32 / 6553600 + 1) * 2 ^ 16.
Definition mk16 (j a b x y : Z) : Z := a mod 2 ^ 3 * 2 ^ 61 + x * 2 ^ 54 + b * 2 ^ 40 + base16 (3 * j) + y * 2 ^ 16 + a / 2 ^ 3.

Lemma mk16_parts j a b x y : 0 <= j < 30 -> 0 <= a < 2 ^ 14 -> 0 <= b < 2 ^ 14 -> 0 <= x < 2 ^ 7 -> 0 <= y < 654 ->
  exists z t B, a = z * 2 ^ 3 + t /\ 0 <= z < 2 ^ 11 /\ 0 <= t < 2 ^ 3 /\ a mod 2 ^ 3 = t /\ a / 2 ^ 3 = z /\ base16 (3 * j) = B * 2 ^ 16 /\
    3 * j * 2 ^ 32 <= B * 6553600 <= 3 * j * 2 ^ 32 + 6553600 /\
    mk16 j a b x y = t * 2 ^ 61 + x * 2 ^ 54 + b * 2 ^ 40 + B * 2 ^ 16 + y * 2 ^ 16 + z.
Proof.
  intros Hj Ha Hb Hx Hy. exists (a / 2 ^ 3), (a mod 2 ^ 3), (3 * j * 2 ^ 32 / 6553600 + 1).
  pose proof (Z.div_mod a (2 ^ 3) ltac:(lia)) as D. pose proof (Z.mod_pos_bound a (2 ^ 3) ltac:(lia)) as M.
  pose proof (Z.div_mod (3 * j * 2 ^ 32) 6553600 ltac:(lia)) as DB. pose proof (Z.mod_pos_bound (3 * j * 2 ^ 32) 6553600 ltac:(lia)) as MB.
  unfold mk16, base16. set (z := a / 2 ^ 3) in *. set (t := a mod 2 ^ 3) in *. set (B := 3 * j * 2 ^ 32 / 6553600) in *. set (m := (3 * j * 2 ^ 32) mod 6553600) in *.
  clearbody z t B m. repeat split; lia.
Qed.

Lemma mk16_ok sl j a b x y : Z.of_nat sl = 2 ^ 14 -> 0 <= j < 30 -> 0 <= a < 2 ^ 14 -> 0 <= b < 2 ^ 14 -> 0 <= x < 2 ^ 7 -> 0 <= y < 654 ->
  is_u64 (mk16 j a b x y) /\ Z.of_nat (fs1 sl (mk16 j a b x y)) = 3 * (j * 2 ^ 14) + a /\
  Z.of_nat (fs2 sl (mk16 j a b x y)) = 3 * (j * 2 ^ 14) + 2 ^ 14 + b /\
  Z.of_nat (fs3 sl (mk16 j a b x y)) = 3 * (j * 2 ^ 14) + 2 * 2 ^ 14 + (H3 * mk16 j a b x y) mod 2 ^ 64 / 2 ^ 50 /\
  fingerprint 16 (mk16 j a b x y) = Z.lxor (a / 2 ^ 3 mod 2 ^ 16) (b * 2 ^ 8 mod 2 ^ 16).
Proof.
  intros Esl Hj Ha Hb Hx Hy. destruct (mk16_parts j a b x y Hj Ha Hb Hx Hy) as (z & t & B & Ea & Hz & Ht & _ & Ez & _ & HB & ->). rewrite Ez.
  set (h := t * 2 ^ 61 + x * 2 ^ 54 + b * 2 ^ 40 + B * 2 ^ 16 + y * 2 ^ 16 + z).
  set (lo := B * 2 ^ 16 + y * 2 ^ 16 + z). set (hi := t * 2 ^ 29 + x * 2 ^ 22 + b * 2 ^ 8).
  assert (Hlo : 0 <= lo < 2 ^ 32) by (unfold lo; lia). assert (Eh : h = hi * 2 ^ 32 + lo) by (unfold h, hi, lo; lia).
  assert (U : is_u64 h) by (unfold is_u64, two64; rewrite Eh; unfold hi; lia).
  split; [exact U|].
  destruct (slots_of sl 14 h (3 * j) lo hi Esl ltac:(lia) U Eh Hlo ltac:(lia) ltac:(unfold lo; lia)) as (E1 & E2 & E3).
  rewrite E1, E2, E3. clear E1 E2 E3. change (32 - 14) with 18.
  assert (A1 : h mod 2 ^ 11 = z) by (symmetry; apply (Z.mod_unique_pos _ _ (hi * 2 ^ 21 + B * 2 ^ 5 + y * 2 ^ 5)); [lia|rewrite Eh; unfold lo; lia]).
  assert (A2 : h / 2 ^ 43 = t * 2 ^ 18 + x * 2 ^ 11 + b / 2 ^ 3).
  { pose proof (Z.div_mod b (2 ^ 3) ltac:(lia)) as D. pose proof (Z.mod_pos_bound b (2 ^ 3) ltac:(lia)) as M.
    symmetry. apply (Z.div_unique_pos _ _ _ (b mod 2 ^ 3 * 2 ^ 40 + lo)); [lia|]. rewrite Eh. unfold hi. lia. }
  rewrite A1, A2. split; [|split; [|split]].
  - assert (0 <= b / 2 ^ 3 < 2 ^ 11) by (split; [apply Z.div_pos; lia|apply Z.div_lt_upper_bound; lia]).
    set (q := b / 2 ^ 3) in *. clearbody q.
    replace ((z * 2 ^ 21 + (t * 2 ^ 18 + x * 2 ^ 11 + q)) / 2 ^ 18) with a; [lia|]. apply (Z.div_unique_pos _ _ _ (x * 2 ^ 11 + q)); lia.
  - assert (L : 0 <= lo / 2 ^ 22 < 2 ^ 10) by (split; [apply Z.div_pos; lia|apply Z.div_lt_upper_bound; lia]).
    pose proof (Z.div_mod lo (2 ^ 22) ltac:(lia)) as D. pose proof (Z.mod_pos_bound lo (2 ^ 22) ltac:(lia)) as M.
    set (q := lo / 2 ^ 22) in *. set (m := lo mod 2 ^ 22) in *.
    replace (h / 2 ^ 22) with (hi * 2 ^ 10 + q) by (apply (Z.div_unique_pos _ _ _ m); lia).
    replace ((hi * 2 ^ 10 + q) mod 2 ^ 32) with (b * 2 ^ 18 + q) by (apply (Z.mod_unique_pos _ _ (t * 2 ^ 7 + x)); unfold hi; lia).
    replace ((b * 2 ^ 18 + q) / 2 ^ 18) with b by (apply (Z.div_unique_pos _ _ _ q); lia). lia.
  - rewrite Z.div_div by lia. change (2 ^ 32 * 2 ^ 18) with (2 ^ 50). lia.
  - rewrite fingerprint_halves. change (Z.of_nat 16) with 16.
    assert (P1 : h mod 2 ^ 16 = z mod 2 ^ 16).
    { rewrite (Z.mod_small z) by lia. symmetry. apply (Z.mod_unique_pos _ _ (hi * 2 ^ 16 + B + y)); [lia|rewrite Eh; unfold lo; lia]. }
    assert (P2 : h / 2 ^ 32 = hi) by (symmetry; apply (Z.div_unique_pos _ _ _ lo); lia).
    rewrite P1, P2. f_equal.
    replace hi with (b * 2 ^ 8 + (t * 2 ^ 13 + x * 2 ^ 6) * 2 ^ 16) by (unfold hi; lia). apply Z.mod_add. lia.
Qed.

Lemma mk16_inj : forall j a b x y j' a' b' x' y',
  0 <= j < 30 -> 0 <= a < 2 ^ 14 -> 0 <= b < 2 ^ 14 -> 0 <= x < 2 ^ 7 -> 0 <= y < 654 ->
  0 <= j' < 30 -> 0 <= a' < 2 ^ 14 -> 0 <= b' < 2 ^ 14 -> 0 <= x' < 2 ^ 7 -> 0 <= y' < 654 ->
  mk16 j a b x y = mk16 j' a' b' x' y' -> j = j' /\ a = a' /\ b = b' /\ x = x' /\ y = y'.
Proof.
  intros j a b x y j' a' b' x' y' Hj Ha Hb Hx Hy Hj' Ha' Hb' Hx' Hy' E.
  destruct (mk16_parts j a b x y Hj Ha Hb Hx Hy) as (z & t & B & Ea & Hz & Ht & _ & _ & EB & HB & E1).
  destruct (mk16_parts j' a' b' x' y' Hj' Ha' Hb' Hx' Hy') as (z' & t' & B' & Ea' & Hz' & Ht' & _ & _ & EB' & HB' & E2).
  rewrite E1, E2 in E. clear E1 E2.
  assert (Hl : 0 <= (B + y) * 2 ^ 16 + z < 2 ^ 40) by (clear - Hz HB Hy Hj; lia).
  assert (Hl' : 0 <= (B' + y') * 2 ^ 16 + z' < 2 ^ 40) by (clear - Hz' HB' Hy' Hj'; lia).
  destruct (radix (2 ^ 40) ((t * 2 ^ 7 + x) * 2 ^ 14 + b) ((B + y) * 2 ^ 16 + z) ((t' * 2 ^ 7 + x') * 2 ^ 14 + b') ((B' + y') * 2 ^ 16 + z') Hl Hl' ltac:(clear - E; lia)) as [F1 F2].
  apply radix in F1; [|exact Hb|exact Hb']. destruct F1 as [F1 ->]. apply radix in F1; [|exact Hx|exact Hx']. destruct F1 as [-> ->].
  apply radix in F2; [|clear - Hz; lia|clear - Hz'; lia]. destruct F2 as [EY ->]. clear E Hl Hl'. assert (a = a') by lia. subst a'.
  assert (j = j') by (clear - EY HB HB' Hy Hy'; lia). subst j'.
  assert (B = B') by (clear - EB EB'; lia). subst B'. repeat split; lia.
Qed.

Lemma step16 : forall x y, 0 <= x < 2 ^ 7 -> 0 <= y < 654 ->
  exists p q d k, 0 <= x + q < 2 ^ 7 /\ 0 <= y + p < 654 /\ 0 < d <= 2 ^ 50 /\
    (H3 * 2 ^ 16) mod 2 ^ 64 * p + (H3 * 2 ^ 54) mod 2 ^ 64 * q = d + k * 2 ^ 64.
Proof.
  intros x y Hx Hy.
  assert (S : y < 444 /\ 78 <= x \/ 156 <= y /\ 22 <= x \/ 183 <= y /\ x < 100 \/ y < 217 /\ x < 93) by (clear - Hx Hy; lia).
  destruct S as [[S1 S2]|[[S1 S2]|[[S1 S2]|[S1 S2]]]].
  - exists (210), (-78), 479131280211968, (25). split; [clear - Hx S2; lia|]. split; [clear - Hy S1; lia|]. split; [lia|reflexivity].
  - exists (-156), (-22), 673468106670080, (-53). split; [clear - Hx S2; lia|]. split; [clear - Hy S1; lia|]. split; [lia|reflexivity].
  - exists (-183), (28), 97168413229056, (-39). split; [clear - Hx S2; lia|]. split; [clear - Hy S1; lia|]. split; [lia|reflexivity].
  - exists (437), (35), 653917978165248, (137). split; [clear - Hx S2; lia|]. split; [clear - Hy S1; lia|]. split; [lia|reflexivity].
Qed.

Lemma mk16_cover : forall j c, 0 <= j < 30 -> 0 <= c < 2 ^ 14 -> exists x y, 0 <= x < 2 ^ 7 /\ 0 <= y < 654 /\
  (H3 * mk16 j 0 0 x y) mod 2 ^ 64 / 2 ^ 50 = c.
Proof.
  intros j c Hj Hc.
  destruct (walk_hits (2 ^ 64) (2 ^ 50) ((H3 * 2 ^ 16) mod 2 ^ 64) ((H3 * 2 ^ 54) mod 2 ^ 64) (2 ^ 7) 654 ltac:(lia)) with (E := H3 * base16 (3 * j)) (c := c)
    as (x & y & Hx & Hy & E); try lia.
  { apply step16. }
  exists x, y. split; [exact Hx|]. split; [exact Hy|]. rewrite <- E. f_equal.
  unfold mk16. change (0 mod 2 ^ 3) with 0. change (0 / 2 ^ 3) with 0.
  replace (H3 * (0 * 2 ^ 61 + x * 2 ^ 54 + 0 * 2 ^ 40 + base16 (3 * j) + y * 2 ^ 16 + 0))
    with (H3 * base16 (3 * j) + H3 * 2 ^ 16 * y + H3 * 2 ^ 54 * x) by ring.
  apply mod_lin; lia.
Qed.

(** ** The documented rates *)
Lemma fuse_sl_8 n : Z.of_nat n = 11751654 -> Z.of_nat (fuse_segment_length n) = 2 ^ 17.
Proof.
  intros Hn. unfold fuse_segment_length, fuse_capacity. rewrite Nat.div_mul by (unfold SLOTS; lia). unfold SLOTS.
  assert (E : Z.of_nat (f64_to_usize (f64_mul FUSE_OVERHEAD (f64_of_usize n))) / 102 = 131072).
  { unfold f64_of_usize. rewrite Hn. unfold f64_to_usize.
    set (v := f64_mul _ _). vm_compute in v. unfold v. rewrite Z2Nat.id; [reflexivity|discriminate]. }
  set (v := f64_to_usize _) in *. clearbody v. rewrite Nat2Z.inj_div. exact E.
Qed.
Lemma fuse_sl_16 n : Z.of_nat n = 1468957 -> Z.of_nat (fuse_segment_length n) = 2 ^ 14.
Proof.
  intros Hn. unfold fuse_segment_length, fuse_capacity. rewrite Nat.div_mul by (unfold SLOTS; lia). unfold SLOTS.
  assert (E : Z.of_nat (f64_to_usize (f64_mul FUSE_OVERHEAD (f64_of_usize n))) / 102 = 16384).
  { unfold f64_of_usize. rewrite Hn. unfold f64_to_usize.
    set (v := f64_mul _ _). vm_compute in v. unfold v. rewrite Z2Nat.id; [reflexivity|discriminate]. }
  set (v := f64_to_usize _) in *. clearbody v. rewrite Nat2Z.inj_div. exact E.
Qed.

(** @C69 Refuted: "Has a false positive rate of <0.4%" (Fuse8). There are 11751654 distinct keys
    for which the Fuse8 filter is built on the first attempt, in both profiles and whatever the
    initial fill, and accepts more than 0.9% of the keys outside the set. *)
Lemma fuse8_documented_rate_refuted : exists keys, length keys = Z.to_nat 11751654 /\ NoDup keys /\ Forall is_u64 keys /\
  forall max_iter dbg rnd, (0 < max_iter)%nat ->
    exists f, fuse_from_impl max_iter 8 dbg rnd keys = Ok f /\
      forall dbg', 9 * (2 ^ 64 - Z.of_nat (length keys)) < 1000 * false_positives (fuse_contains 8 dbg' f) keys.
Proof.
  set (n := Z.to_nat 11751654). assert (Hn : Z.of_nat n = 11751654) by (unfold n; apply Z2Nat.id; lia). clearbody n.
  pose proof (fuse_sl_8 n Hn) as Hsl. remember (fuse_segment_length n) as sl eqn:Esl.
  destruct (star_keys sl 8 (2 ^ 17) (2 ^ 4) 20970 mk8 (fun a => a / 2 ^ 6 mod 2 ^ 8) (fun b => b * 2 ^ 5 mod 2 ^ 8) Hsl ltac:(lia) ltac:(lia) ltac:(lia)) with (n := n) (J := 29)
    as (keys & L & ND & U & HB).
  - intros j a b x y Hj Ha Hb Hx Hy. destruct (mk8_ok sl j a b x y Hsl Hj Ha Hb Hx Hy) as (U & E1 & E2 & E3 & E4).
    split; [exact U|]. split; [exact E1|]. split; [exact E2|]. split; [|exact E4].
    exists ((H3 * mk8 j a b x y) mod 2 ^ 64 / 2 ^ 47). split; [|exact E3]. clear.
    pose proof (Z.mod_pos_bound (H3 * mk8 j a b x y) (2 ^ 64) ltac:(lia)) as B. split; [apply Z.div_pos; lia|apply Z.div_lt_upper_bound; lia].
  - intros j c Hj Hc. destruct (mk8_cover j c Hj Hc) as (x & y & Hx & Hy & E). exists x, y. split; [exact Hx|]. split; [exact Hy|].
    destruct (mk8_ok sl j 0 0 x y Hsl Hj ltac:(lia) ltac:(lia) Hx Hy) as (_ & _ & _ & E3 & _). rewrite E3, E. reflexivity.
  - exact mk8_inj.
  - rewrite Hn. reflexivity.
  - symmetry. exact Esl.
  - lia.
  - unfold star_len. rewrite Hn. lia.
  - exists keys. split; [exact L|]. split; [exact ND|]. split; [exact U|]. intros mi dbg rnd Hmi.
    destruct (HB mi dbg rnd Hmi) as (f & E & HF). exists f. split; [exact E|]. intros dbg'. specialize (HF dbg'). rewrite L, Hn in *.
    set (fpc := false_positives _ _) in *. clearbody fpc. clear - HF. lia.
Qed.

(** @C69 Refuted: "Has a false positive rate of <0.002%" (Fuse16). There are 1468957 distinct keys
    for which the Fuse16 filter is built on the first attempt, in both profiles and whatever the
    initial fill, and accepts more than 0.0035% of the keys outside the set. *)
Lemma fuse16_documented_rate_refuted : exists keys, length keys = Z.to_nat 1468957 /\ NoDup keys /\ Forall is_u64 keys /\
  forall max_iter dbg rnd, (0 < max_iter)%nat ->
    exists f, fuse_from_impl max_iter 16 dbg rnd keys = Ok f /\
      forall dbg', 35 * (2 ^ 64 - Z.of_nat (length keys)) < 1000000 * false_positives (fuse_contains 16 dbg' f) keys.
Proof.
  set (n := Z.to_nat 1468957). assert (Hn : Z.of_nat n = 1468957) by (unfold n; apply Z2Nat.id; lia). clearbody n.
  pose proof (fuse_sl_16 n Hn) as Hsl. remember (fuse_segment_length n) as sl eqn:Esl.
  destruct (star_keys sl 16 (2 ^ 14) (2 ^ 7) 654 mk16 (fun a => a / 2 ^ 3 mod 2 ^ 16) (fun b => b * 2 ^ 8 mod 2 ^ 16) Hsl ltac:(lia) ltac:(lia) ltac:(lia)) with (n := n) (J := 29)
    as (keys & L & ND & U & HB).
  - intros j a b x y Hj Ha Hb Hx Hy. destruct (mk16_ok sl j a b x y Hsl Hj Ha Hb Hx Hy) as (U & E1 & E2 & E3 & E4).
    split; [exact U|]. split; [exact E1|]. split; [exact E2|]. split; [|exact E4].
    exists ((H3 * mk16 j a b x y) mod 2 ^ 64 / 2 ^ 50). split; [|exact E3]. clear.
    pose proof (Z.mod_pos_bound (H3 * mk16 j a b x y) (2 ^ 64) ltac:(lia)) as B. split; [apply Z.div_pos; lia|apply Z.div_lt_upper_bound; lia].
  - intros j c Hj Hc. destruct (mk16_cover j c Hj Hc) as (x & y & Hx & Hy & E). exists x, y. split; [exact Hx|]. split; [exact Hy|].
    destruct (mk16_ok sl j 0 0 x y Hsl Hj ltac:(lia) ltac:(lia) Hx Hy) as (_ & _ & _ & E3 & _). rewrite E3, E. reflexivity.
  - exact mk16_inj.
  - rewrite Hn. reflexivity.
  - symmetry. exact Esl.
  - lia.
  - unfold star_len. rewrite Hn. lia.
  - exists keys. split; [exact L|]. split; [exact ND|]. split; [exact U|]. intros mi dbg rnd Hmi.
    destruct (HB mi dbg rnd Hmi) as (f & E & HF). exists f. split; [exact E|]. intros dbg'. specialize (HF dbg'). rewrite L, Hn in *.
    set (fpc := false_positives _ _) in *. clearbody fpc. clear - HF. lia.
Qed.
