(** Windows of a 64-bit hash used by the Xor and Fuse filters, as arithmetic. *)
From Verif Require Import Base Hash Xorf Base_facts.
Local Open Scope Z_scope.

Lemma lor_add a b c : 0 <= c -> 0 <= b < 2 ^ c -> Z.lor (a * 2 ^ c) b = a * 2 ^ c + b.
Proof.
  intros Hc Hb.
  assert (L : Z.land (a * 2 ^ c) b = 0).
  { apply Z.bits_inj'. intros i Hi. rewrite Z.land_spec, Z.bits_0, <- Z.shiftl_mul_pow2, Z.shiftl_spec by lia.
    destruct (Z.lt_ge_cases i c) as [H|H].
    - rewrite Z.testbit_neg_r by lia. reflexivity.
    - replace (Z.testbit b i) with false; [apply Bool.andb_false_r|]. symmetry.
      destruct (Z.eq_dec b 0) as [->|N]; [apply Z.bits_0|]. apply Z.bits_above_log2; [lia|].
      apply Z.log2_lt_pow2; [lia|]. apply Z.lt_le_trans with (2 ^ c); [lia|apply Z.pow_le_mono_r; lia]. }
  rewrite Z.add_nocarry_lxor by exact L. symmetry. apply Z.lxor_lor. exact L.
Qed.

Lemma lxor_add a b c : 0 <= c -> 0 <= b < 2 ^ c -> Z.lxor (a * 2 ^ c) b = a * 2 ^ c + b.
Proof.
  intros Hc Hb. rewrite <- (lor_add a b c Hc Hb). apply Z.lxor_lor.
  apply Z.bits_inj'. intros i Hi. rewrite Z.land_spec, Z.bits_0, <- Z.shiftl_mul_pow2, Z.shiftl_spec by lia.
  destruct (Z.lt_ge_cases i c) as [H|H].
  - rewrite Z.testbit_neg_r by lia. reflexivity.
  - replace (Z.testbit b i) with false; [apply Bool.andb_false_r|]. symmetry.
    destruct (Z.eq_dec b 0) as [->|N]; [apply Z.bits_0|]. apply Z.bits_above_log2; [lia|].
    apply Z.log2_lt_pow2; [lia|]. apply Z.lt_le_trans with (2 ^ c); [lia|apply Z.pow_le_mono_r; lia].
Qed.

(** Changing the low bits [a] into [b] by an exclusive or. *)
Lemma lxor_change m a b c : 0 <= c -> 0 <= a < 2 ^ c -> 0 <= b < 2 ^ c ->
  Z.lxor (m * 2 ^ c + a) (Z.lxor a b) = m * 2 ^ c + b.
Proof.
  intros Hc Ha Hb. rewrite <- (lxor_add m a c Hc Ha), <- (lxor_add m b c Hc Hb).
  rewrite Z.lxor_assoc, <- (Z.lxor_assoc a a b), Z.lxor_nilpotent, Z.lxor_0_l. reflexivity.
Qed.
Lemma lxor_lt a b c : 0 <= c -> 0 <= a < 2 ^ c -> 0 <= b < 2 ^ c -> 0 <= Z.lxor a b < 2 ^ c.
Proof.
  intros Hc Ha Hb. assert (N : 0 <= Z.lxor a b) by (apply Z.lxor_nonneg; lia). split; [exact N|].
  assert (E : Z.lxor a b / 2 ^ c = 0).
  { rewrite <- Z.shiftr_div_pow2 by lia. rewrite Z.shiftr_lxor, !Z.shiftr_div_pow2, !Z.div_small by lia. reflexivity. }
  apply Z.div_small_iff in E; [|apply Z.pow_nonzero; lia]. lia.
Qed.

Lemma rotl_value h c : is_u64 h -> 0 < c < 64 ->
  rotl64 h c = (h mod 2 ^ (64 - c)) * 2 ^ c + h / 2 ^ (64 - c).
Proof.
  intros Hh Hc. unfold rotl64, is_u64 in *.
  change 63 with (Z.ones 6). rewrite !Z.land_ones by lia. change (2 ^ 6) with 64.
  rewrite (Z.mod_small c 64) by lia. replace (- c mod 64) with (64 - c).
  2:{ apply (Z.mod_unique_pos (-c) 64 (-1) (64 - c)); lia. }
  rewrite Z.shiftr_div_pow2, Z.shiftl_mul_pow2 by lia.
  replace two64 with (2 ^ (64 - c) * 2 ^ c) in * by (rewrite <- Z.pow_add_r by lia; replace (64 - c + c) with 64 by lia; reflexivity).
  rewrite Z.mul_mod_distr_r by (apply Z.pow_nonzero; lia).
  apply lor_add; [lia|]. split; [apply Z.div_pos; [lia|apply Z.pow_pos_nonneg; lia]|].
  apply Z.div_lt_upper_bound; [apply Z.pow_pos_nonneg; lia|lia].
Qed.

Lemma rotl_0 h : is_u64 h -> rotl64 h 0 = h.
Proof.
  intros Hh. unfold rotl64. change (Z.land 0 63) with 0. change (Z.land (- 0) 63) with 0.
  rewrite Z.shiftl_0_r, Z.shiftr_0_r, Z.mod_small by exact Hh. apply Z.lor_diag.
Qed.

(** A hash made of six fields: x (10 bits), y, z (11 bits), t (10 bits), u, v (11 bits). *)
Definition fields (x y z t u v : Z) : Z :=
  t * 2 ^ 54 + u * 2 ^ 43 + v * 2 ^ 32 + x * 2 ^ 22 + y * 2 ^ 11 + z.

Definition in_range (x y z t u v : Z) : Prop :=
  0 <= x < 2 ^ 10 /\ 0 <= y < 2 ^ 11 /\ 0 <= z < 2 ^ 11 /\ 0 <= t < 2 ^ 10 /\ 0 <= u < 2 ^ 11 /\ 0 <= v < 2 ^ 11.

Lemma fields_u64 x y z t u v : in_range x y z t u v -> is_u64 (fields x y z t u v).
Proof. unfold in_range, fields, is_u64, two64. intros H. lia. Qed.

Lemma window0 x y z t u v : in_range x y z t u v ->
  rotl64 (fields x y z t u v) 0 mod two32 = x * 2 ^ 22 + y * 2 ^ 11 + z.
Proof.
  intros H. rewrite rotl_0 by (apply fields_u64; exact H). unfold fields, in_range, two32 in *.
  symmetry. apply (Z.mod_unique_pos _ _ (t * 2 ^ 22 + u * 2 ^ 11 + v)); lia.
Qed.

Lemma window21 x y z t u v : in_range x y z t u v ->
  rotl64 (fields x y z t u v) 21 mod two32 = z * 2 ^ 21 + t * 2 ^ 11 + u.
Proof.
  intros H. rewrite rotl_value by (try (apply fields_u64; exact H); lia). unfold fields, in_range, two32 in *.
  change (64 - 21) with 43.
  assert (E1 : (t * 2 ^ 54 + u * 2 ^ 43 + v * 2 ^ 32 + x * 2 ^ 22 + y * 2 ^ 11 + z) mod 2 ^ 43 = v * 2 ^ 32 + x * 2 ^ 22 + y * 2 ^ 11 + z).
  { symmetry. apply (Z.mod_unique_pos _ _ (t * 2 ^ 11 + u)); lia. }
  assert (E2 : (t * 2 ^ 54 + u * 2 ^ 43 + v * 2 ^ 32 + x * 2 ^ 22 + y * 2 ^ 11 + z) / 2 ^ 43 = t * 2 ^ 11 + u).
  { symmetry. apply (Z.div_unique_pos _ _ _ (v * 2 ^ 32 + x * 2 ^ 22 + y * 2 ^ 11 + z)); lia. }
  rewrite E1, E2. symmetry. apply (Z.mod_unique_pos _ _ (v * 2 ^ 21 + x * 2 ^ 11 + y)); lia.
Qed.

Lemma window42 x y z t u v : in_range x y z t u v ->
  rotl64 (fields x y z t u v) 42 mod two32 = u * 2 ^ 21 + v * 2 ^ 10 + x.
Proof.
  intros H. rewrite rotl_value by (try (apply fields_u64; exact H); lia). unfold fields, in_range, two32 in *.
  change (64 - 42) with 22.
  assert (E1 : (t * 2 ^ 54 + u * 2 ^ 43 + v * 2 ^ 32 + x * 2 ^ 22 + y * 2 ^ 11 + z) mod 2 ^ 22 = y * 2 ^ 11 + z).
  { symmetry. apply (Z.mod_unique_pos _ _ (t * 2 ^ 32 + u * 2 ^ 21 + v * 2 ^ 10 + x)); lia. }
  assert (E2 : (t * 2 ^ 54 + u * 2 ^ 43 + v * 2 ^ 32 + x * 2 ^ 22 + y * 2 ^ 11 + z) / 2 ^ 22 = t * 2 ^ 32 + u * 2 ^ 21 + v * 2 ^ 10 + x).
  { symmetry. apply (Z.div_unique_pos _ _ _ (y * 2 ^ 11 + z)); lia. }
  rewrite E1, E2. symmetry. apply (Z.mod_unique_pos _ _ ((y * 2 ^ 11 + z) * 2 ^ 10 + t)); lia.
Qed.

(** The least 32-bit word that [reduce!] sends to [a] among [n]. *)
Definition word_for (n a : Z) : Z := (a * 2 ^ 32 + n - 1) / n.

Lemma word_for_ok n a : 0 < n < 2 ^ 32 -> 0 <= a < n ->
  0 <= word_for n a < 2 ^ 32 /\ word_for n a * n / 2 ^ 32 = a.
Proof.
  intros Hn Ha. unfold word_for.
  pose proof (Z.div_mod (a * 2 ^ 32 + n - 1) n ltac:(lia)) as D. pose proof (Z.mod_pos_bound (a * 2 ^ 32 + n - 1) n ltac:(lia)) as M.
  set (w := (a * 2 ^ 32 + n - 1) / n) in *. set (r := (a * 2 ^ 32 + n - 1) mod n) in *. clearbody w r.
  change (2 ^ 32) with 4294967296 in *.
  assert (0 <= w) by nia. split; [split; [assumption|nia]|].
  symmetry. apply (Z.div_unique_pos _ _ _ (n - 1 - r)); nia.
Qed.

(** Reducing twice modulo powers of two leaves the low bits. *)
Lemma mod_mod_low h x k : 0 <= k -> k <= 18 -> 0 <= x < 2 ^ k -> (exists q, h = q * 2 ^ 18 + x) -> h mod 2 ^ 32 mod 2 ^ k = x.
Proof.
  intros Hk H18 Hx [q ->].
  replace (2 ^ 32) with (2 ^ (32 - k) * 2 ^ k) by (rewrite <- Z.pow_add_r by lia; f_equal; lia).
  rewrite (Z.mul_comm (2 ^ (32 - k))), Z.rem_mul_r by (try apply Z.pow_nonzero; try apply Z.pow_pos_nonneg; lia).
  replace (2 ^ 18) with (2 ^ (18 - k) * 2 ^ k) by (rewrite <- Z.pow_add_r by lia; f_equal; lia).
  rewrite (Z.mul_comm (2 ^ k) (_ mod _)), Z.mod_add by (apply Z.pow_nonzero; lia).
  rewrite Z.mod_mod by (apply Z.pow_nonzero; lia).
  rewrite Z.mul_assoc, Z.add_comm, Z.mod_add by (apply Z.pow_nonzero; lia). apply Z.mod_small. exact Hx.
Qed.
Lemma mod_zero h k : 0 <= k <= 32 -> (exists q, h = q * 2 ^ k) -> h mod 2 ^ 32 mod 2 ^ k = 0.
Proof.
  intros Hk [q ->]. replace (2 ^ 32) with (2 ^ (32 - k) * 2 ^ k) by (rewrite <- Z.pow_add_r by lia; f_equal; lia).
  rewrite Z.mul_mod_distr_r by (apply Z.pow_nonzero; lia). apply Z.mod_mul. apply Z.pow_nonzero; lia.
Qed.
