(** Property theorems; each restates a lemma proved in Claims_xorftests.v. *)
From Coq Require Import Permutation.
From Verif Require Import Base Hash Xorf Float64 Estimate Fuse3 Bfusep Bfuse Xor Fuse HashProxy Tests XorfTests SpecFilter SpecXorf SpecXor SpecEst Claims_fuse Claims_fusebig Claims_xor Claims_xorf Claims_filter Claims_tests Claims_estimate Claims_xorftests.
Local Open Scope Z_scope.

(** C76: [test_initialization] of [Xor8], [Xor16] and [Xor32], whatever keys were drawn: it passes
    exactly when the keys are distinct and some u64 seed makes them peelable. It never fails
    because a key is missing. *)
Theorem C76_xor_init_test_iff : forall w dbg keys, Z.of_nat (length keys) < 2 ^ 32 ->
  ((exists tries, init_test (xor_from tries w dbg) (xor_contains w dbg) keys = Ok tt) <->
   NoDup keys /\ exists seed slots, is_u64 seed /\ xor_probes dbg (xor_block_length (length keys)) seed slots /\ peelable slots keys).
Proof. exact xor_init_test_iff. Qed.
Print Assumptions C76_xor_init_test_iff.

(** C76: [test_bits_per_entry] of the three Xor filters passes whenever the construction returns. *)
Theorem C76_xor_bpe_test_iff : forall w bound tries dbg keys, In (w, bound) xor_bounds -> length keys = SAMPLE_SIZE ->
  (bpe_test (xor_from tries w dbg) (fun f => length (xf_fingerprints f)) w bound keys = Ok tt <->
   exists f, xor_from tries w dbg keys = Ok f).
Proof. exact xor_bpe_test_iff. Qed.
Print Assumptions C76_xor_bpe_test_iff.

(** C76: [test_initialization] of [Fuse8], [Fuse16] and [Fuse32] passes exactly when the keys
    are distinct and one of the thousand seeds makes them peelable. *)
Theorem C76_fuse_init_test_iff : forall w dbg rnd keys probes, Z.of_nat (length keys) < 2 ^ 32 -> (90 <= length keys)%nat ->
  (forall i, fuse_probes dbg (fuse_segment_length (length keys)) (retry_seed i) (probes i)) ->
  (init_test (fuse_try_from w dbg rnd) (fuse_contains w dbg) keys = Ok tt <->
   NoDup keys /\ exists i, (i < Z.to_nat 1000)%nat /\ peelable (probes i) keys).
Proof. exact fuse_init_test_iff. Qed.
Print Assumptions C76_fuse_init_test_iff.

(** C76: [test_bits_per_entry] of the three Fuse filters passes whenever the construction
    succeeds: a million keys get 1137606 slots, 9.100848 bits per 8-bit entry. *)
Theorem C76_fuse_bpe_test_iff : forall w bound dbg rnd keys, In (w, bound) fuse_bounds -> length keys = SAMPLE_SIZE ->
  (bpe_test (fuse_try_from w dbg rnd) (fun f => length (ff_fingerprints f)) w bound keys = Ok tt <->
   exists f, fuse_try_from w dbg rnd keys = Ok f).
Proof. exact fuse_bpe_test_iff. Qed.
Print Assumptions C76_fuse_bpe_test_iff.

(** C76: [test_fail_construction] of the three Fuse filters passes exactly when the construction
    of a filter from the drawn keys fails on all thousand seeds. *)
Theorem C76_fuse_fail_test_iff : forall w dbg rnd keys probes, Z.of_nat (length keys) < 2 ^ 32 -> (90 <= length keys)%nat ->
  (forall i, fuse_probes dbg (fuse_segment_length (length keys)) (retry_seed i) (probes i)) -> NoDup keys ->
  (fail_test (fuse_try_from w dbg rnd) keys = Ok tt <->
   forall i, (i < Z.to_nat 1000)%nat -> ~ peelable (probes i) keys).
Proof. exact fuse_fail_test_iff. Qed.
Print Assumptions C76_fuse_fail_test_iff.

(** C76: refuted: that test is not safe, since it draws its keys at random: there are a thousand
    distinct u64 keys for which a filter is built in both profiles, with every fingerprint width
    and random fill, and the test fails. *)
Theorem C76_fuse_fail_test_refuted : exists keys, length keys = Z.to_nat 1000 /\ NoDup keys /\ Forall is_u64 keys /\
  forall w dbg rnd, fail_test (fuse_try_from w dbg rnd) keys = Panic.
Proof. exact fuse_fail_test_refuted. Qed.
Print Assumptions C76_fuse_fail_test_refuted.

(** C76: [test_false_positives] of the nine filters, whatever keys and numbers were drawn: once
    the filter is built, the test passes exactly when fewer than 4060 (8 bits), 25 (16 bits) or 1
    (32 bits) of the million numbers are found; the comparison of rounded percentages is exact. *)
Theorem C76_fp_tests_count : forall w bound lim keys draws, In (w, (bound, lim)) fp_limits ->
  length keys = SAMPLE_SIZE -> length draws = SAMPLE_SIZE ->
  (forall tries dbg f, xor_from tries w dbg keys = Ok f ->
     fp_test (xor_from tries w dbg) (xor_contains w dbg) bound keys draws =
     if (length (filter (fun d => yes (xor_contains w dbg f d)) draws) <? lim)%nat then Ok tt else Panic) /\
  (forall dbg rnd f, fuse_try_from w dbg rnd keys = Ok f ->
     fp_test (fuse_try_from w dbg rnd) (fuse_contains w dbg) bound keys draws =
     if (length (filter (fun d => yes (fuse_contains w dbg f d)) draws) <? lim)%nat then Ok tt else Panic) /\
  (forall dbg fe rnd f, sane_estimates fe (length keys) -> bfuse_try_from w dbg fe rnd keys = Ok f ->
     fp_test (bfuse_try_from w dbg fe rnd) (bfuse_contains w dbg) bound keys draws =
     if (length (filter (fun d => yes (bfuse_contains w dbg f d)) draws) <? lim)%nat then Ok tt else Panic).
Proof. exact fp_tests_count. Qed.
Print Assumptions C76_fp_tests_count.

(** C76: so these tests are not safe either: nothing prevents the second draw from repeating
    stored keys, and if it repeats the first draw the test fails with every filter that is built. *)
Theorem C76_fp_tests_refuted : forall w bound lim keys, In (w, (bound, lim)) fp_limits -> length keys = SAMPLE_SIZE ->
  (forall tries dbg f, xor_from tries w dbg keys = Ok f ->
     fp_test (xor_from tries w dbg) (xor_contains w dbg) bound keys keys = Panic) /\
  (forall dbg rnd f, fuse_try_from w dbg rnd keys = Ok f ->
     fp_test (fuse_try_from w dbg rnd) (fuse_contains w dbg) bound keys keys = Panic) /\
  (forall dbg fe rnd f, sane_estimates fe (length keys) -> light dbg fe keys -> bfuse_try_from w dbg fe rnd keys = Ok f ->
     fp_test (bfuse_try_from w dbg fe rnd) (bfuse_contains w dbg) bound keys keys = Panic).
Proof. exact fp_tests_refuted. Qed.
Print Assumptions C76_fp_tests_refuted.

(** C76: [test_initialization] of [BinaryFuse8], [BinaryFuse16] and [BinaryFuse32] on distinct
    keys without an overloaded slot passes exactly when one of the thousand seeds makes them
    peelable. *)
Theorem C76_bfuse_init_test_iff : forall w dbg fe rnd keys g probes,
  sane_estimates fe (length keys) -> geometry dbg fe (length keys) = Ok g ->
  (forall i, bf_probes dbg g (retry_seed i) (probes i)) -> Forall is_u64 keys -> NoDup keys ->
  (forall i j, (i < Z.to_nat 1000)%nat -> (load (probes i) keys j <= 63)%nat) ->
  (init_test (bfuse_try_from w dbg fe rnd) (bfuse_contains w dbg) keys = Ok tt <->
   exists i, (i < Z.to_nat 1000)%nat /\ peelable (probes i) keys).
Proof. exact bfuse_init_test_iff. Qed.
Print Assumptions C76_bfuse_init_test_iff.

(** C76: a binary fuse filter of a million keys has 1130496 slots, in both profiles and for every
    logarithm that is right to four digits. *)
Theorem C76_million_slots : forall log dbg n, reasonable_log log -> n = SAMPLE_SIZE ->
  exists g, geometry dbg (f64_estimates log) n = Ok g /\ Z.of_nat (g_arrlen g) = 1130496.
Proof. exact million_slots. Qed.
Print Assumptions C76_million_slots.

(** C76: [test_bits_per_entry] of the three binary fuse filters passes whenever the construction
    succeeds. *)
Theorem C76_bfuse_bpe_test_iff : forall log w bound dbg rnd keys, reasonable_log log -> In (w, bound) bfuse_bounds ->
  length keys = SAMPLE_SIZE ->
  (bpe_test (bfuse_try_from w dbg (f64_estimates log) rnd) bfuse_len w bound keys = Ok tt <->
   exists f, bfuse_try_from w dbg (f64_estimates log) rnd keys = Ok f).
Proof. exact bfuse_bpe_test_iff. Qed.
Print Assumptions C76_bfuse_bpe_test_iff.

(** C76: the single-key test of [BinaryFuse8] passes for every key, fill and profile. *)
Theorem C76_single_key_test_passes : forall log dbg rnd key, reasonable_log log -> is_u64 key ->
  single_key_test dbg (f64_estimates log) rnd key = Ok tt.
Proof. exact single_key_test_passes. Qed.
Print Assumptions C76_single_key_test_passes.

(** C76: the [should_panic] tests pass: in a debug build every construction from keys with a
    repetition panics, whatever the fingerprint width and fill, and so does one with a modulus
    below 256. *)
Theorem C76_panic_tests_pass : forall tries w fe rnd,
  panic_test (xor_from tries w true [1; 2; 1]) = Ok tt /\ panic_test (fuse_try_from w true rnd [1; 2; 1]) = Ok tt /\
  panic_test (bfuse_try_from w true fe rnd [1; 2; 1]) = Ok tt /\
  p32_duplicates_test fe rnd = Ok tt /\ p32_modulus_test fe rnd = Ok tt.
Proof. exact panic_tests_pass. Qed.
Print Assumptions C76_panic_tests_pass.

(** C76: the test of [HashProxy] passes for each of the three filters exactly when the construction
    returns; it does not return when two of the drawn strings have the same hash. *)
Theorem C76_proxy_test_iff : forall T (hash : T -> Z) tries w dbg (keys : list T), Z.of_nat (length keys) < 2 ^ 32 ->
  (proxy_test hash tries w dbg keys = Ok tt <-> exists f, xor_from tries w dbg (map hash keys) = Ok f) /\
  (~ NoDup (map hash keys) -> proxy_test hash tries w dbg keys <> Ok tt).
Proof. exact proxy_test_iff. Qed.
Print Assumptions C76_proxy_test_iff.

(** C76: the tests of [BinaryFuseP32] use keys that repeat one word four times; whatever the
    seed, the hash of such a key is a multiple of four... *)
Theorem C76_p32_test_hash : forall x seed, mix256 [x; x; x; x] seed mod 4 = 0.
Proof. exact p32_test_hash. Qed.
Print Assumptions C76_p32_test_hash.

(** C76: ... so that its third slot always agrees with its first modulo four: these tests never
    see three quarters of the slot triples. *)
Theorem C76_p32_test_slots : forall dbg dbg' fe n g x seed a b c, sane_estimates fe n -> geometry dbg fe n = Ok g ->
  hash_eval dbg' [x; x; x; x] seed (g_seglen g) (g_mask g) (g_scl g) = Ok [a; b; c] -> (c mod 4 = a mod 4)%nat.
Proof. exact p32_test_slots. Qed.
Print Assumptions C76_p32_test_slots.

(** C76: [test_initialization] of [BinaryFuseP32] passes exactly when the construction succeeds
    and any two drawn keys with the same hash stand at positions that agree modulo 1024. *)
Theorem C76_p32_init_test_iff : forall dbg fe rnd seed xs, sane_estimates fe (length xs) -> Z.of_nat (length xs) < 2 ^ 32 ->
  p32_light dbg fe seed xs ->
  (p32_init_test dbg fe rnd seed xs = Ok tt <->
   (exists f, from_slice dbg fe rnd seed (p32_keys xs) (p32_data (length xs)) 1 1024 = Ok f) /\ twins_agree seed xs).
Proof. exact p32_init_test_iff. Qed.
Print Assumptions C76_p32_init_test_iff.

(** C76: ... and [test_hashes], which redoes the lookup with the public hashing functions, passes
    exactly when [test_initialization] would, on the same draws. *)
Theorem C76_p32_hashes_test_iff : forall dbg fe rnd seed xs, sane_estimates fe (length xs) -> Z.of_nat (length xs) < 2 ^ 32 ->
  p32_light dbg fe seed xs ->
  (p32_hashes_test dbg fe rnd seed xs = Ok tt <-> p32_init_test dbg fe rnd seed xs = Ok tt).
Proof. exact p32_hashes_test_iff. Qed.
Print Assumptions C76_p32_hashes_test_iff.

(** C76: [test_bits_per_entry] of [BinaryFuseP32] (the documented two bits above the size of the
    modulus) passes whenever the construction succeeds. *)
Theorem C76_p32_bpe_test_iff : forall log dbg rnd seed xs, reasonable_log log -> length xs = SAMPLE_SIZE ->
  (p32_bpe_test log dbg (f64_estimates log) rnd seed xs = Ok tt <->
   exists f, from_slice dbg (f64_estimates log) rnd seed (p32_keys xs) (p32_data (length xs)) 1 1024 = Ok f).
Proof. exact p32_bpe_test_iff. Qed.
Print Assumptions C76_p32_bpe_test_iff.

(** C76: small runs: the hypotheses are met and the tests pass (or fail, for a key that is drawn
    twice); a key with four different words whose third and first slots differ modulo four. *)
Example C76_xorf_tests_example :
  init_test (xor_from 3 8 true) (xor_contains 8 true) [1; 2; 3; 4; 5; 6] = Ok tt /\
  init_test (xor_from 3 8 true) (xor_contains 8 true) [1; 2; 3; 4; 5; 1] = Panic /\
  init_test (bfuse_try_from 8 true (best 3 12) fill) (bfuse_contains 8 true) [1; 2; 3; 4; 5] = Ok tt /\
  proxy_test (fun x => x + 1) 3 8 true [1; 2; 3; 4; 5; 6] = Ok tt /\
  sane_estimates (est 3 12) (length [5; 7; 9; 11]) /\ p32_light false (est 3 12) seed0 [5; 7; 9; 11] /\
  p32_init_test false (est 3 12) rnd0 seed0 [5; 7; 9; 11] = Ok tt /\
  p32_hashes_test false (est 3 12) rnd0 seed0 [5; 7; 9; 11] = Ok tt /\
  p32_init_test true (est 3 12) rnd0 seed0 [5; 7; 9; 5] = Panic /\
  hash_eval true [1; 2; 3; 4] seed0 8 7 8 = Ok [3; 10; 22]%nat.
Proof. exact xorf_tests_example. Qed.
