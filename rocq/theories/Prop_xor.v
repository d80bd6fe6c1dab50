(** Property theorems; each restates a lemma proved in Claims_xor.v. *)
From Coq Require Import Permutation.
From Verif Require Import Base Hash Xorf Float64 Xor Fuse SpecFilter SpecXorf SpecXor Claims_xor.
Local Open Scope Z_scope.

(** C45: every key given to a construction that returns is reported as contained, for every
    fingerprint width and in both build profiles (also when the filter is built in one
    profile and queried in the other). *)
Theorem C45_xor_no_false_negatives : forall w dbg keys f, Z.of_nat (length keys) < 2 ^ 32 ->
  xor_returns w dbg keys f ->
  forall dbg' key, In key keys -> xor_contains w dbg' f key = Ok true.
Proof. exact xor_no_false_negatives. Qed.
Print Assumptions C45_xor_no_false_negatives.

(** C45: with distinct keys the outcome after any number of attempts is determined: the
    filter uses the first seed of the sequence under which the keys are peelable, or the
    construction is still running because none of the seeds tried so far is. It never
    panics and never returns an error. *)
Theorem C45_xor_construct_iff : forall tries w dbg keys probes, Z.of_nat (length keys) < 2 ^ 32 -> NoDup keys ->
  (forall i, xor_probes dbg (xor_block_length (length keys)) (retry_seed i) (probes i)) ->
  (exists i f, (i < tries)%nat /\ xor_from tries w dbg keys = Ok f /\ xf_seed f = retry_seed i /\
     peelable (probes i) keys /\ forall j, (j < i)%nat -> ~ peelable (probes j) keys) \/
  (xor_from tries w dbg keys = Hang /\ forall i, (i < tries)%nat -> ~ peelable (probes i) keys).
Proof. exact xor_construct_iff. Qed.
Print Assumptions C45_xor_construct_iff.

(** C45: construction from distinct keys returns exactly when some u64 seed makes the keys
    peelable; otherwise it never returns. *)
Theorem C45_xor_terminates_iff : forall w dbg keys, Z.of_nat (length keys) < 2 ^ 32 -> NoDup keys ->
  ((exists f, xor_returns w dbg keys f) <->
   exists seed slots, is_u64 seed /\ xor_probes dbg (xor_block_length (length keys)) seed slots /\ peelable slots keys) /\
  (~ (exists f, xor_returns w dbg keys f) -> xor_never_returns w dbg keys).
Proof. exact xor_terminates_iff. Qed.
Print Assumptions C45_xor_terminates_iff.

(** C45: more attempts never change a result that was already obtained. *)
Theorem C45_xor_result_stable : forall w dbg keys f f', xor_returns w dbg keys f -> xor_returns w dbg keys f' -> f = f'.
Proof. exact xor_result_stable. Qed.
Print Assumptions C45_xor_result_stable.

(** C45: a single key is always stored by the very first attempt. *)
Theorem C45_xor_single_key : forall w dbg key, exists f, xor_from 1 w dbg [key] = Ok f /\ xf_seed f = retry_seed 0.
Proof. exact xor_single_key. Qed.
Print Assumptions C45_xor_single_key.

(** C45: *)
Example C45_xor_example : exists f,
  xor_from 3 8 true [1; 2; 3; 4; 5; 6] = Ok f /\ xor_from 3 8 false [1; 2; 3; 4; 5; 6] = Ok f /\
  NoDup [1; 2; 3; 4; 5; 6] /\ length (xf_fingerprints f) = 39%nat /\
  xor_contains 8 true f 3 = Ok true /\ xor_contains 8 true f 7 = Ok false.
Proof. exact xor_example. Qed.

(** C46: a repeated key makes a release-mode construction run for ever, and a debug-mode
    construction panic. *)
Theorem C46_xor_duplicates : forall w keys, Z.of_nat (length keys) < 2 ^ 32 -> ~ NoDup keys ->
  xor_never_returns w false keys /\ forall tries, xor_from tries w true keys = Panic.
Proof. exact xor_duplicates. Qed.
Print Assumptions C46_xor_duplicates.

(** C46: *)
Example C46_xor_duplicates_example : ~ NoDup [1; 2; 1] /\ xor_from 20 8 false [1; 2; 1] = Hang /\
  exists f, xor_from 20 8 false [1; 2; 3] = Ok f.
Proof. exact xor_duplicates_example. Qed.

(** C56: the number of fingerprints is a multiple of three, at most 1.23 n + 32 and at
    least 1.23 n + 29, for every key count n below 2^32 (the capacity is computed with
    rounded binary64 arithmetic). *)
Theorem C56_xor_size : forall w dbg keys f, Z.of_nat (length keys) < 2 ^ 32 -> xor_returns w dbg keys f ->
  let n := Z.of_nat (length keys) in let len := Z.of_nat (length (xf_fingerprints f)) in
  123 * n + 2900 <= 100 * len <= 123 * n + 3200 /\ len = 3 * Z.of_nat (xf_block_length f).
Proof. exact xor_size. Qed.
Print Assumptions C56_xor_size.

(** C56: with 1600 keys or more an XorN filter uses less than 1.25 N bits per key, which is
    the documented 10, 20 and 40 bits per entry of Xor8, Xor16 and Xor32. *)
Theorem C56_xor_bits_per_entry : forall (w : nat) dbg keys f, Z.of_nat (length keys) < 2 ^ 32 -> (1600 < length keys)%nat ->
  (0 < w)%nat -> xor_returns w dbg keys f ->
  (4 * (w * length (xf_fingerprints f)) < 5 * (w * length keys))%nat.
Proof. exact xor_bits_per_entry. Qed.
Print Assumptions C56_xor_bits_per_entry.

(** C56: the documented bound does not hold for small sets: with 1 to 1000 keys an Xor8
    filter always takes more than 10 bits per key. *)
Theorem C56_xor_small_sets_refuted : forall w dbg keys f, (1 <= length keys <= 1000)%nat -> (0 < w)%nat ->
  xor_returns w dbg keys f ->
  (5 * (w * length keys) < 4 * (w * length (xf_fingerprints f)))%nat.
Proof. exact xor_small_sets_refuted. Qed.
Print Assumptions C56_xor_small_sets_refuted.
