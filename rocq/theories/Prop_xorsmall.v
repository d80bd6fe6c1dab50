(** Property theorems; each restates a lemma proved in Claims_xorsmall.v. *)
From Coq Require Import Permutation.
From Verif Require Import Base Hash Xorf Float64 Xor SpecXorf SpecXor SpecRate Claims_xor Claims_anysize Claims_rate Claims_xorrate Claims_xorsmall.
Local Open Scope Z_scope.

(** C69: Xor filters of any fingerprint width up to 22 bits: of the 2^64 keys, the number that a
    built filter accepts differs from 2^64 / 2^width by at most
    (block_length - 1) * 1025 * 2^32, whatever the keys and the seed that succeeded. *)
Theorem C69_xor_accepted_keys : forall tries w dbg keys f dbg',
  Z.of_nat (length keys) < 2 ^ 32 -> (w <= 22)%nat -> xor_from tries w dbg keys = Ok f ->
  Z.abs (how_many (fun key => says_yes (xor_contains w dbg' f key)) (2 ^ 64) - 2 ^ (64 - Z.of_nat w)) <=
  (Z.of_nat (xf_block_length f) - 1) * 1025 * 2 ^ 32.
Proof. exact xor_accepted_keys. Qed.
Print Assumptions C69_xor_accepted_keys.

(** C69: Xor8, as documented: "a false positive rate of <0.4%", for up to 930 keys, whatever the
    set. (Refuted for large sets: xor_documented_rate_refuted.) *)
Theorem C69_xor8_documented_rate_small : forall tries dbg keys f dbg', Z.of_nat (length keys) <= 930 ->
  xor_from tries 8 dbg keys = Ok f ->
  1000 * false_positives (xor_contains 8 dbg' f) keys < 4 * (2 ^ 64 - Z.of_nat (length keys)).
Proof. exact xor8_documented_rate_small. Qed.
Print Assumptions C69_xor8_documented_rate_small.

(** C69: Xor16: "<0.002%", for up to 24 keys. *)
Theorem C69_xor16_documented_rate_small : forall tries dbg keys f dbg', Z.of_nat (length keys) <= 24 ->
  xor_from tries 16 dbg keys = Ok f ->
  100000 * false_positives (xor_contains 16 dbg' f) keys < 2 * (2 ^ 64 - Z.of_nat (length keys)).
Proof. exact xor16_documented_rate_small. Qed.
Print Assumptions C69_xor16_documented_rate_small.

(** C69: example: five keys for which the Xor8 construction succeeds at once. *)
Example C69_xor_small_example : exists f, xor_from 1 8 true [1; 2; 3; 4; 5] = Ok f /\
  1000 * false_positives (xor_contains 8 true f) [1; 2; 3; 4; 5] < 4 * (2 ^ 64 - 5).
Proof. exact xor_small_example. Qed.
