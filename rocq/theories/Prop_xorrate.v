(** Property theorems; each restates a lemma proved in Claims_xorrate.v. *)
From Coq Require Import Permutation.
From Verif Require Import Base Hash Xorf Float64 Xor SpecXorf SpecXor SpecRate Claims_xor Claims_anysize Claims_rate Claims_xorrate.
Local Open Scope Z_scope.

(** C69: Refuted: "Has a false positive rate of <0.4%" (Xor8) and "<0.002%" (Xor16). There are
    10229984 distinct keys for which the Xor filter is built on the first attempt, in both
    profiles and whatever the fingerprint width, and accepts more than 43% of the keys outside
    the set. *)
Theorem C69_xor_documented_rate_refuted : exists keys, length keys = Z.to_nat 10229984 /\ NoDup keys /\ Forall is_u64 keys /\
  forall w dbg, exists f, xor_from 1 w dbg keys = Ok f /\
    forall dbg', 43 * (2 ^ 64 - Z.of_nat (length keys)) < 100 * false_positives (xor_contains w dbg' f) keys.
Proof. exact xor_documented_rate_refuted. Qed.
Print Assumptions C69_xor_documented_rate_refuted.
