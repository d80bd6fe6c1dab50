(** Property theorems; each restates a lemma proved in Claims_fuserate.v. *)
From Coq Require Import Permutation.
From Verif Require Import Base Hash Xorf Float64 Fuse SpecFilter SpecXorf SpecRate Claims_fuse Claims_rate Claims_fuserate.
Local Open Scope Z_scope.

(** C69: Refuted: "Has a false positive rate of <0.4%" (Fuse8). There are 11751654 distinct keys
    for which the Fuse8 filter is built on the first attempt, in both profiles and whatever the
    initial fill, and accepts more than 0.9% of the keys outside the set. *)
Theorem C69_fuse8_documented_rate_refuted : exists keys, length keys = Z.to_nat 11751654 /\ NoDup keys /\ Forall is_u64 keys /\
  forall max_iter dbg rnd, (0 < max_iter)%nat ->
    exists f, fuse_from_impl max_iter 8 dbg rnd keys = Ok f /\
      forall dbg', 9 * (2 ^ 64 - Z.of_nat (length keys)) < 1000 * false_positives (fuse_contains 8 dbg' f) keys.
Proof. exact fuse8_documented_rate_refuted. Qed.
Print Assumptions C69_fuse8_documented_rate_refuted.

(** C69: Refuted: "Has a false positive rate of <0.002%" (Fuse16). There are 1468957 distinct keys
    for which the Fuse16 filter is built on the first attempt, in both profiles and whatever the
    initial fill, and accepts more than 0.0035% of the keys outside the set. *)
Theorem C69_fuse16_documented_rate_refuted : exists keys, length keys = Z.to_nat 1468957 /\ NoDup keys /\ Forall is_u64 keys /\
  forall max_iter dbg rnd, (0 < max_iter)%nat ->
    exists f, fuse_from_impl max_iter 16 dbg rnd keys = Ok f /\
      forall dbg', 35 * (2 ^ 64 - Z.of_nat (length keys)) < 1000000 * false_positives (fuse_contains 16 dbg' f) keys.
Proof. exact fuse16_documented_rate_refuted. Qed.
Print Assumptions C69_fuse16_documented_rate_refuted.
