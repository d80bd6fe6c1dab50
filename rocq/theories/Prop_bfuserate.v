(** Property theorems; each restates a lemma proved in Claims_bfuserate.v. *)
From Coq Require Import Permutation.
From Verif Require Import Base Hash Fuse3 Xorf Bfuse Float64 Estimate SpecFilter SpecXorf SpecEst SpecRate Claims_estimate Claims_filter Claims_xorf Claims_rate Claims_sizes Claims_anysize Claims_xorrate Claims_bfuserate.
Local Open Scope Z_scope.

(** C69: Refuted: "Has a false positive rate of <0.4%" (BinaryFuse8) and "<0.002%"
    (BinaryFuse16). There are 119537056 distinct keys for which the BinaryFuse filter is built on
    the first attempt, in both profiles, whatever the fingerprint width and the initial fill, and
    accepts more than 3.7% of the keys outside the set. *)
Theorem C69_bfuse_documented_rate_refuted : forall log, reasonable_log log ->
  exists keys, length keys = Z.to_nat 119537056 /\ NoDup keys /\ Forall is_u64 keys /\
  forall max_iter w dbg rnd, (0 < max_iter)%nat ->
    exists f, bfuse_from_impl max_iter w dbg (f64_estimates log) rnd keys = Ok f /\
      forall dbg', 37 * (2 ^ 64 - Z.of_nat (length keys)) < 1000 * false_positives (bfuse_contains w dbg' f) keys.
Proof. exact bfuse_documented_rate_refuted. Qed.
Print Assumptions C69_bfuse_documented_rate_refuted.
