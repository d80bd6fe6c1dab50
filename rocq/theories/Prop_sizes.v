(** Property theorems; each restates a lemma proved in Claims_sizes.v. *)
From Coq Require Import Permutation.
From Verif Require Import Base Hash Xorf Float64 Estimate Fuse3 Bfusep Bfuse Xor Fuse SpecFilter SpecXorf SpecXor SpecEst Claims_xor Claims_fuse Claims_filter Claims_estimate Claims_sizes.
Local Open Scope Z_scope.

(** C77: refuted: "an XorN filter is larger than a BinaryFuseN filter" is false of every set of
    128 to 8191 keys: the BinaryFuse filter always has more fingerprints. *)
Theorem C77_xor_larger_refuted : forall log mi w dbg rnd keys f dbg' keys' f', reasonable_log log ->
  128 <= Z.of_nat (length keys) < 8192 -> length keys' = length keys ->
  xor_returns w dbg keys f -> bfuse_from_impl mi w dbg' (f64_estimates log) rnd keys' = Ok f' ->
  (length (xf_fingerprints f) < bfuse_len f')%nat.
Proof. exact xor_larger_refuted. Qed.
Print Assumptions C77_xor_larger_refuted.

(** C77: from 2^17 keys on it is true: an XorN filter always has more fingerprints than a
    BinaryFuseN filter of as many keys... *)
Theorem C77_xor_larger : forall log mi w dbg rnd keys f dbg' keys' f', reasonable_log log ->
  2 ^ 17 <= Z.of_nat (length keys) <= max_keys -> length keys' = length keys ->
  xor_returns w dbg keys f -> bfuse_from_impl mi w dbg' (f64_estimates log) rnd keys' = Ok f' ->
  (bfuse_len f' < length (xf_fingerprints f))%nat.
Proof. exact xor_larger. Qed.
Print Assumptions C77_xor_larger.

(** C77: ... and, for every number of keys for which a Fuse filter can be built (90 or more),
    more than a FuseN filter. *)
Theorem C77_xor_larger_than_fuse : forall mi w dbg rnd keys f dbg' keys' f', Z.of_nat (length keys) < 2 ^ 32 ->
  (90 <= length keys)%nat -> length keys' = length keys ->
  xor_returns w dbg keys f -> fuse_from_impl mi w dbg' rnd keys' = Ok f' ->
  (length (ff_fingerprints f') < length (xf_fingerprints f))%nat.
Proof. exact xor_larger_than_fuse. Qed.
Print Assumptions C77_xor_larger_than_fuse.

(** C77: "a BinaryFuseN and FuseN filter are roughly equivalent in size": from 2^20 keys on they
    differ by less than two per cent; below 1024 keys the BinaryFuse filter is more than one
    fifth larger. *)
Theorem C77_bfuse_fuse_equivalent : forall log mi mi' w dbg rnd keys f dbg' rnd' keys' f', reasonable_log log ->
  (90 <= length keys)%nat -> Z.of_nat (length keys) <= max_keys -> length keys' = length keys ->
  fuse_from_impl mi w dbg rnd keys = Ok f -> bfuse_from_impl mi' w dbg' (f64_estimates log) rnd' keys' = Ok f' ->
  (2 ^ 20 <= Z.of_nat (length keys) ->
    (98 * length (ff_fingerprints f) < 100 * bfuse_len f' < 102 * length (ff_fingerprints f))%nat) /\
  (Z.of_nat (length keys) < 1024 -> (6 * length (ff_fingerprints f) < 5 * bfuse_len f')%nat).
Proof. exact bfuse_fuse_equivalent. Qed.
Print Assumptions C77_bfuse_fuse_equivalent.
