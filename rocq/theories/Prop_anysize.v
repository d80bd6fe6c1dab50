(** Property theorems; each restates a lemma proved in Claims_anysize.v. *)
From Coq Require Import Permutation.
From Verif Require Import Base Hash Xorf Float64 Estimate Fuse3 Bfuse Xor Fuse SpecFilter SpecXorf SpecXor SpecEst Claims_estimate Tests XorfTests Claims_xorftests Claims_xor Claims_xorf Claims_fuse Claims_fusebig Claims_filter Claims_sizes Claims_anysize.
Local Open Scope Z_scope.

(** C78: no Fuse filter is ever built for the other numbers of keys: 1 to 89, 101 to 179, 203 to
    268, 305 to 358, 407 to 448, 509 to 537, 611 to 627 and 713 to 717. The table is too small for
    them, whatever the keys are. *)
Theorem C78_fuse_size_refuted : forall max_iter w dbg rnd keys f, Z.of_nat (length keys) < 2 ^ 32 ->
  fuse_from_impl max_iter w dbg rnd keys = Ok f ->
  fuse_size_possible (Z.of_nat (length keys)).
Proof. exact fuse_size_refuted. Qed.
Print Assumptions C78_fuse_size_refuted.

(** C78: for all the other numbers of keys there are distinct keys for which a Fuse filter is
    built, in both profiles, with every fingerprint width and random fill. *)
Theorem C78_fuse_size_built : forall n, Z.of_nat n < 2 ^ 32 -> fuse_size_possible (Z.of_nat n) ->
  exists keys, length keys = n /\ NoDup keys /\ Forall is_u64 keys /\
    forall w dbg rnd, exists f, fuse_try_from w dbg rnd keys = Ok f.
Proof. exact fuse_size_built. Qed.
Print Assumptions C78_fuse_size_built.

(** C78: for every number of keys (up to 3817000000, where the 32-bit sizes stay exact) there are
    distinct keys for which a BinaryFuse filter is built on the first attempt, in both profiles,
    with every fingerprint width, random fill and reasonable logarithm. *)
Theorem C78_bfuse_size_built : forall log n, reasonable_log log -> Z.of_nat n <= max_keys ->
  exists keys, length keys = n /\ NoDup keys /\ Forall is_u64 keys /\
    forall max_iter w dbg rnd, (0 < max_iter)%nat ->
      exists f, bfuse_from_impl max_iter w dbg (f64_estimates log) rnd keys = Ok f.
Proof. exact bfuse_size_built. Qed.
Print Assumptions C78_bfuse_size_built.

(** C78: for every number of keys below 2^32 there are distinct keys for which an Xor filter is
    built on the first attempt, in both profiles and with every fingerprint width. *)
Theorem C78_xor_size_built : forall n, Z.of_nat n < 2 ^ 32 ->
  exists keys, length keys = n /\ NoDup keys /\ Forall is_u64 keys /\
    forall w dbg, exists f, xor_from 1 w dbg keys = Ok f.
Proof. exact xor_size_built. Qed.
Print Assumptions C78_xor_size_built.

(** C78: the boundaries: 202 and 712 keys fit, 203 and 717 never do. *)
Example C78_fuse_size_example : fuse_size_possible 202 /\ fuse_size_possible 712 /\ fuse_size_possible 1000000 /\
  ~ fuse_size_possible 203 /\ ~ fuse_size_possible 717 /\
  (exists f, fuse_from_impl 1 8 false (fun _ => 0) (spread_keys 90) = Ok f) /\ length (spread_keys 90) = 90%nat.
Proof. exact fuse_size_example. Qed.

(** C76: the size tests do pass for some million keys, for each of the nine filters. *)
Example C76_bpe_tests_example :
  (exists keys, length keys = SAMPLE_SIZE /\ NoDup keys /\ forall w bound dbg, In (w, bound) xor_bounds ->
     bpe_test (xor_from 1 w dbg) (fun f => length (xf_fingerprints f)) w bound keys = Ok tt) /\
  (exists keys, length keys = SAMPLE_SIZE /\ NoDup keys /\ forall w bound dbg rnd, In (w, bound) fuse_bounds ->
     bpe_test (fuse_try_from w dbg rnd) (fun f => length (ff_fingerprints f)) w bound keys = Ok tt) /\
  (exists keys, length keys = SAMPLE_SIZE /\ NoDup keys /\ forall w bound dbg rnd, In (w, bound) bfuse_bounds ->
     bpe_test (bfuse_try_from w dbg (f64_estimates crude_log) rnd) bfuse_len w bound keys = Ok tt).
Proof. exact bpe_tests_example. Qed.

(** C77: filters of 2^20 keys exist in all three families, and compare as documented; filters of
    a thousand keys exist as well, and the Xor filter is the smaller one. *)
Example C77_family_sizes_example :
  (exists kx kf kb fx ff fb, length kx = Z.to_nat (2 ^ 20) /\ length kf = Z.to_nat (2 ^ 20) /\ length kb = Z.to_nat (2 ^ 20) /\
     xor_from 1 8 true kx = Ok fx /\ fuse_try_from 8 true (fun _ => 0) kf = Ok ff /\
     bfuse_try_from 8 true (f64_estimates crude_log) (fun _ => 0) kb = Ok fb /\
     (bfuse_len fb < length (xf_fingerprints fx) /\ length (ff_fingerprints ff) < length (xf_fingerprints fx) /\
      98 * length (ff_fingerprints ff) < 100 * bfuse_len fb < 102 * length (ff_fingerprints ff))%nat) /\
  (exists kx kf kb fx ff fb, length kx = Z.to_nat 1000 /\ length kf = Z.to_nat 1000 /\ length kb = Z.to_nat 1000 /\
     xor_from 1 8 true kx = Ok fx /\ fuse_try_from 8 true (fun _ => 0) kf = Ok ff /\
     bfuse_try_from 8 true (f64_estimates crude_log) (fun _ => 0) kb = Ok fb /\
     (length (xf_fingerprints fx) < bfuse_len fb /\ 6 * length (ff_fingerprints ff) < 5 * bfuse_len fb)%nat).
Proof. exact family_sizes_example. Qed.
