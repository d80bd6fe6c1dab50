(** Property theorems; each restates a lemma proved in Claims_fusebig.v. *)
From Coq Require Import Permutation.
From Verif Require Import Base Hash Xorf Float64 Fuse SpecXorf Claims_fuse Claims_fusebig.
Local Open Scope Z_scope.

(** C56: *)
Example C56_fuse_oversize_example : exists f,
  fuse_try_from 8 false (fun i => 0) (packed_keys 3676) = Ok f /\
  length (packed_keys 3676) = Z.to_nat 3676 /\
  9101 * 3676 < 1000 * (8 * Z.of_nat (length (ff_fingerprints f))).
Proof. exact fuse_oversize_example. Qed.
