(** Property theorems; each restates a lemma proved in Claims_attempts.v. *)
From Coq Require Import Permutation.
From Verif Require Import Base Spec SpecFilter SpecXorf SpecXor Hash Fuse3 Bfuse Xorf Fuse Claims_xorf Claims_fuse Claims_attempts.
Local Open Scope Z_scope.

(** C44: The constructors [BinaryFuse8/16/32::try_from] try exactly the first thousand seeds of the sequence: with distinct u64 keys and no overloaded slot they return the filter of the first of those that makes the keys peelable, and fail exactly when none of the thousand does. *)
Theorem C44_bfuse_thousand_seeds : forall w dbg fe rnd keys g probes,
  sane_estimates fe (length keys) -> geometry dbg fe (length keys) = Ok g ->
  (forall i, bf_probes dbg g (retry_seed i) (probes i)) ->
  Forall is_u64 keys -> NoDup keys ->
  (forall i j, Z.of_nat i < 1000 -> (load (probes i) keys j <= 63)%nat) ->
  (exists i f, Z.of_nat i < 1000 /\ bfuse_try_from w dbg fe rnd keys = Ok f /\
     bf_seed f = retry_seed i /\ peelable (probes i) keys /\
     forall j, (j < i)%nat -> ~ peelable (probes j) keys) \/
  (bfuse_try_from w dbg fe rnd keys = Err EFilterFail /\
     forall i, Z.of_nat i < 1000 -> ~ peelable (probes i) keys).
Proof. exact bfuse_thousand_seeds. Qed.
Print Assumptions C44_bfuse_thousand_seeds.

(** C47: [Fuse8/16/32::try_from] try exactly the first thousand seeds: with at least 90 distinct keys they return the filter of the first of those that makes the keys peelable, and fail exactly when none of the thousand does. *)
Theorem C47_fuse_thousand_seeds : forall w dbg rnd keys probes, Z.of_nat (length keys) < 2 ^ 32 ->
  (90 <= length keys)%nat -> NoDup keys ->
  (forall i, fuse_probes dbg (fuse_segment_length (length keys)) (retry_seed i) (probes i)) ->
  (exists i f, Z.of_nat i < 1000 /\ fuse_try_from w dbg rnd keys = Ok f /\ ff_seed f = retry_seed i /\
     peelable (probes i) keys /\ forall j, (j < i)%nat -> ~ peelable (probes j) keys) \/
  (fuse_try_from w dbg rnd keys = Err EFuseFail /\
     forall i, Z.of_nat i < 1000 -> ~ peelable (probes i) keys).
Proof. exact fuse_thousand_seeds. Qed.
Print Assumptions C47_fuse_thousand_seeds.

(** C44: The retries matter: these ten keys are peelable under none of the first thirteen seeds; the fourteenth is used. *)
Example C44_fourteenth_seed :
  (exists f, bfuse_try_from 8 true (best 2 0) (fun _ => 0) [1; 2; 3; 4; 5; 6; 7; 8; 9; 10] = Ok f /\ bf_seed f = retry_seed 13) /\
  bfuse_from_impl 13 8 true (best 2 0) (fun _ => 0) [1; 2; 3; 4; 5; 6; 7; 8; 9; 10] = Err EFilterFail.
Proof. exact fourteenth_seed. Qed.
