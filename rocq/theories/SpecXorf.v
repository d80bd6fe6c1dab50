(** * SpecXorf: vocabulary for the u64-keyed filter claims. *)
From Coq Require Import Permutation.
From Verif Require Import Base Hash Fuse3 Xorf SpecFilter.
Local Open Scope Z_scope.

(** The seeds a retrying constructor goes through: successive [splitmix64] outputs of a
    generator started in state [rng]; the filters start it in state 1. *)
Fixpoint seed_from (rng : Z) (i : nat) : Z :=
  match i with
  | O => snd (splitmix64 rng)
  | S j => seed_from (fst (splitmix64 rng)) j
  end.
Definition retry_seed (i : nat) : Z := seed_from 1 i.

(** [slots] lists, for every key, the three positions the binary fuse lookup probes under
    [seed] in a filter of geometry [g]. *)
Definition bf_probes (dbg : bool) (g : geom) (seed : Z) (slots : Z -> list nat) : Prop :=
  forall key, exists a b c,
    hash_of_hash dbg (mix key seed) (g_seglen g) (g_mask g) (g_scl g) = Ok (a, b, c) /\
    slots key = [Z.to_nat a; Z.to_nat b; Z.to_nat c].
