(** * SpecFilter: vocabulary for the filter claims. Nothing here refers to how a filter is
    built: only to which slots [hash_eval] reports for a key. *)
From Coq Require Import Permutation.
From Verif Require Import Base Bfusep.
Local Open Scope Z_scope.

(** [slots] is what the public function [BinaryFuseP32::hash_eval] returns for every key,
    for a given seed and filter geometry. *)
Definition evaluates (dbg : bool) (seed : list Z) (seglen mask scl : Z)
    (slots : list Z -> list nat) : Prop :=
  forall key, hash_eval dbg key seed seglen mask scl = Ok (slots key).

(** Number of keys (with multiplicity) that use slot [j]. *)
Definition load {K} (slots : K -> list nat) (ks : list K) (j : nat) : nat :=
  length (filter (fun k => if in_dec Nat.eq_dec j (slots k) then true else false) ks).

(** A key collection is peelable when its keys can be removed one at a time, each removed
    key having a slot that none of the keys still present uses. *)
Inductive peelable {K} (slots : K -> list nat) : list K -> Prop :=
| peelable_nil : peelable slots []
| peelable_take k ks ks' j :
    Permutation ks (k :: ks') -> In j (slots k) -> (forall k', In k' ks' -> ~ In j (slots k')) ->
    peelable slots ks' -> peelable slots ks.

(** The key at position [i] is the last one with its hash. *)
Definition last_with_hash (seed : list Z) (keys : list (list Z)) (i : nat) (key : list Z) : Prop :=
  nth_error keys i = Some key /\
  forall j key', (i < j)%nat -> nth_error keys j = Some key' -> mix256 key' seed <> mix256 key seed.

(** What is assumed of the two floating-point size estimates (computed with [f64::ln] in
    the code): for [size] keys the segment-length exponent is between 2 and 31 and the
    capacity leaves room for the rounding up to whole segments in 32 bits. *)
Definition sane_estimates (fe : fest) (size : nat) : Prop :=
  (Z.of_nat size mod two32 <> 0 -> 2 <= fe_exp fe size < 32) /\
  ((1 < size)%nat -> 0 <= fe_cap fe size /\ fe_cap fe size + 3 * 262144 < two32).
