(** * SpecXor: vocabulary for the Xor and Fuse claims. *)
From Verif Require Import Base Hash Xorf Xor Fuse.
Local Open Scope Z_scope.

(** [slots] lists, for every key, the three positions an Xor lookup probes under [seed] in
    a filter whose blocks have length [bl]. *)
Definition xor_probes (dbg : bool) (bl : nat) (seed : Z) (slots : Z -> list nat) : Prop :=
  forall key, exists a b c,
    xor_hset dbg (mix key seed) bl = Ok [a; b; c] /\
    slots key = [a; b + bl; c + 2 * bl]%nat.

(** The same for a Fuse lookup in a filter with segments of length [sl]. *)
Definition fuse_probes (dbg : bool) (sl : nat) (seed : Z) (slots : Z -> list nat) : Prop :=
  forall key, exists a b c,
    fuse_hset dbg (mix key seed) sl = Ok (a, b, c) /\ slots key = [a; b; c].

(** [Xor::from] retries without a bound: it returns [f] when some number of attempts is
    enough, and never returns when no number of attempts is. *)
Definition xor_returns (w : nat) (dbg : bool) (keys : list Z) (f : xorf) : Prop :=
  exists tries, xor_from tries w dbg keys = Ok f.
Definition xor_never_returns (w : nat) (dbg : bool) (keys : list Z) : Prop :=
  forall tries, xor_from tries w dbg keys = Hang.
