(** * Xorf: helpers shared by the u64-keyed filters of the bff-modp crate
    (Xor8/16/32, Fuse8/16/32, BinaryFuse8/16/32). *)
From Verif Require Export Base Hash.
Local Open Scope Z_scope.

(** bff-modp/src/splitmix64.rs:12-18 [splitmix64]: (new generator state, output). *)
Definition splitmix64 (rng : Z) : Z * Z :=
  let rng := wadd64 rng 0x9e3779b97f4a7c15 in
  let z := wmul64 (Z.lxor rng (Z.shiftr rng 30)) 0xbf58476d1ce4e5b9 in
  let z := wmul64 (Z.lxor z (Z.shiftr z 27)) 0x94d049bb133111eb in
  (rng, Z.lxor z (Z.shiftr z 31)).

(** bff-modp/src/prelude/mod.rs:67-71 [fingerprint!], followed at every use by
    [as $fpty]: the [w] low bits (w = 8, 16 or 32). *)
Definition fingerprint (w : nat) (hash : Z) : Z :=
  Z.lxor hash (Z.shiftr hash 32) mod 2 ^ Z.of_nat w.

(** mod.rs:76-80 [rotl64!] on a u64. *)
Definition rotl64 (n c : Z) : Z :=
  Z.lor (Z.shiftl n (Z.land c 63) mod two64) (Z.shiftr n (Z.land (- c) 63)).

(** mod.rs:85-89 [reduce!]: u64 product (checked in debug), upper half, [as usize]. *)
Definition reduce (dbg : bool) (hash : Z) (n : nat) : res nat :=
  let* v := chk dbg two64 (hash * Z.of_nat n) in Ok (Z.to_nat (Z.shiftr v 32)).

(** mod.rs:153-156 [all_distinct] (debug builds only). *)
Fixpoint all_distinct64 (keys : list Z) : bool :=
  match keys with
  | [] => true
  | k :: t => negb (existsb (Z.eqb k) t) && all_distinct64 t
  end.

(** One [HSet] of the construction table: (count, mask), mod.rs:28-33. *)
Definition hset : Type := (Z * Z)%type.

(** fuse.rs:108-111, xor.rs:98-102: add one hash to one set. *)
Definition hs_add (dbg : bool) (H : list hset) (i : nat) (hash : Z) : res (list hset) :=
  let* (count, mask) := idx H i in
  let* count := add32 dbg count 1 in
  set H i (count, Z.lxor mask hash).
(** fuse.rs:136-137, xor.rs:136-137: remove one hash from one set. *)
Definition hs_sub (dbg : bool) (H : list hset) (i : nat) (hash : Z) : res (list hset) :=
  let* (count, mask) := idx H i in
  let* count := sub32 dbg count 1 in
  set H i (count, Z.lxor mask hash).

(** A queue [Q] with its size: the entries below the size as a list, last one first.
    An entry is a [KeyIndex] (hash, index), mod.rs:21-26. *)
Definition queue : Type := list (Z * nat).
(** mod.rs:140-149 [try_enqueue!]; [capacity] is the length of the queue array. *)
Definition try_enqueue (capacity : nat) (H : list hset) (i : nat) (q : queue) : res queue :=
  let* (count, mask) := idx H i in
  if count =? 1 then
    if (length q <? capacity)%nat then Ok ((mask, i) :: q) else Panic
  else Ok q.
