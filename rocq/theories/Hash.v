(** * Hash: key hashing of the bff-modp crate. *)
From Verif Require Export Base.
Local Open Scope Z_scope.

(** bff-modp/src/murmur3.rs:30-37 [mix64]. *)
Definition mix64 (k : Z) : Z :=
  let k := Z.lxor k (Z.shiftr k 33) in
  let k := wmul64 k 0xff51afd7ed558ccd in
  let k := Z.lxor k (Z.shiftr k 33) in
  let k := wmul64 k 0xc4ceb9fe1a85ec53 in
  Z.lxor k (Z.shiftr k 33).

(** bff-modp/src/prelude/mod.rs:39-41 [mix]. *)
Definition mix (key seed : Z) : Z := mix64 (wadd64 key seed).

(** bff-modp/src/prelude/mod.rs:45-62 [mix256]: the four little-endian seed words. *)
Definition seed_words (seed : list Z) : list Z :=
  map (fun i => of_le_bytes (firstn 8 (skipn (8 * i) seed))) (seq 0 4).
(** mod.rs:54-60: the closure applied to each key word. *)
Definition mix_word (seeds : list Z) (k : Z) : Z :=
  fold_left (fun mixed s => mix64 (wadd64 mixed (mix k s))) seeds 0.
(** mod.rs:45-62; the seed is a [u8; 32] at every call site, so the length panic of
    line 47 is unreachable and not modelled. *)
Definition mix256 (key : list Z) (seed : list Z) : Z :=
  fold_left wadd64 (map (mix_word (seed_words seed)) key) 0.

(** bff-modp/src/prelude/bfuse.rs:32-45 [hash_of_hash]. *)
Definition hash_of_hash (dbg : bool) (hash segment_length segment_length_mask
    segment_count_length : Z) : res (Z * Z * Z) :=
  let hi := Z.shiftr (hash * segment_count_length) 64 mod two64 in
  let h0 := hi mod two32 in
  let* h1 := add32 dbg h0 segment_length in
  let* h2 := add32 dbg h1 segment_length in
  let h1 := Z.lxor h1 (Z.land (Z.shiftr hash 18 mod two32) segment_length_mask) in
  let h2 := Z.lxor h2 (Z.land (hash mod two32) segment_length_mask) in
  Ok (h0, h1, h2).

(** bff-modp/src/prelude/bfuse.rs:48-54 [mod3]. *)
Definition mod3 (x : Z) : Z := if 2 <? x then x - 3 else x.
