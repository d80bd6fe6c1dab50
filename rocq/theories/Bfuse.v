(** * Bfuse: BinaryFuse8 / BinaryFuse16 / BinaryFuse32,
    bff-modp/src/prelude/bfuse.rs and bff-modp/src/bfuse{8,16,32}.rs. *)
From Verif Require Export Fuse3 Xorf.
Local Open Scope Z_scope.

(** bff-modp/src/bfuse8.rs:58-65 (same fields in bfuse16.rs, bfuse32.rs). *)
Record bfuse := {
  bf_seed : Z;
  bf_segment_length : Z;
  bf_segment_length_mask : Z;
  bf_segment_count_length : Z;
  bf_fingerprints : list Z }.

(** bfuse.rs:129-248: at most [max_iter] attempts. A new seed is drawn only at the end of
    the loop body (line 243); the [continue] of line 179 keeps the seed and the buffers. *)
Fixpoint bf_attempts (max_iter : nat) (dbg : bool) (g : geom) (bb size : nat)
    (keys : list Z) (rng seed : Z) (st : fstate) : res (Z * list (Z * Z)) :=
  match max_iter with
  | O => Err EFilterFail
  | S k =>
      let* o := attempt dbg g bb size (map (fun key => mix key seed) keys) st in
      match o with
      | Done stack => Ok (seed, stack)
      | Skip st' => bf_attempts k dbg g bb size keys rng seed st'
      | Retry st' => let (rng', seed') := splitmix64 rng in
                     bf_attempts k dbg g bb size keys rng' seed' st'
      end
  end.

(** bfuse.rs:251-265: assign one fingerprint. *)
Definition bf_assign_one (w : nat) (dbg : bool) (g : geom) (fps : list Z) (hf : Z * Z)
  : res (list Z) :=
  let (hash, found) := hf in
  let xor2 := fingerprint w hash in
  let* (i1, i2, i3) := slots dbg g hash in
  let h012 := [i1; i2; i3; i1; i2; 0]%nat in
  let f := Z.to_nat found in
  let* s1 := idx h012 (f + 1)%nat in
  let* x1 := idx fps s1 in
  let* s2 := idx h012 (f + 2)%nat in
  let* x2 := idx fps s2 in
  let* s0 := idx h012 f in
  set fps s0 (Z.lxor (Z.lxor xor2 x1) x2).

(** bfuse.rs:59-276 [bfuse_from_impl] with fingerprints of [w] bits; [rnd] as in
    [Bfusep.bfusep_from_impl]. *)
Definition bfuse_from_impl (max_iter : nat) (w : nat) (dbg : bool) (fe : fest)
    (rnd : nat -> Z) (keys : list Z) : res bfuse :=
  if dbg && negb (all_distinct64 keys) then Panic
  else
  let size := length keys in
  let* g := geometry dbg fe size in
  let fingerprints := map rnd (seq 0 (g_arrlen g)) in
  let (rng, seed) := splitmix64 1 in
  let* bb := block_bits (g_segcount g) in
  let* (seed, stack) := bf_attempts max_iter dbg g bb size keys rng seed (fstate0 g size) in
  let* fingerprints := foldM (bf_assign_one w dbg g) stack fingerprints in
  Ok {| bf_seed := seed;
        bf_segment_length := g_seglen g;
        bf_segment_length_mask := g_mask g;
        bf_segment_count_length := g_scl g;
        bf_fingerprints := fingerprints |}.

(** bfuse8.rs:80-86, bfuse16.rs:80-86, bfuse32.rs:81-87 [try_from]: max iter 1_000. *)
Definition bfuse_try_from (w : nat) (dbg : bool) (fe : fest) (rnd : nat -> Z)
    (keys : list Z) : res bfuse :=
  bfuse_from_impl (Z.to_nat 1000) w dbg fe rnd keys.

(** bfuse.rs:281-300 [bfuse_contains_impl]. *)
Definition bfuse_contains (w : nat) (dbg : bool) (f : bfuse) (key : Z) : res bool :=
  let hash := mix key (bf_seed f) in
  let fp := fingerprint w hash in
  let* (h0, h1, h2) := hash_of_hash dbg hash (bf_segment_length f)
      (bf_segment_length_mask f) (bf_segment_count_length f) in
  let* x0 := idx (bf_fingerprints f) (Z.to_nat h0) in
  let* x1 := idx (bf_fingerprints f) (Z.to_nat h1) in
  let* x2 := idx (bf_fingerprints f) (Z.to_nat h2) in
  Ok (Z.lxor fp (Z.lxor (Z.lxor x0 x1) x2) =? 0).

(** bfuse8.rs:75-77 [len]. *)
Definition bfuse_len (f : bfuse) : nat := length (bf_fingerprints f).
