(** * Fuse: Fuse8 / Fuse16 / Fuse32, bff-modp/src/prelude/fuse.rs and
    bff-modp/src/fuse{8,16,32}.rs. *)
From Verif Require Export Xorf Float64.
Local Open Scope Z_scope.

(** bff-modp/src/fuse8.rs (same fields in fuse16.rs, fuse32.rs). *)
Record fusef := { ff_seed : Z; ff_segment_length : nat; ff_fingerprints : list Z }.

(** fuse.rs:3-7. *)
Definition H3 : Z := 0xBF58476D1CE4E5B9.
Definition SEGMENT_COUNT : nat := 100.
Definition SLOTS : nat := 102.
Definition FUSE_OVERHEAD : f64 := f64_div f_1_0 f_0_879.

(** fuse.rs:24-41 [H012::from]. *)
Definition fuse_hset (dbg : bool) (hash : Z) (segment_length : nat) : res (nat * nat * nat) :=
  let r0 := hash mod two32 in
  let r1 := rotl64 hash 21 mod two32 in
  let r2 := rotl64 hash 42 mod two32 in
  let r3 := Z.shiftr (wmul64 H3 hash) 32 mod two32 in
  let* seg := reduce dbg r0 SEGMENT_COUNT in
  let* a := reduce dbg r1 segment_length in
  let* b := reduce dbg r2 segment_length in
  let* c := reduce dbg r3 segment_length in
  Ok (seg * segment_length + a, (seg + 1) * segment_length + b,
      (seg + 2) * segment_length + c)%nat.

(** fuse.rs:89-92: capacity and segment length for [n] keys. *)
Definition fuse_capacity (n : nat) : nat :=
  (f64_to_usize (f64_mul FUSE_OVERHEAD (f64_of_usize n)) / SLOTS * SLOTS)%nat.
Definition fuse_segment_length (n : nat) : nat := (fuse_capacity n / SLOTS)%nat.

(** fuse.rs:105-112: add one key. *)
Definition fuse_add_key (dbg : bool) (sl : nat) (seed : Z) (H : list hset) (key : Z)
  : res (list hset) :=
  let hash := mix key seed in
  let* (a, b, c) := fuse_hset dbg hash sl in
  foldM (fun H i => hs_add dbg H i hash) [a; b; c] H.

(** Construction state: [H], [Q] with its size, and the used part of [stack]. *)
Record ustate := { u_H : list hset; u_Q : queue; u_stack : list (Z * nat) }.

(** fuse.rs:124-140: one iteration of the peeling loop (the popped entry is given). *)
Definition fuse_pop (dbg : bool) (capacity sl num_keys : nat) (ki : Z * nat) (s : ustate)
  : res ustate :=
  let (hash, index) := ki in
  let* (count, _) := idx (u_H s) index in
  if count =? 0 then Ok s
  else
    let* (a, b, c) := fuse_hset dbg hash sl in
    if (length (u_stack s) <? num_keys)%nat then
      foldM (fun s i =>
               let* H := hs_sub dbg (u_H s) i hash in
               let* q := try_enqueue capacity H i (u_Q s) in
               Ok {| u_H := H; u_Q := q; u_stack := u_stack s |})
            [a; b; c]
            {| u_H := u_H s; u_Q := u_Q s; u_stack := ki :: u_stack s |}
    else Panic.

(** fuse.rs:122-141: [while q_size > 0]. Fuel bounds the number of iterations. *)
Fixpoint fuse_peel (fuel : nat) (dbg : bool) (capacity sl num_keys : nat) (s : ustate)
  : res ustate :=
  match u_Q s with
  | [] => Ok s
  | ki :: q =>
      match fuel with
      | O => Hang
      | S f =>
          let* s := fuse_pop dbg capacity sl num_keys ki
                      {| u_H := u_H s; u_Q := q; u_stack := u_stack s |} in
          fuse_peel f dbg capacity sl num_keys s
      end
  end.

(** fuse.rs:104-141: one attempt with one seed on a freshly reset table. The fuel bounds
    the number of queue pops: every slot initially queued plus three per key. *)
Definition fuse_attempt (dbg : bool) (keys : list Z) (seed : Z) : res (list (Z * nat)) :=
  let n := length keys in
  let capacity := fuse_capacity n in
  let sl := fuse_segment_length n in
  let* H := foldM (fuse_add_key dbg sl seed) keys (repeat (0, 0) capacity) in
  let* q := foldM (fun q i => try_enqueue capacity H i q) (seq 0 capacity) [] in
  let* s := fuse_peel (capacity + 3 * n + 1) dbg capacity sl n
              {| u_H := H; u_Q := q; u_stack := [] |} in
  Ok (u_stack s).

(** fuse.rs:100-157: at most [max_iter] attempts. *)
Fixpoint fuse_loop (max_iter : nat) (dbg : bool) (keys : list Z) (rng seed : Z)
  : res (Z * list (Z * nat)) :=
  match max_iter with
  | O => Err EFuseFail
  | S k =>
      let* stack := fuse_attempt dbg keys seed in
      if (length stack =? length keys)%nat then Ok (seed, stack)
      else let (rng', seed') := splitmix64 rng in fuse_loop k dbg keys rng' seed'
  end.

(** fuse.rs:162-171: assign one fingerprint. *)
Definition fuse_assign_one (w : nat) (dbg : bool) (sl : nat) (B : list Z) (ki : Z * nat)
  : res (list Z) :=
  let (hash, index) := ki in
  let* (h0, h1, h2) := fuse_hset dbg hash sl in
  let* v :=
    (if (index =? h0)%nat then
       let* x := idx B h1 in let* y := idx B h2 in Ok (Z.lxor x y)
     else if (index =? h1)%nat then
       let* x := idx B h0 in let* y := idx B h2 in Ok (Z.lxor x y)
     else if (index =? h2)%nat then
       let* x := idx B h0 in let* y := idx B h1 in Ok (Z.lxor x y)
     else Panic) in
  set B index (Z.lxor (fingerprint w hash) v).

(** fuse.rs:68-180 [fuse_from_impl]; [rnd i] is the i-th random fingerprint of
    [make_fp_block]. *)
Definition fuse_from_impl (max_iter : nat) (w : nat) (dbg : bool) (rnd : nat -> Z)
    (keys : list Z) : res fusef :=
  if dbg && negb (all_distinct64 keys) then Panic
  else
  let capacity := fuse_capacity (length keys) in
  let sl := fuse_segment_length (length keys) in
  let (rng, seed) := splitmix64 1 in
  let* (seed, stack) := fuse_loop max_iter dbg keys rng seed in
  let* B := foldM (fuse_assign_one w dbg sl) stack (map rnd (seq 0 capacity)) in
  Ok {| ff_seed := seed; ff_segment_length := sl; ff_fingerprints := B |}.

(** fuse8.rs:83-89 [try_from]: max iter 1_000. *)
Definition fuse_try_from (w : nat) (dbg : bool) (rnd : nat -> Z) (keys : list Z) : res fusef :=
  fuse_from_impl (Z.to_nat 1000) w dbg rnd keys.

(** fuse.rs:47-63 [fuse_contains_impl]. *)
Definition fuse_contains (w : nat) (dbg : bool) (f : fusef) (key : Z) : res bool :=
  let hash := mix key (ff_seed f) in
  let* (h0, h1, h2) := fuse_hset dbg hash (ff_segment_length f) in
  let fp := fingerprint w hash in
  let* x0 := idx (ff_fingerprints f) h0 in
  let* x1 := idx (ff_fingerprints f) h1 in
  let* x2 := idx (ff_fingerprints f) h2 in
  Ok (fp =? Z.lxor (Z.lxor x0 x1) x2).
