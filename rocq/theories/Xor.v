(** * Xor: Xor8 / Xor16 / Xor32, bff-modp/src/prelude/xor.rs and
    bff-modp/src/xor{8,16,32}.rs. *)
From Verif Require Export Xorf Float64.
Local Open Scope Z_scope.

(** bff-modp/src/xor8.rs (same fields in xor16.rs, xor32.rs). *)
Record xorf := { xf_seed : Z; xf_block_length : nat; xf_fingerprints : list Z }.

(** xor.rs:21-28 [xor_h!]: position inside block [i]. *)
Definition xor_h (dbg : bool) (i block_length : nat) (hash : Z) : res nat :=
  reduce dbg (rotl64 hash (Z.of_nat i * 21) mod two32) block_length.

(** xor.rs:4-16 [HashSet::xor_from]. *)
Definition xor_hset (dbg : bool) (hash : Z) (block_length : nat) : res (list nat) :=
  mapM (fun i => xor_h dbg i block_length hash) (seq 0 3).

(** xor.rs:73-75: capacity and block length for [n] keys. *)
Definition xor_capacity (n : nat) : nat :=
  ((f64_to_usize (f64_mul f_1_23 (f64_of_usize n)) + 32) / 3 * 3)%nat.
Definition xor_block_length (n : nat) : nat := (xor_capacity n / 3)%nat.

(** Construction state: the three blocks [H], the three queues [Q] with their sizes, and
    [stack[0..stack_size]] (last entry first). *)
Record xstate := { x_H : list (list hset); x_Q : list queue; x_stack : list (Z * nat) }.

(** xor.rs:95-103: add every key. *)
Definition xor_add_key (dbg : bool) (bl : nat) (seed : Z) (H : list (list hset)) (key : Z)
  : res (list (list hset)) :=
  let hash := mix key seed in
  let* hs := xor_hset dbg hash bl in
  foldM (fun H b =>
           let* setindex := idx hs b in
           let* blk := idx H b in
           let* blk := hs_add dbg blk setindex hash in
           set H b blk) (seq 0 3) H.

(** xor.rs:106-112: initial queues. *)
Definition xor_init_queues (capacity bl : nat) (H : list (list hset)) : res (list queue) :=
  foldM (fun Q b =>
           let* blk := idx H b in
           let* q := idx Q b in
           let* q := foldM (fun q i => try_enqueue capacity blk i q) (seq 0 bl) q in
           set Q b q) (seq 0 3) [[]; []; []].

(** xor.rs:118-141: one iteration of [dequeue!] for block [b], the other blocks being
    [others]; [q] is what remains of the queue after the pop. The write [stack[..]]
    panics beyond [num_keys]. *)
Definition xor_pop (dbg : bool) (capacity bl num_keys b : nat) (others : list nat)
    (ki : Z * nat) (s : xstate) : res xstate :=
  let (hash, index) := ki in
  let* blk := idx (x_H s) b in
  let* (count, _) := idx blk index in
  if count =? 0 then Ok s
  else if (length (x_stack s) <? num_keys)%nat then
    foldM (fun s j =>
             let* i := xor_h dbg j bl hash in
             let* blk := idx (x_H s) j in
             let* blk := hs_sub dbg blk i hash in
             let* H := set (x_H s) j blk in
             let* q := idx (x_Q s) j in
             let* q := try_enqueue capacity blk i q in
             let* Q := set (x_Q s) j q in
             Ok {| x_H := H; x_Q := Q; x_stack := x_stack s |})
          others
          {| x_H := x_H s; x_Q := x_Q s;
             x_stack := (hash, (index + b * bl)%nat) :: x_stack s |}
  else Panic.

(** xor.rs:118-141: [while q_sizes[b] > 0]. Fuel bounds the number of iterations. *)
Fixpoint xor_drain (fuel : nat) (dbg : bool) (capacity bl num_keys b : nat)
    (others : list nat) (s : xstate) : res xstate :=
  let* q := idx (x_Q s) b in
  match q with
  | [] => Ok s
  | ki :: q =>
      match fuel with
      | O => Hang
      | S f =>
          let* Q := set (x_Q s) b q in
          let* s := xor_pop dbg capacity bl num_keys b others ki
                      {| x_H := x_H s; x_Q := Q; x_stack := x_stack s |} in
          xor_drain f dbg capacity bl num_keys b others s
      end
  end.

(** xor.rs:115-148: [while q_sizes.iter().sum() > 0]. *)
Fixpoint xor_peel (fuel inner : nat) (dbg : bool) (capacity bl num_keys : nat) (s : xstate)
  : res xstate :=
  if (list_sum (map (@length _) (x_Q s)) =? 0)%nat then Ok s
  else match fuel with
       | O => Hang
       | S f =>
           let* s := xor_drain inner dbg capacity bl num_keys 0 [1; 2]%nat s in
           let* s := xor_drain inner dbg capacity bl num_keys 1 [0; 2]%nat s in
           let* s := xor_drain inner dbg capacity bl num_keys 2 [0; 1]%nat s in
           xor_peel f inner dbg capacity bl num_keys s
       end.

(** xor.rs:95-148: one attempt with one seed, on freshly reset blocks. The fuel is an upper
    bound on the number of queue pops: every slot initially queued plus two per key. *)
Definition xor_attempt (dbg : bool) (keys : list Z) (seed : Z) : res (list (Z * nat)) :=
  let n := length keys in
  let capacity := xor_capacity n in
  let bl := xor_block_length n in
  let* H := foldM (xor_add_key dbg bl seed) keys (repeat (repeat (0, 0) capacity) 3) in
  let* Q := xor_init_queues capacity bl H in
  let fuel := (3 * bl + 2 * n + 1)%nat in
  let* s := xor_peel fuel fuel dbg capacity bl n {| x_H := H; x_Q := Q; x_stack := [] |} in
  Ok (x_stack s).

(** xor.rs:91-161: [loop]; [tries] bounds the number of iterations, and running out of it
    is reported as [Hang]. *)
Fixpoint xor_loop (tries : nat) (dbg : bool) (keys : list Z) (rng seed : Z)
  : res (Z * list (Z * nat)) :=
  match tries with
  | O => Hang
  | S k =>
      let* stack := xor_attempt dbg keys seed in
      if (length stack =? length keys)%nat then Ok (seed, stack)
      else let (rng', seed') := splitmix64 rng in xor_loop k dbg keys rng' seed'
  end.

(** xor.rs:166-171: assign one fingerprint. *)
Definition xor_assign_one (w : nat) (dbg : bool) (bl : nat) (B : list Z) (ki : Z * nat)
  : res (list Z) :=
  let (hash, index) := ki in
  let* h0 := xor_h dbg 0 bl hash in
  let* x0 := idx B h0 in
  let* h1 := xor_h dbg 1 bl hash in
  let* x1 := idx B (h1 + bl)%nat in
  let* h2 := xor_h dbg 2 bl hash in
  let* x2 := idx B (h2 + 2 * bl)%nat in
  set B index (Z.lxor (Z.lxor (Z.lxor (fingerprint w hash) x0) x1) x2).

(** xor.rs:54-180 [xor_from_impl], xor8.rs [From<&[u64]>]. *)
Definition xor_from (tries : nat) (w : nat) (dbg : bool) (keys : list Z) : res xorf :=
  if dbg && negb (all_distinct64 keys) then Panic
  else
  let capacity := xor_capacity (length keys) in
  let bl := xor_block_length (length keys) in
  let (rng, seed) := splitmix64 1 in
  let* (seed, stack) := xor_loop tries dbg keys rng seed in
  let* B := foldM (xor_assign_one w dbg bl) stack (repeat 0 capacity) in
  Ok {| xf_seed := seed; xf_block_length := bl; xf_fingerprints := B |}.

(** xor.rs:33-49 [xor_contains_impl]. *)
Definition xor_contains (w : nat) (dbg : bool) (f : xorf) (key : Z) : res bool :=
  let hash := mix key (xf_seed f) in
  let bl := xf_block_length f in
  let* hs := xor_hset dbg hash bl in
  let* h0 := idx hs 0 in
  let* h1 := idx hs 1 in
  let* h2 := idx hs 2 in
  let fp := fingerprint w hash in
  let* x0 := idx (xf_fingerprints f) h0 in
  let* x1 := idx (xf_fingerprints f) (h1 + bl)%nat in
  let* x2 := idx (xf_fingerprints f) (h2 + 2 * bl)%nat in
  Ok (fp =? Z.lxor (Z.lxor x0 x1) x2).
