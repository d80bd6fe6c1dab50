(** * Fuse3: the construction core shared by the modular binary fuse filter
    (bff-modp/src/prelude/bfusep.rs, macro [bfusep_from_impl]) and the plain binary fuse
    filters (bff-modp/src/prelude/bfuse.rs, macro [bfuse_from_impl]). The two macros
    contain the same statements for everything in this file; line numbers are given for
    bfusep.rs first, then bfuse.rs. *)
From Verif Require Export Base Hash.
Local Open Scope Z_scope.

(** The two floating-point computations, as arguments of the model:
    [fe_exp n] = [floor(log(n)/log(3.33) + 2.25) as u32]  (bfuse.rs:13) and
    [fe_cap n] = [round(n as f64 * size_factor(3, n)) as u32]  (bfusep.rs:32-34,
    bfuse.rs:83-85 with bfuse.rs:20-29). *)
Record fest := { fe_exp : nat -> Z; fe_cap : nat -> Z }.

(** bfuse.rs:7-17 [segment_length(3, size as u32)]; [1 << e] with e >= 32 panics in
    debug and masks the shift amount in release. *)
Definition segment_length (dbg : bool) (fe : fest) (size : nat) : res Z :=
  if Z.of_nat size mod two32 =? 0 then Ok 4
  else let e := fe_exp fe size in
       if e <? 32 then Ok (2 ^ e) else if dbg then Panic else Ok (2 ^ (e mod 32)).

Record geom := { g_seglen : Z; g_mask : Z; g_scl : Z; g_segcount : Z; g_arrlen : nat }.

(** bfusep.rs:28-50, bfuse.rs:79-101: sizes of the filter. *)
Definition geometry (dbg : bool) (fe : fest) (size : nat) : res geom :=
  let arity := 3 in
  let* sl0 := segment_length dbg fe size in
  let sl := Z.min sl0 262144 in
  let* mask := sub32 dbg sl 1 in
  let capacity := if (1 <? size)%nat then fe_cap fe size else 0 in
  let* t := add32 dbg capacity sl in
  let* t := sub32 dbg t 1 in
  let* init_segment_count := divz t sl in
  let* array_len := mul32 dbg init_segment_count sl in
  let* u := add32 dbg array_len sl in
  let* u := sub32 dbg u 1 in
  let* proposed := divz u sl in
  let* segment_count :=
    (if proposed <? arity then Ok 1 else sub32 dbg proposed (arity - 1)) in
  let* v := add32 dbg segment_count arity in
  let* v := sub32 dbg v 1 in
  let* array_len := mul32 dbg v sl in
  let* scl := mul32 dbg segment_count sl in
  Ok {| g_seglen := sl; g_mask := mask; g_scl := scl; g_segcount := segment_count;
        g_arrlen := Z.to_nat array_len |}.

(** bfusep.rs:64-70, bfuse.rs:116-122: least b >= 1 with 2^b >= segment_count.
    Fuel 31 covers every u32 segment count up to 2^31. *)
Fixpoint block_bits_from (fuel : nat) (b : nat) (segment_count : Z) : res nat :=
  if 2 ^ Z.of_nat b <? segment_count then
    match fuel with O => Hang | S f => block_bits_from f (S b) segment_count end
  else Ok b.
Definition block_bits (segment_count : Z) : res nat := block_bits_from 31 1 segment_count.

(** bfusep.rs:78-80, bfuse.rs:130-132: initial bucket positions. *)
Definition start_positions (bb size : nat) : list nat :=
  map (fun i => (i * size / 2 ^ bb)%nat) (seq 0 (2 ^ bb)).

(** bfusep.rs:84-87, bfuse.rs:136-139: probe for a bucket whose next slot is 0.
    The loop changes nothing but [segment_index], which cycles through the 2^bb buckets;
    2^bb occupied slots in a row therefore mean it never ends ([Hang]). *)
Fixpoint probe (fuel : nat) (bb : nat) (order : list Z) (sp : list nat) (seg : nat) : res nat :=
  match fuel with
  | O => Hang
  | S f =>
      let* p := idx sp seg in
      let* v := idx order p in
      if v =? 0 then Ok seg else probe f bb order sp ((seg + 1) mod 2 ^ bb)%nat
  end.

(** bfusep.rs:82-90 (without the hash map), bfuse.rs:134-141: place one hash. *)
Definition place (bb : nat) (st : list Z * list nat) (hash : Z) : res (list Z * list nat) :=
  let (order, sp) := st in
  let seg0 := Z.to_nat (Z.shiftr hash (64 - Z.of_nat bb)) in
  let* seg := probe (2 ^ bb)%nat bb order sp seg0 in
  let* p := idx sp seg in
  let* order' := set order p hash in
  let* sp' := set sp seg (p + 1)%nat in
  Ok (order', sp').

Definition place_all (bb size : nat) (hashes : list Z) (order : list Z) : res (list Z) :=
  let* (order', _) := foldM (place bb) hashes (order, start_positions bb size) in
  Ok order'.

(** The table pair ([t2count], [t2hash]). *)
Definition tables : Type := (list Z * list Z)%type.

(** bfusep.rs:99-107, bfuse.rs:150-158: count one key at one slot. [pos] is 0, 1 or 2
    ([^= 0] is the NOOP of line 100). *)
Definition bump (dbg : bool) (pos hash : Z) (i : nat) (t : tables) : res tables :=
  let (c, h) := t in
  let* v := idx c i in
  let* v' := add8 dbg v 4 in
  let* c' := set c i (Z.lxor v' pos) in
  let* w := idx h i in
  let* h' := set h i (Z.lxor w hash) in
  Ok (c', h').
(** bfusep.rs:114-122 and 163-165, 172-174: remove one key at one slot. *)
Definition unbump (dbg : bool) (pos hash : Z) (i : nat) (t : tables) : res tables :=
  let (c, h) := t in
  let* v := idx c i in
  let* v' := sub8 dbg v 4 in
  let* c' := set c i (Z.lxor v' pos) in
  let* w := idx h i in
  let* h' := set h i (Z.lxor w hash) in
  Ok (c', h').

Definition slots (dbg : bool) (g : geom) (hash : Z) : res (nat * nat * nat) :=
  let* (a, b, c) := hash_of_hash dbg hash (g_seglen g) (g_mask g) (g_scl g) in
  Ok (Z.to_nat a, Z.to_nat b, Z.to_nat c).

(** bfusep.rs:96-125, bfuse.rs:147-176: body of the counting loop. State:
    tables, number of duplicates, [error] flag (overwritten on every iteration). *)
Definition count_one (dbg : bool) (g : geom) (st : tables * nat * bool) (hash : Z)
  : res (tables * nat * bool) :=
  let '(t, duplicates, _) := st in
  let* (i1, i2, i3) := slots dbg g hash in
  let* t := bump dbg 0 hash i1 t in
  let* t := bump dbg 1 hash i2 t in
  let* t := bump dbg 2 hash i3 t in
  let* h1 := idx (snd t) i1 in
  let* h2 := idx (snd t) i2 in
  let* h3 := idx (snd t) i3 in
  let* c1 := idx (fst t) i1 in
  let* c2 := idx (fst t) i2 in
  let* c3 := idx (fst t) i3 in
  let* (t, duplicates) :=
    (if Z.land (Z.land h1 h2) h3 =? 0 then
       if ((h1 =? 0) && (c1 =? 8)) || ((h2 =? 0) && (c2 =? 8)) || ((h3 =? 0) && (c3 =? 8)) then
         let* t := unbump dbg 0 hash i1 t in
         let* t := unbump dbg 1 hash i2 t in
         let* t := unbump dbg 2 hash i3 t in
         Ok (t, S duplicates)
       else Ok (t, duplicates)
     else Ok (t, duplicates)) in
  let* c1 := idx (fst t) i1 in
  let* c2 := idx (fst t) i2 in
  let* c3 := idx (fst t) i3 in
  Ok (t, duplicates, (c1 <? 4) || (c2 <? 4) || (c3 <? 4)).

(** bfusep.rs:133-139, bfuse.rs:184-190: initial queue of slots with one key.
    Simplification used for [alone]/[qsize] here and in [peel]: the array prefix
    [alone[0..qsize]] is a list with the top of the queue first; entries at or beyond
    [qsize] are never read. The write [alone[qsize] = i] still panics when
    [qsize >= capacity]. *)
Definition enqueue_if (capacity : nat) (cond : bool) (i : nat) (q : list nat) : res (list nat) :=
  if (length q <? capacity)%nat then Ok (if cond then i :: q else q) else Panic.
Definition init_queue (capacity : nat) (counts : list Z) : res (list nat) :=
  foldM (fun q i => let* c := idx counts i in
                    enqueue_if capacity (Z.shiftr c 2 =? 1) i q)
        (seq 0 capacity) [].

(** bfusep.rs:141-176, bfuse.rs:192-227: peeling. Simplification: [reverse_order] and
    [reverse_h] are written only at [stack_size] and read only below it after the loop,
    so the pair is a stack (list, last peeled first); the write panics when
    [stack_size >= size] (length of [reverse_h]). [h012[0]] and [h012[5]] are never
    written in this loop and [h012[0]] never read. *)
Definition peel_step (dbg : bool) (g : geom) (size : nat)
    (st : list nat * list (Z * Z) * tables) : res (list nat * list (Z * Z) * tables) :=
  let '(q, stack, t) := st in
  match q with
  | [] => Ok st
  | index :: q =>
      let* c := idx (fst t) index in
      if Z.shiftr c 2 =? 1 then
        let* hash := idx (snd t) index in
        let found := Z.land c 3 in
        if (length stack <? size)%nat then
          let stack := (hash, found) :: stack in
          let* (i1, i2, i3) := slots dbg g hash in
          let h012 := [0; i2; i3; i1; i2; 0]%nat in
          let* o1 := idx h012 (Z.to_nat (found + 1)) in
          let* c1 := idx (fst t) o1 in
          let* q := enqueue_if (g_arrlen g) (Z.shiftr c1 2 =? 2) o1 q in
          let* t := unbump dbg (mod3 (found + 1)) hash o1 t in
          let* o2 := idx h012 (Z.to_nat (found + 2)) in
          let* c2 := idx (fst t) o2 in
          let* q := enqueue_if (g_arrlen g) (Z.shiftr c2 2 =? 2) o2 q in
          let* t := unbump dbg (mod3 (found + 2)) hash o2 t in
          Ok (q, stack, t)
        else Panic
      else Ok (q, stack, t)
  end.
(** Fuel: each iteration pops one entry; entries are the initial ones plus two per stack
    push, and the stack holds at most [size] entries. *)
Fixpoint peel (fuel : nat) (dbg : bool) (g : geom) (size : nat)
    (st : list nat * list (Z * Z) * tables) : res (list nat * list (Z * Z) * tables) :=
  match fst (fst st) with
  | [] => Ok st
  | _ => match fuel with
         | O => Hang
         | S f => let* st' := peel_step dbg g size st in peel f dbg g size st'
         end
  end.

(** State that survives from one attempt to the next: [reverse_order], tables. *)
Record fstate := { f_order : list Z; f_tables : tables }.
Definition fstate0 (g : geom) (size : nat) : fstate :=
  {| f_order := repeat 0 size ++ [1];
     f_tables := (repeat 0 (g_arrlen g), repeat 0 (g_arrlen g)) |}.

(** [Skip]: the [continue] of bfusep.rs:127-129 / bfuse.rs:178-180 (nothing is reset);
    [Retry]: the end of the loop body, after the reset; [Done]: the [break]. *)
Inductive outcome := Skip (st : fstate) | Retry (st : fstate) | Done (stack : list (Z * Z)).

(** One iteration of the attempt loop: bfusep.rs:77-192, bfuse.rs:129-244 (the key hashes
    are given; reseeding is the caller's). A set [error] flag continues without reset
    (bfusep.rs:127-129); a failed peel resets (bfusep.rs:184-191). *)
Definition attempt (dbg : bool) (g : geom) (bb size : nat) (hashes : list Z) (st : fstate)
  : res outcome :=
  let* order := place_all bb size hashes (f_order st) in
  let* (t, duplicates, error) :=
    foldM (fun s i => let* hash := idx order i in count_one dbg g s hash)
          (seq 0 size) (f_tables st, 0%nat, false) in
  if (error : bool) then Ok (Skip {| f_order := order; f_tables := t |})
  else
    let* q := init_queue (g_arrlen g) (fst t) in
    let* (_, stack, t) := peel (g_arrlen g + 2 * size + 1) dbg g size (q, [], t) in
    if (length stack + duplicates =? size)%nat then Ok (Done stack)
    else Ok (Retry (fstate0 g size)).
