(** * Bfusep: the modular binary fuse filter, bff-modp/src/prelude/bfusep.rs and
    bff-modp/src/bfusep32.rs. *)
From Verif Require Export Fuse3.
Local Open Scope Z_scope.

(** bff-modp/src/bfusep32.rs:51-62 [struct BinaryFuseP32]. *)
Record bfusep := {
  bp_seed : list Z;
  bp_segment_length : Z;
  bp_segment_length_mask : Z;
  bp_segment_count_length : Z;
  bp_fingerprints : list Z;
  bp_ptxt_mod : Z }.

(** hashbrown [HashMap<u64,u32>] of bfusep.rs:62, 89, 201: newest binding first. *)
Fixpoint hm_get (m : list (Z * Z)) (h : Z) : option Z :=
  match m with
  | [] => None
  | (k, v) :: t => if k =? h then Some v else hm_get t h
  end.

(** bfusep.rs:82, 89: hashes of the keys, and the map inserts of one attempt. Reading
    [data[i]] panics when the data is shorter than the keys (only [from_vec] can). *)
Definition key_hashes (keys : list (list Z)) (seed : list Z) : list Z :=
  map (fun k => mix256 k seed) keys.
Definition insert_all (hashes data : list Z) (m : list (Z * Z)) : res (list (Z * Z)) :=
  foldM (fun m ih => let* d := idx data (fst ih) in Ok ((snd ih, d) :: m))
        (combine (seq 0 (length hashes)) hashes) m.

(** bfusep.rs:77-195: at most [max_iter] attempts; the seed, hence the hash list, is the
    same in every attempt. *)
Fixpoint attempts (max_iter : nat) (dbg : bool) (g : geom) (bb size : nat)
    (hashes data : list Z) (st : fstate) (m : list (Z * Z))
  : res (list (Z * Z) * list (Z * Z)) :=
  match max_iter with
  | O => Err EFilterFail
  | S k =>
      let* m' := insert_all hashes data m in
      let* o := attempt dbg g bb size hashes st in
      match o with
      | Done stack => Ok (stack, m')
      | Skip st' | Retry st' => attempts k dbg g bb size hashes data st' m'
      end
  end.

(** bfusep.rs:199-215: assign one fingerprint. *)
Definition assign_one (dbg : bool) (g : geom) (m : list (Z * Z)) (ptxt_mod label : Z)
    (fps : list Z) (hf : Z * Z) : res (list Z) :=
  let (hash, found) := hf in
  let p32 := ptxt_mod mod two32 in
  match hm_get m hash with
  | None => Panic
  | Some data =>
      let* (i1, i2, i3) := slots dbg g hash in
      let h012 := [i1; i2; i3; i1; i2; 0]%nat in
      let f := Z.to_nat found in
      let* d := remz data p32 in
      let* s1 := idx h012 (f + 1)%nat in
      let* x1 := idx fps s1 in
      let* s2 := idx h012 (f + 2)%nat in
      let* x2 := idx fps s2 in
      let* entry := remz (wsub32 (wsub32 d x1) x2) p32 in
      let* mask := remz (mix hash label) ptxt_mod in
      let mask := mask mod two32 in
      let* s0 := idx h012 f in
      let* v := remz (wsub32 entry mask) p32 in
      set fps s0 v
  end.

(** bff-modp/src/prelude/mod.rs:160-163 [all_distinct256]. *)
Fixpoint all_distinct (keys : list (list Z)) : bool :=
  match keys with
  | [] => true
  | k :: t => negb (existsb (fun k' => if list_eq_dec Z.eq_dec k k' then true else false) t)
              && all_distinct t
  end.

(** bfusep.rs:7-227 [bfusep_from_impl]. [rnd i] is the i-th random word of
    [make_fp_block] (mod.rs:117-135, feature uniform-random, on by default). *)
Definition bfusep_from_impl (max_iter : nat) (dbg : bool) (fe : fest) (rnd : nat -> Z)
    (seed : list Z) (keys : list (list Z)) (data : list Z) (ptxt_mod label : Z)
  : res bfusep :=
  if dbg && negb (all_distinct keys) then Panic
  else if dbg && (ptxt_mod <? 256) then Panic
  else
  let size := length keys in
  let* g := geometry dbg fe size in
  let fingerprints := map rnd (seq 0 (g_arrlen g)) in
  let* bb := block_bits (g_segcount g) in
  let* (stack, m) :=
    attempts max_iter dbg g bb size (key_hashes keys seed) data (fstate0 g size) [] in
  let* fingerprints := foldM (assign_one dbg g m ptxt_mod label) stack fingerprints in
  Ok {| bp_seed := seed;
        bp_segment_length := g_seglen g;
        bp_segment_length_mask := g_mask g;
        bp_segment_count_length := g_scl g;
        bp_fingerprints := fingerprints;
        bp_ptxt_mod := ptxt_mod |}.

Definition MAX_ITER : nat := Z.to_nat 100000.

(** bfusep32.rs:77-82 [BinaryFuseP32::from_slice]. *)
Definition from_slice (dbg : bool) (fe : fest) (rnd : nat -> Z) (seed : list Z)
    (keys : list (list Z)) (data : list Z) (label ptxt_mod : Z) : res bfusep :=
  if negb (length data =? length keys)%nat then Err EDataLen
  else bfusep_from_impl MAX_ITER dbg fe rnd seed keys data ptxt_mod label.

(** bfusep32.rs:85-88 [BinaryFuseP32::from_vec]: no length check. *)
Definition from_vec (dbg : bool) (fe : fest) (rnd : nat -> Z) (seed : list Z)
    (keys : list (list Z)) (data : list Z) (label ptxt_mod : Z) : res bfusep :=
  bfusep_from_impl MAX_ITER dbg fe rnd seed keys data ptxt_mod label.

(** bfusep32.rs:91-93 [retrieve], bfusep.rs:233-250. *)
Definition retrieve (dbg : bool) (f : bfusep) (key : list Z) (label : Z) : res Z :=
  let hash := mix256 key (bp_seed f) in
  let* (h0, h1, h2) := hash_of_hash dbg hash (bp_segment_length f)
      (bp_segment_length_mask f) (bp_segment_count_length f) in
  let* x0 := idx (bp_fingerprints f) (Z.to_nat h0) in
  let* x1 := idx (bp_fingerprints f) (Z.to_nat h1) in
  let* x2 := idx (bp_fingerprints f) (Z.to_nat h2) in
  let data := wadd32 (wadd32 x0 x1) x2 in
  let* mask := remz (mix hash label) (bp_ptxt_mod f) in
  remz (wadd32 data (mask mod two32)) (bp_ptxt_mod f mod two32).

(** bfusep32.rs:96-98 [get_fingerprints_mod]. *)
Definition get_fingerprints_mod (f : bfusep) : res (list Z) :=
  mapM (fun x => remz x (bp_ptxt_mod f mod two32)) (bp_fingerprints f).

(** bfusep32.rs:101-103 [hash_eval], bfusep.rs:256-270. *)
Definition hash_eval (dbg : bool) (key seed : list Z)
    (segment_length segment_length_mask segment_count_length : Z) : res (list nat) :=
  let hash := mix256 key seed in
  let* (h0, h1, h2) :=
    hash_of_hash dbg hash segment_length segment_length_mask segment_count_length in
  Ok [Z.to_nat h0; Z.to_nat h1; Z.to_nat h2].

(** bfusep32.rs:106-108 [get_key_fingerprint], bfusep.rs:275-288. *)
Definition get_key_fingerprint (key seed : list Z) (label : Z) : Z :=
  mix (mix256 key seed) label.
