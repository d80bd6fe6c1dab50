(** * Mat: src/utils.rs, module [matrices] (lines 27-135). *)
From Verif Require Export Base.
Local Open Scope Z_scope.

(** src/utils.rs:36-38 [get_matrix_second_at]. *)
Definition get_matrix_second_at (matrix : list (list Z)) (secidx : nat) : res (list Z) :=
  mapM (fun y => idx y secidx) matrix.

(** src/utils.rs:41-51 [swap_matrix_fmt]: push [current_row[i]] to [swapped_row[i]]. *)
Definition swap_push (width : nat) (acc : list (list Z)) (current_row : list Z)
  : res (list (list Z)) :=
  foldM (fun sw i =>
           let* x := idx current_row i in
           let* r := idx sw i in
           set sw i (r ++ [x]))
        (seq 0 width) acc.
Definition swap_matrix_fmt (matrix : list (list Z)) : res (list (list Z)) :=
  let* row0 := idx matrix 0 in
  let width := length row0 in
  foldM (swap_push width) matrix (repeat [] width).

(** src/utils.rs:54-69 [generate_lwe_matrix_from_seed]. [prg seed k] is the k-th
    [next_u32] of [StdRng::from_seed(seed)] (crate rand), an argument of the model. *)
Definition generate_lwe_matrix_from_seed (prg : list Z -> nat -> Z)
    (seed : list Z) (lwe_dim width : nat) : list (list Z) :=
  map (fun i => map (fun j => prg seed (i * lwe_dim + j)%nat) (seq 0 lwe_dim)) (seq 0 width).

(** src/utils.rs:72-87 [vec_mult_u32_u32]. *)
Definition vec_mult_u32_u32 (row col : list Z) : res Z :=
  if negb (length row =? length col)%nat then Err EInputSize
  else foldM (fun acc i =>
                let* r := idx row i in
                let* c := idx col i in
                Ok (wadd32 acc (wmul32 r c)))
             (seq 0 (length row)) 0.

(** src/utils.rs:97, 99 *)
Definition TERNARY_INTERVAL_SIZE : Z := (4294967295 - 2) / 3.
Definition TERNARY_REJECTION_SAMPLING_MAX : Z := TERNARY_INTERVAL_SIZE * 3.

(** src/utils.rs:117-123: classification of an accepted word. *)
Definition ternary_of (val : Z) : Z :=
  if (TERNARY_INTERVAL_SIZE <? val) && (val <=? TERNARY_INTERVAL_SIZE * 2) then 1
  else if TERNARY_INTERVAL_SIZE * 2 <? val then 4294967295
  else 0.

(** src/utils.rs:104-124 [random_ternary]. The OsRng words are an explicit tape; a tape
    that ends while every word was rejected is the unfinished rejection loop [Hang]. *)
Fixpoint random_ternary (tape : list Z) : res (Z * list Z) :=
  match tape with
  | [] => Hang
  | val :: rest =>
      if TERNARY_REJECTION_SAMPLING_MAX <? val then random_ternary rest
      else Ok (ternary_of val, rest)
  end.

(** src/utils.rs:128-134 [random_ternary_vector]. *)
Fixpoint random_ternary_vector (width : nat) (tape : list Z) : res (list Z * list Z) :=
  match width with
  | O => Ok ([], tape)
  | S w => let* (t, tape1) := random_ternary tape in
           let* (ts, tape2) := random_ternary_vector w tape1 in
           Ok (t :: ts, tape2)
  end.
