(** * Db: src/db/mod.rs, src/db/index.rs, src/db/kv.rs. *)
From Verif Require Export Base Fmt Base64 Mat Bfusep.
Local Open Scope Z_scope.

(** ** Shared helpers *)

(** src/db/index.rs:87-93 and src/db/kv.rs:216-222 [get_row_width] (same code). *)
Definition get_row_width (element_size plaintext_bits : nat) : res nat :=
  let* quo := divn element_size plaintext_bits in
  let* r := remn element_size plaintext_bits in
  Ok (if negb (r =? 0)%nat then (quo + 1)%nat else quo).

(** Slices [bits[a..b]] and [bits[a..]]. *)
Definition slice_to {A} (l : list A) (a b : nat) : res (list A) :=
  if ((a <=? b) && (b <=? length l))%nat then Ok (firstn (b - a) (skipn a l)) else Panic.
Definition slice_from {A} (l : list A) (a : nat) : res (list A) :=
  if (a <=? length l)%nat then Ok (skipn a l) else Panic.

(** src/db/index.rs:181-191 and src/db/kv.rs:252-262: body shared by the two
    [construct_row] functions. *)
Definition chunk_row (dbg : bool) (bits : list bool) (plaintext_bits row_width : nat)
  : res (list Z) :=
  mapM (fun i =>
          let end_bound := ((i + 1) * plaintext_bits)%nat in
          let* s := (if (end_bound <? length bits)%nat
                     then slice_to bits (i * plaintext_bits)%nat end_bound
                     else slice_from bits (i * plaintext_bits)%nat) in
          bits_to_u32_le dbg s)
       (seq 0 row_width).

(** src/utils.rs:247-253 [base64_from_u32_slice]. *)
Definition base64_from_u32_slice (dbg : bool) (v : list Z) (entry_bit_len total_bit_len : nat)
  : res (list Z) :=
  let* bytes := bytes_from_u32_slice dbg v entry_bit_len total_bit_len in
  Ok (b64_encode bytes).

(** src/db/mod.rs:30-49 [BaseParams::generate_params_rhs]. The generic [T: DatabaseMatrix]
    is given by its three methods: matrix height, row width, [vec_mult]. *)
Definition generate_params_rhs (prg : list Z -> nat -> Z) (height : res nat)
    (row_width : res nat) (vec_mult : list Z -> nat -> res Z)
    (public_seed : list Z) (dim : nat) : res (list (list Z)) :=
  let* h := height in
  let* lhs := swap_matrix_fmt (generate_lwe_matrix_from_seed prg public_seed dim h) in
  let* w := row_width in
  mapM (fun i => mapM (fun r => vec_mult r i) lhs) (seq 0 w).

(** src/db/mod.rs:59-64 [BaseParams::mult_right]. *)
Definition mult_right (rhs : list (list Z)) (s : list Z) : res (list Z) :=
  mapM (fun i => let* col := idx rhs i in vec_mult_u32_u32 s col) (seq 0 (length rhs)).

(** src/db/mod.rs:78 [struct CommonParams(Vec<Vec<u32>>)] is the matrix itself;
    src/db/mod.rs:87-96 [CommonParams::mult_left]: one ternary draw per column. *)
Definition mult_left (cp : list (list Z)) (s : list Z) (tape : list Z)
  : res (list Z * list Z) :=
  foldM (fun (st : list Z * list Z) i =>
           let (acc, tape) := st in
           let* col := idx cp i in
           let* s_a := vec_mult_u32_u32 s col in
           let* (e, tape') := random_ternary tape in
           Ok (acc ++ [wadd32 s_a e], tape'))
        (seq 0 (length cp)) ([], tape).

(** ** Index database: src/db/index.rs *)

(** src/db/index.rs:14-19 *)
Record index_db := {
  id_entries : list (list Z); id_m : nat; id_elem_size : nat; id_plaintext_bits : nat }.

(** src/db/index.rs:175-192 [construct_row]. *)
Definition index_construct_row (dbg : bool) (element : list Z)
    (plaintext_bits row_width : nat) : res (list Z) :=
  let* bytes := b64_decode element in
  chunk_row dbg (bytes_to_bits_le bytes) plaintext_bits row_width.

(** src/db/index.rs:194-207 [construct_rows]. *)
Definition construct_rows (dbg : bool) (elements : list (list Z))
    (m elem_size plaintext_bits : nat) : res (list (list Z)) :=
  let* row_width := get_row_width elem_size plaintext_bits in
  mapM (fun i => let* e := idx elements i in
                 index_construct_row dbg e plaintext_bits row_width) (seq 0 m).

(** src/db/index.rs:21-38 [IndexDatabase::new]. *)
Definition index_db_new (dbg : bool) (elements : list (list Z))
    (m elem_size plaintext_bits : nat) : res index_db :=
  let* rows := construct_rows dbg elements m elem_size plaintext_bits in
  let* entries := swap_matrix_fmt rows in
  Ok {| id_entries := entries; id_m := m; id_elem_size := elem_size;
        id_plaintext_bits := plaintext_bits |}.

(** src/db/index.rs:52-54 [switch_fmt]. *)
Definition index_switch_fmt (db : index_db) : res index_db :=
  let* e := swap_matrix_fmt (id_entries db) in
  Ok {| id_entries := e; id_m := id_m db; id_elem_size := id_elem_size db;
        id_plaintext_bits := id_plaintext_bits db |}.

(** src/db/index.rs:56-65 [vec_mult]. *)
Definition index_vec_mult (db : index_db) (row : list Z) (col_idx : nat) : res Z :=
  let* col := idx (id_entries db) col_idx in
  if negb (length row =? length col)%nat then Panic
  else unwrap (vec_mult_u32_u32 row col).

(** src/db/index.rs:73-75 [get_row]. *)
Definition index_get_row (db : index_db) (i : nat) : res (list Z) := idx (id_entries db) i.

(** src/db/index.rs:78-84 [get_db_entry]. *)
Definition index_get_db_entry (dbg : bool) (db : index_db) (i : nat) : res (list Z) :=
  let* row := get_matrix_second_at (id_entries db) i in
  base64_from_u32_slice dbg row (id_plaintext_bits db) (id_elem_size db).

(** src/db/index.rs:96-101 [get_row_width_self], 104-106 [get_matrix_height]. *)
Definition index_row_width_self (db : index_db) : res nat :=
  get_row_width (id_elem_size db) (id_plaintext_bits db).
Definition index_matrix_height (db : index_db) : res nat := Ok (id_m db).

(** src/db/index.rs:122-129 [struct IndexParams]. *)
Record index_params := {
  ip_dim : nat; ip_m : nat; ip_public_seed : list Z; ip_rhs : list (list Z);
  ip_elem_size : nat; ip_plaintext_bits : nat }.

(** src/db/index.rs:131-141 [IndexParams::new]; [public_seed] is the result of
    [generate_seed()] (src/utils.rs:140-144, OsRng). *)
Definition index_params_new (prg : list Z -> nat -> Z) (db : index_db) (dim : nat)
    (public_seed : list Z) : res index_params :=
  let* rhs := generate_params_rhs prg (index_matrix_height db) (index_row_width_self db)
                (index_vec_mult db) public_seed dim in
  Ok {| ip_dim := dim; ip_m := id_m db; ip_public_seed := public_seed; ip_rhs := rhs;
        ip_elem_size := id_elem_size db; ip_plaintext_bits := id_plaintext_bits db |}.

(** src/db/mod.rs:98-106 [CommonParams::from(&IndexParams)]. *)
Definition index_common_params (prg : list Z -> nat -> Z) (p : index_params) : list (list Z) :=
  generate_lwe_matrix_from_seed prg (ip_public_seed p) (ip_dim p) (ip_m p).

(** ** Key-value database: src/db/kv.rs *)

(** src/db/kv.rs:17-20 [struct KeyValue]; the key is a [u64; 4]. *)
Record key_value := { kv_key : list Z; kv_value : list Z }.

(** src/db/kv.rs:245-263 [construct_row]. *)
Definition kv_construct_row (dbg : bool) (element : list Z)
    (plaintext_bits elem_size : nat) : res (list Z) :=
  let* row_width := get_row_width elem_size plaintext_bits in
  let* bytes := b64_decode element in
  chunk_row dbg (bytes_to_bits_le bytes) plaintext_bits row_width.

(** src/db/kv.rs:23-32 [KeyValue::from_base64_strings]. *)
Definition kv_from_base64_strings (sha256 : list Z -> list Z) (dbg : bool) (k v : list Z)
    (elem_size plaintext_bits : nat) : res key_value :=
  let* key := sha256_into_u64_sized sha256 k in
  let* value := kv_construct_row dbg v plaintext_bits elem_size in
  Ok {| kv_key := key; kv_value := value |}.

(** src/db/kv.rs:85-90 [struct FilterParams]. *)
Record filter_params := {
  fp_seed : list Z; fp_segment_length : Z; fp_segment_length_mask : Z;
  fp_segment_count_length : Z }.

(** src/db/kv.rs:92-100 [get_hash_evals]. *)
Definition get_hash_evals (dbg : bool) (fp : filter_params) (key : list Z) : res (list nat) :=
  hash_eval dbg key (fp_seed fp) (fp_segment_length fp) (fp_segment_length_mask fp)
    (fp_segment_count_length fp).

(** src/db/kv.rs:102-108 [get_key_fingerprint], [unmask_value]. *)
Definition unmask_value (fp : filter_params) (masked : Z) (key : list Z) (label : Z) : Z :=
  wadd32 masked (get_key_fingerprint key (fp_seed fp) label mod two32).

(** src/db/kv.rs:61 [2u64.pow(plaintext_bits as u32)]. *)
Definition kv_ptxt_mod (dbg : bool) (plaintext_bits : nat) : res Z :=
  chk dbg two64 (2 ^ (Z.of_nat plaintext_bits mod two32)).

(** src/db/kv.rs:45-73 [StorageFilters::from_kvs]. [rnd i] is the random block of the i-th
    column's filter, [seed] the OsRng seed of lines 51-52. *)
Definition from_kvs (dbg : bool) (fe : fest) (rnd : nat -> nat -> Z) (seed : list Z)
    (kvs : list key_value) (row_width plaintext_bits : nat)
  : res (list bfusep * filter_params) :=
  let keys := map kv_key kvs in
  let* filters :=
    mapM (fun i =>
            let* column := mapM (fun kv => idx (kv_value kv) i) kvs in
            let* p := kv_ptxt_mod dbg plaintext_bits in
            unwrap (from_slice dbg fe (rnd i) seed keys column (Z.of_nat i) p))
         (seq 0 row_width) in
  let* f0 := idx filters 0 in
  Ok (filters,
      {| fp_seed := seed; fp_segment_length := bp_segment_length f0;
         fp_segment_length_mask := bp_segment_length_mask f0;
         fp_segment_count_length := bp_segment_count_length f0 |}).

(** src/db/kv.rs:112-118 [struct KVDatabase]. *)
Record kv_db := {
  kd_entries : list (list Z); kd_m : nat; kd_elem_size : nat; kd_plaintext_bits : nat;
  kd_filter_params : filter_params }.

(** src/db/kv.rs:121-142 [KVDatabase::new]; lines 75-81 [get_columns]. *)
Definition kv_db_new (dbg : bool) (fe : fest) (rnd : nat -> nat -> Z) (seed : list Z)
    (kvs : list key_value) (m elem_size plaintext_bits : nat) : res kv_db :=
  let* kv0 := idx kvs 0 in
  let row_width := length (kv_value kv0) in
  let* (filters, fp) := from_kvs dbg fe rnd seed kvs row_width plaintext_bits in
  let* entries := mapM get_fingerprints_mod filters in
  Ok {| kd_entries := entries; kd_m := m; kd_elem_size := elem_size;
        kd_plaintext_bits := plaintext_bits; kd_filter_params := fp |}.

(** [iter.map(f).collect::<Vec<Result<_>>>()]: all closures run (a panic stops), errors
    are kept; then [into_iter().collect::<Result<Vec<_>>>()] keeps the first error. *)
Fixpoint map_all {A B} (f : A -> res B) (l : list A) : res (list (error + B)) :=
  match l with
  | [] => Ok []
  | x :: t =>
      match f x with
      | Ok b => let* r := map_all f t in Ok (inr b :: r)
      | Err e => let* r := map_all f t in Ok (inl e :: r)
      | Panic => Panic
      | Hang => Hang
      end
  end.
Fixpoint collect_results {B} (l : list (error + B)) : res (list B) :=
  match l with
  | [] => Ok []
  | inl e :: _ => Err e
  | inr b :: t => let* r := collect_results t in Ok (b :: r)
  end.

(** src/db/kv.rs:144-180 [KVDatabase::from_base64_strings]. *)
Definition kv_db_from_base64_strings (sha256 : list Z -> list Z) (dbg : bool) (fe : fest)
    (rnd : nat -> nat -> Z) (seed : list Z) (keys values : list (list Z))
    (m elem_size plaintext_bits : nat) : res kv_db :=
  if negb (length keys =? length values)%nat then Err EKeyValueCount
  else
    let* rs := map_all (fun i => let* k := idx keys i in
                                 let* v := idx values i in
                                 kv_from_base64_strings sha256 dbg k v elem_size plaintext_bits)
                       (seq 0 (length keys)) in
    match collect_results rs with
    | Err _ => Err EConstructKV
    | Ok kvs => kv_db_new dbg fe rnd seed kvs m elem_size plaintext_bits
    | Panic => Panic
    | Hang => Hang
    end.

(** src/db/kv.rs:188-190 [switch_fmt]. *)
Definition kv_switch_fmt (db : kv_db) : res kv_db :=
  let* e := swap_matrix_fmt (kd_entries db) in
  Ok {| kd_entries := e; kd_m := kd_m db; kd_elem_size := kd_elem_size db;
        kd_plaintext_bits := kd_plaintext_bits db; kd_filter_params := kd_filter_params db |}.

(** src/db/kv.rs:192-194 [vec_mult]. *)
Definition kv_vec_mult (db : kv_db) (row : list Z) (col_idx : nat) : res Z :=
  let* col := idx (kd_entries db) col_idx in
  unwrap (vec_mult_u32_u32 row col).

(** src/db/kv.rs:207-213 [get_db_entry]. *)
Definition kv_get_db_entry (dbg : bool) (db : kv_db) (i : nat) : res (list Z) :=
  let* row := get_matrix_second_at (kd_entries db) i in
  base64_from_u32_slice dbg row (kd_plaintext_bits db) (kd_elem_size db).

(** src/db/kv.rs:225-232 [get_row_width_self], [get_matrix_height]. *)
Definition kv_row_width_self (db : kv_db) : res nat :=
  get_row_width (kd_elem_size db) (kd_plaintext_bits db).
Definition kv_matrix_height (db : kv_db) : res nat :=
  let* c := idx (kd_entries db) 0 in Ok (length c).

(** src/db/kv.rs:268-276 [struct KVParams]. *)
Record kv_params := {
  kp_dim : nat; kp_m : nat; kp_public_seed : list Z; kp_rhs : list (list Z);
  kp_elem_size : nat; kp_plaintext_bits : nat; kp_filter_params : filter_params }.

(** src/db/kv.rs:278-301 [KVParams::new]. *)
Definition kv_params_new (prg : list Z -> nat -> Z) (db : kv_db) (dim : nat)
    (public_seed : list Z) (fp : filter_params) : res kv_params :=
  let* rhs := generate_params_rhs prg (kv_matrix_height db) (kv_row_width_self db)
                (kv_vec_mult db) public_seed dim in
  let* h := kv_matrix_height db in
  Ok {| kp_dim := dim; kp_m := h; kp_public_seed := public_seed; kp_rhs := rhs;
        kp_elem_size := kd_elem_size db; kp_plaintext_bits := kd_plaintext_bits db;
        kp_filter_params := fp |}.

(** src/db/mod.rs:98-106 [CommonParams::from(&KVParams)]. *)
Definition kv_common_params (prg : list Z -> nat -> Z) (p : kv_params) : list (list Z) :=
  generate_lwe_matrix_from_seed prg (kp_public_seed p) (kp_dim p) (kp_m p).
