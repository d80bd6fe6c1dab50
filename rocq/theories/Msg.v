(** * Msg: the texts that errors carry (src/errors.rs, and the [format!] calls that make them).
    The functions here follow those of Fmt, Mat, Db and Api step by step, but an error is a
    record with its two texts ([Display] and [Debug]) next to its kind. What a string cannot
    hold is left out: errors of std, serde and bincode. Calls that never return an error are
    taken from the other files through [lift]. *)
From Coq Require Import String.
From Verif Require Import Base Fmt Mat Lwe Hash Bfusep Db Api Json Files.
Local Open Scope Z_scope.

Record failure := { f_kind : error; f_display : list Z; f_debug : list Z }.
(** Outcome of a call, as [res]. *)
Inductive tres (A : Type) : Type :=
| TOk (a : A)
| TErr (f : failure)
| TPanic
| THang.
Arguments TOk {A} a. Arguments TErr {A} f. Arguments TPanic {A}. Arguments THang {A}.
Definition tbind {A B} (r : tres A) (k : A -> tres B) : tres B :=
  match r with TOk a => k a | TErr f => TErr f | TPanic => TPanic | THang => THang end.
Notation "'let!' x ':=' e 'in' k" := (tbind e (fun x => k))
  (at level 200, x pattern, e at level 100, k at level 200, right associativity).
(** A call that has no error of its own (an error would have empty texts). *)
Definition lift {A} (r : res A) : tres A :=
  match r with
  | Ok a => TOk a
  | Err e => TErr {| f_kind := e; f_display := []; f_debug := [] |}
  | Panic => TPanic
  | Hang => THang
  end.
(** The outcome without the texts. *)
Definition forget {A} (r : tres A) : res A :=
  match r with TOk a => Ok a | TErr f => Err (f_kind f) | TPanic => Panic | THang => Hang end.
Fixpoint tmapM {A B} (f : A -> tres B) (l : list A) : tres (list B) :=
  match l with
  | [] => TOk []
  | x :: xs => let! y := f x in let! ys := tmapM f xs in TOk (y :: ys)
  end.
Fixpoint tfoldM {A S} (f : S -> A -> tres S) (l : list A) (s : S) : tres S :=
  match l with
  | [] => TOk s
  | x :: xs => let! s' := f s x in tfoldM f xs s'
  end.

(** Rust's [{}] of a usize and of a string, [{:?}] of a string (for printable ASCII, which all
    the strings below are), of a [Vec<u8>] and of an [Option]. *)
Definition show (n : nat) : list Z := dec_of (Z.of_nat n).
Definition debug_string (s : list Z) : list Z :=
  [34] ++ flat_map (fun c => if c =? 34 then [92; 34] else if c =? 92 then [92; 92] else [c]) s ++ [34].
Definition debug_bytes (l : list Z) : list Z := [91] ++ join [44; 32] (map dec_of l) ++ [93].
Definition debug_some (t : list Z) : list Z := bytes_of "Some(" ++ t ++ bytes_of ")".

(** src/errors.rs:9-26: [new], the derived [Debug], [Display]. *)
Definition unexpected_input_size (details : list Z) : failure :=
  {| f_kind := EInputSize;
     f_display := bytes_of "Unexpected input size error: " ++ details;
     f_debug := bytes_of "ErrorUnexpectedInputSize { details: " ++ debug_string details ++ bytes_of " }" |}.
(** src/errors.rs:35-44. *)
Definition query_params_reused : failure :=
  {| f_kind := EParamsReused;
     f_display := bytes_of "Attempted to reuse query parameters that were used already";
     f_debug := bytes_of "ErrorQueryParamsReused" |}.
(** src/errors.rs:49-55. *)
Definition overflown_add : failure :=
  {| f_kind := EOverflownAdd;
     f_display := bytes_of "Attempted to overflow addition";
     f_debug := bytes_of "ErrorOverflownAdd" |}.
(** [String::into::<Box<dyn Error>>]: shown as the string, debugged as its literal. *)
Definition string_error (k : error) (s : list Z) : failure :=
  {| f_kind := k; f_display := s; f_debug := debug_string s |}.

(** src/utils.rs:72-87 [vec_mult_u32_u32]. *)
Definition m_vec_mult (row col : list Z) : tres Z :=
  if negb (length row =? length col)%nat
  then TErr (unexpected_input_size (bytes_of "row_len: " ++ show (length row) ++ bytes_of ", col_len:" ++ show (length col) ++ bytes_of ","))
  else lift (vec_mult_u32_u32 row col).

(** src/utils.rs:212-226 [u32_sized_bytes_from_vec]: [try_into] hands the vector back. *)
Definition m_u32_sized_bytes (bytes : list Z) : tres (list Z) :=
  if (length bytes =? 4)%nat then TOk bytes
  else TErr (unexpected_input_size (bytes_of "Unexpected vector size: " ++ debug_bytes bytes)).

(** src/utils.rs:194-210 [bits_to_u32_le]. *)
Definition m_bits_to_u32 (dbg : bool) (bits : list bool) : tres Z :=
  let! bytes := lift (bits_to_bytes_le dbg bits) in
  if (4 <? length bytes)%nat
  then TErr (unexpected_input_size (bytes_of "bytes are too long to parse as u16, length: " ++ show (length bytes)))
  else
    let! sized := m_u32_sized_bytes (bytes ++ repeat 0 (4 - length bytes)%nat) in
    TOk (of_le_bytes sized).

(** src/utils.rs:255-282 [sha256_into_u64_sized]; its second error cannot occur, the slices
    having eight bytes. *)
Definition m_sha256_into_u64 (sha256 : list Z -> list Z) (input : list Z) : tres (list Z) :=
  let digest := sha256 input in
  if negb (length digest =? 32)%nat
  then TErr (unexpected_input_size (bytes_of "Digest should be 32 bytes, but instead it is " ++ show (length digest) ++ bytes_of " bytes long"))
  else lift (sha256_into_u64_sized sha256 input).

(** [base64::decode]: the two texts of its error are those of the crate, a function of the text
    being decoded ([b64]: display and debug). *)
Definition m_b64_decode (b64 : list Z -> list Z * list Z) (s : list Z) : tres (list Z) :=
  match b64_decode s with
  | Err e => TErr {| f_kind := e; f_display := fst (b64 s); f_debug := snd (b64 s) |}
  | r => lift r
  end.

(** src/db/index.rs:183-190 and src/db/kv.rs:254-261: the chunks of a row. *)
Definition m_chunk_row (dbg : bool) (bits : list bool) (plaintext_bits row_width : nat) : tres (list Z) :=
  tmapM (fun i =>
           let end_bound := ((i + 1) * plaintext_bits)%nat in
           let! s := lift (if (end_bound <? length bits)%nat
                           then slice_to bits (i * plaintext_bits)%nat end_bound
                           else slice_from bits (i * plaintext_bits)%nat) in
           m_bits_to_u32 dbg s)
        (seq 0 row_width).

(** src/db/index.rs:175-192 [construct_row]. *)
Definition m_index_row (b64 : list Z -> list Z * list Z) (dbg : bool) (element : list Z)
    (plaintext_bits row_width : nat) : tres (list Z) :=
  let! bytes := m_b64_decode b64 element in
  m_chunk_row dbg (bytes_to_bits_le bytes) plaintext_bits row_width.
(** src/db/index.rs:194-207 [construct_rows]. *)
Definition m_index_rows (b64 : list Z -> list Z * list Z) (dbg : bool) (elements : list (list Z))
    (m elem_size plaintext_bits : nat) : tres (list (list Z)) :=
  let! row_width := lift (get_row_width elem_size plaintext_bits) in
  tmapM (fun i => let! e := lift (idx elements i) in m_index_row b64 dbg e plaintext_bits row_width) (seq 0 m).
(** src/db/index.rs:21-38 [IndexDatabase::new]. *)
Definition m_index_db_new (b64 : list Z -> list Z * list Z) (dbg : bool) (elements : list (list Z))
    (m elem_size plaintext_bits : nat) : tres index_db :=
  let! rows := m_index_rows b64 dbg elements m elem_size plaintext_bits in
  let! entries := lift (swap_matrix_fmt rows) in
  TOk {| id_entries := entries; id_m := m; id_elem_size := elem_size; id_plaintext_bits := plaintext_bits |}.
(** src/api.rs:46-56 [Shard::from_base64_strings]. *)
Definition m_shard_from_base64_strings (b64 : list Z -> list Z * list Z) (prg : list Z -> nat -> Z) (dbg : bool)
    (public_seed : list Z) (strs : list (list Z)) (lwe_dim m elem_size plaintext_bits : nat) : tres shard :=
  let! db := m_index_db_new b64 dbg strs m elem_size plaintext_bits in
  let! p := lift (index_params_new prg db lwe_dim public_seed) in
  TOk {| sh_db := db; sh_params := p |}.

(** src/db/kv.rs:245-263 [construct_row], 23-32 [KeyValue::from_base64_strings]. *)
Definition m_kv_row (b64 : list Z -> list Z * list Z) (dbg : bool) (element : list Z)
    (plaintext_bits elem_size : nat) : tres (list Z) :=
  let! row_width := lift (get_row_width elem_size plaintext_bits) in
  let! bytes := m_b64_decode b64 element in
  m_chunk_row dbg (bytes_to_bits_le bytes) plaintext_bits row_width.
Definition m_kv_from_base64_strings (b64 : list Z -> list Z * list Z) (sha256 : list Z -> list Z) (dbg : bool)
    (k v : list Z) (elem_size plaintext_bits : nat) : tres key_value :=
  let! key := m_sha256_into_u64 sha256 k in
  let! value := m_kv_row b64 dbg v plaintext_bits elem_size in
  TOk {| kv_key := key; kv_value := value |}.
(** src/db/kv.rs:162-172: all the pairs are made, then the first error is kept. *)
Fixpoint tmap_all {A B} (f : A -> tres B) (l : list A) : tres (list (failure + B)) :=
  match l with
  | [] => TOk []
  | x :: t =>
      match f x with
      | TOk b => let! r := tmap_all f t in TOk (inr b :: r)
      | TErr e => let! r := tmap_all f t in TOk (inl e :: r)
      | TPanic => TPanic
      | THang => THang
      end
  end.
Fixpoint tcollect {B} (l : list (failure + B)) : tres (list B) :=
  match l with
  | [] => TOk []
  | inl e :: _ => TErr e
  | inr b :: t => let! r := tcollect t in TOk (b :: r)
  end.
(** src/db/kv.rs:144-180 [KVDatabase::from_base64_strings]. *)
Definition m_kv_db (b64 : list Z -> list Z * list Z) (sha256 : list Z -> list Z) (dbg : bool) (fe : fest)
    (rnd : nat -> nat -> Z) (seed : list Z) (keys values : list (list Z))
    (m elem_size plaintext_bits : nat) : tres kv_db :=
  if negb (length keys =? length values)%nat
  then TErr (string_error EKeyValueCount
         (bytes_of "Number of keys (" ++ show (length keys) ++ bytes_of ") does not match number of values (" ++ show (length values) ++ bytes_of ")"))
  else
    let! rs := tmap_all (fun i => let! k := lift (idx keys i) in
                                  let! v := lift (idx values i) in
                                  m_kv_from_base64_strings b64 sha256 dbg k v elem_size plaintext_bits)
                        (seq 0 (length keys)) in
    match tcollect rs with
    | TErr e => TErr (string_error EConstructKV (bytes_of "Error occurred constructing KVs: " ++ debug_some (f_debug e)))
    | TOk kvs => lift (kv_db_new dbg fe rnd seed kvs m elem_size plaintext_bits)
    | TPanic => TPanic
    | THang => THang
    end.
(** src/api.rs:173-203 [KVShard::from_base64_strings]. *)
Definition m_kv_shard (b64 : list Z -> list Z * list Z) (sha256 : list Z -> list Z) (prg : list Z -> nat -> Z)
    (dbg : bool) (fe : fest) (rnd : nat -> nat -> Z) (filter_seed public_seed : list Z)
    (keys values : list (list Z)) (lwe_dim m elem_size plaintext_bits : nat) : tres kv_shard :=
  let! db := m_kv_db b64 sha256 dbg fe rnd filter_seed keys values m elem_size plaintext_bits in
  lift (kv_shard_of_db prg public_seed db lwe_dim).

(** src/db/mod.rs:59-64 [mult_right] and 87-96 [mult_left]. *)
Definition m_mult_right (rhs : list (list Z)) (s : list Z) : tres (list Z) :=
  tmapM (fun i => let! col := lift (idx rhs i) in m_vec_mult s col) (seq 0 (length rhs)).
Definition m_mult_left (cp : list (list Z)) (s : list Z) (tape : list Z) : tres (list Z * list Z) :=
  tfoldM (fun (st : list Z * list Z) i =>
            let (acc, tape) := st in
            let! col := lift (idx cp i) in
            let! s_a := m_vec_mult s col in
            let! (e, tape') := lift (random_ternary tape) in
            TOk (acc ++ [wadd32 s_a e], tape'))
         (seq 0 (length cp)) ([], tape).
(** src/api.rs:262-273 and 434-439, 334-345 and 442-447: fresh query parameters. *)
Definition m_index_query_params (cp : list (list Z)) (p : index_params) (tape : list Z) : tres (query_params * list Z) :=
  let! (s, tape) := lift (random_ternary_vector (ip_dim p) tape) in
  let! (lhs, tape) := m_mult_left cp s tape in
  let! rhs := m_mult_right (ip_rhs p) s in
  TOk ({| qp_lhs := lhs; qp_rhs := rhs; qp_elem_size := ip_elem_size p;
          qp_plaintext_bits := ip_plaintext_bits p; qp_extra := None; qp_used := false |}, tape).
Definition m_kv_query_params (cp : list (list Z)) (p : kv_params) (tape : list Z) : tres (query_params * list Z) :=
  let! (s, tape) := lift (random_ternary_vector (kp_dim p) tape) in
  let! (lhs, tape) := m_mult_left cp s tape in
  let! rhs := m_mult_right (kp_rhs p) s in
  TOk ({| qp_lhs := lhs; qp_rhs := rhs; qp_elem_size := kp_elem_size p;
          qp_plaintext_bits := kp_plaintext_bits p; qp_extra := Some (kp_filter_params p); qp_used := false |}, tape).

(** src/api.rs:276-294 and 348-364 [generate_query] (the parameters left behind are those of
    Api.v). *)
Definition m_index_query (dbg : bool) (qp : query_params) (row_index : nat) : tres (list Z) :=
  if qp_used qp then TErr query_params_reused
  else
    let! query_indicator := lift (get_rounding_factor dbg (qp_plaintext_bits qp)) in
    let lhs := qp_lhs qp in
    let! x := lift (idx lhs row_index) in
    let result := (x + query_indicator) mod two32 in
    let check := two32 <=? x + query_indicator in
    if negb check then lift (set lhs row_index result) else TErr overflown_add.
Definition no_filter_params : failure :=
  string_error ENoFilterParams (bytes_of "No filter parameters set for KV QueryParams").
Definition m_kv_query (dbg : bool) (qp : query_params) (key : list Z) : tres (list Z) :=
  if qp_used qp then TErr query_params_reused
  else
    let! query_indicator := lift (get_rounding_factor dbg (qp_plaintext_bits qp)) in
    match qp_extra qp with
    | None => TErr no_filter_params
    | Some fp =>
        let! indices := lift (get_hash_evals dbg fp key) in
        lift (foldM (fun lhs row_index =>
                let* x := idx lhs row_index in
                set lhs row_index (wadd32 x query_indicator)) indices (qp_lhs qp))
    end.
(** src/api.rs:367-402 [parse_resp_as_row] (KV). *)
Definition m_kv_parse_row (dbg : bool) (qp : query_params) (resp key : list Z) : tres (list Z) :=
  let! _ := lift (get_rounding_factor dbg (qp_plaintext_bits qp)) in
  let! _ := lift (get_rounding_floor dbg (qp_plaintext_bits qp)) in
  let! _ := lift (get_plaintext_size dbg (qp_plaintext_bits qp)) in
  match qp_extra qp with
  | None => TErr no_filter_params
  | Some _ => lift (kv_parse_resp_as_row dbg qp resp key)
  end.
