(** * Api: src/api.rs. *)
From Verif Require Export Db Lwe Bincode.
Local Open Scope Z_scope.

(** ** Index shard *)

(** src/api.rs:22-25 *)
Record shard := { sh_db : index_db; sh_params : index_params }.

(** src/api.rs:46-56 [Shard::from_base64_strings]. *)
Definition shard_from_base64_strings (prg : list Z -> nat -> Z) (dbg : bool)
    (public_seed : list Z) (base64_strs : list (list Z))
    (lwe_dim m elem_size plaintext_bits : nat) : res shard :=
  let* db := index_db_new dbg base64_strs m elem_size plaintext_bits in
  let* p := index_params_new prg db lwe_dim public_seed in
  Ok {| sh_db := db; sh_params := p |}.

(** src/api.rs:71-81 [Shard::respond]. Bincode serialisation to a [Vec<u8>] cannot fail. *)
Definition shard_respond (s : shard) (q : list Z) : res (list Z) :=
  let* w := index_row_width_self (sh_db s) in
  let* resp := mapM (fun i => index_vec_mult (sh_db s) q i) (seq 0 w) in
  Ok (bincode_ser_vec_u32 resp).

(** src/api.rs:93-98 [Shard::into_row_iter]. *)
Definition shard_into_row_iter (dbg : bool) (s : shard) : res (list (list Z)) :=
  let* h := index_matrix_height (sh_db s) in
  mapM (fun i => index_get_db_entry dbg (sh_db s) i) (seq 0 h).

(** ** KV shard *)

(** src/api.rs:113-116 *)
Record kv_shard := { ks_db : kv_db; ks_params : kv_params }.

(** src/api.rs:128-142, 188-202: params from the database's own filter parameters. *)
Definition kv_shard_of_db (prg : list Z -> nat -> Z) (public_seed : list Z) (db : kv_db)
    (lwe_dim : nat) : res kv_shard :=
  let* p := kv_params_new prg db lwe_dim public_seed (kd_filter_params db) in
  Ok {| ks_db := db; ks_params := p |}.

(** src/api.rs:120-143 [KVShard::new]. *)
Definition kv_shard_new (prg : list Z -> nat -> Z) (dbg : bool) (fe : fest)
    (rnd : nat -> nat -> Z) (filter_seed public_seed : list Z) (kvs : list key_value)
    (lwe_dim m elem_size plaintext_bits : nat) : res kv_shard :=
  let* db := kv_db_new dbg fe rnd filter_seed kvs m elem_size plaintext_bits in
  kv_shard_of_db prg public_seed db lwe_dim.

(** src/api.rs:173-203 [KVShard::from_base64_strings]. *)
Definition kv_shard_from_base64_strings (sha256 : list Z -> list Z)
    (prg : list Z -> nat -> Z) (dbg : bool) (fe : fest) (rnd : nat -> nat -> Z)
    (filter_seed public_seed : list Z) (keys values : list (list Z))
    (lwe_dim m elem_size plaintext_bits : nat) : res kv_shard :=
  let* db := kv_db_from_base64_strings sha256 dbg fe rnd filter_seed keys values
               m elem_size plaintext_bits in
  kv_shard_of_db prg public_seed db lwe_dim.

(** src/api.rs:218-227 [KVShard::respond]. *)
Definition kv_shard_respond (s : kv_shard) (q : list Z) : res (list Z) :=
  let* w := kv_row_width_self (ks_db s) in
  let* resp := mapM (fun i => kv_vec_mult (ks_db s) q i) (seq 0 w) in
  Ok (bincode_ser_vec_u32 resp).

(** src/api.rs:239-244 [KVShard::into_row_iter]. *)
Definition kv_shard_into_row_iter (dbg : bool) (s : kv_shard) : res (list (list Z)) :=
  let* h := kv_matrix_height (ks_db s) in
  mapM (fun i => kv_get_db_entry dbg (ks_db s) i) (seq 0 h).

(** ** Client *)

(** src/api.rs:250-258 [struct QueryParams<DB, EP>]. One record for both instances; the
    index instance has [qp_extra = None] (its [EP] is [EmptyAuxParams]). *)
Record query_params := {
  qp_lhs : list Z; qp_rhs : list Z; qp_elem_size : nat; qp_plaintext_bits : nat;
  qp_extra : option filter_params; qp_used : bool }.
Definition set_used (b : bool) (qp : query_params) : query_params :=
  {| qp_lhs := qp_lhs qp; qp_rhs := qp_rhs qp; qp_elem_size := qp_elem_size qp;
     qp_plaintext_bits := qp_plaintext_bits qp; qp_extra := qp_extra qp; qp_used := b |}.

(** src/api.rs:262-273 [QueryParams::<IndexDatabase,_>::new], reached through
    src/api.rs:434-439 [generate_index_query_params]. Returns the remaining tape too. *)
Definition generate_index_query_params (cp : list (list Z)) (p : index_params)
    (tape : list Z) : res (query_params * list Z) :=
  let* (s, tape) := random_ternary_vector (ip_dim p) tape in
  let* (lhs, tape) := mult_left cp s tape in
  let* rhs := mult_right (ip_rhs p) s in
  Ok ({| qp_lhs := lhs; qp_rhs := rhs; qp_elem_size := ip_elem_size p;
         qp_plaintext_bits := ip_plaintext_bits p; qp_extra := None; qp_used := false |},
      tape).

(** src/api.rs:334-345 and 442-447 [generate_kv_query_params]. *)
Definition generate_kv_query_params (cp : list (list Z)) (p : kv_params)
    (tape : list Z) : res (query_params * list Z) :=
  let* (s, tape) := random_ternary_vector (kp_dim p) tape in
  let* (lhs, tape) := mult_left cp s tape in
  let* rhs := mult_right (kp_rhs p) s in
  Ok ({| qp_lhs := lhs; qp_rhs := rhs; qp_elem_size := kp_elem_size p;
         qp_plaintext_bits := kp_plaintext_bits p; qp_extra := Some (kp_filter_params p);
         qp_used := false |},
      tape).

(** src/api.rs:276-294 [QueryParams<IndexDatabase,_>::generate_query]. [&mut self] is
    returned along with the outcome, whatever the outcome is. *)
Definition index_generate_query (dbg : bool) (qp : query_params) (row_index : nat)
  : query_params * res (list Z) :=
  if qp_used qp then (qp, Err EParamsReused)
  else
    (set_used true qp,
     let* query_indicator := get_rounding_factor dbg (qp_plaintext_bits qp) in
     let lhs := qp_lhs qp in
     let* x := idx lhs row_index in
     let result := (x + query_indicator) mod two32 in
     let check := two32 <=? x + query_indicator in
     if negb check then set lhs row_index result else Err EOverflownAdd).

(** src/api.rs:348-364 [QueryParams<KVDatabase,_>::generate_query]. *)
Definition kv_generate_query (dbg : bool) (qp : query_params) (key : list Z)
  : query_params * res (list Z) :=
  if qp_used qp then (qp, Err EParamsReused)
  else
    (set_used true qp,
     let* query_indicator := get_rounding_factor dbg (qp_plaintext_bits qp) in
     match qp_extra qp with
     | None => Err ENoFilterParams
     | Some fp =>
         let* indices := get_hash_evals dbg fp key in
         foldM (fun lhs row_index =>
                  let* x := idx lhs row_index in
                  set lhs row_index (wadd32 x query_indicator))
               indices (qp_lhs qp)
     end).

(** src/api.rs:306-314 and 387-395: division and rounding of one response word. *)
Definition round_word (dbg : bool) (lft rgt rounding_factor rounding_floor : Z) : res Z :=
  let unscaled_res := wsub32 lft rgt in
  let* scaled_res := divz unscaled_res rounding_factor in
  let* scaled_rem := remz unscaled_res rounding_factor in
  if rounding_floor <? scaled_rem then add32 dbg scaled_res 1 else Ok scaled_res.

(** src/api.rs:297-318 [parse_resp_as_row] (index). *)
Definition index_parse_resp_as_row (dbg : bool) (qp : query_params) (resp : list Z)
  : res (list Z) :=
  let* rounding_factor := get_rounding_factor dbg (qp_plaintext_bits qp) in
  let* rounding_floor := get_rounding_floor dbg (qp_plaintext_bits qp) in
  let* plaintext_size := get_plaintext_size dbg (qp_plaintext_bits qp) in
  let* w := get_row_width (qp_elem_size qp) (qp_plaintext_bits qp) in
  mapM (fun i =>
          let* lft := idx resp i in
          let* rgt := idx (qp_rhs qp) i in
          let* rounded_res := round_word dbg lft rgt rounding_factor rounding_floor in
          remz rounded_res plaintext_size)
       (seq 0 w).

(** src/api.rs:321-330 [parse_resp_as_bytes], [parse_resp_as_base64] (index). *)
Definition index_parse_resp_as_bytes (dbg : bool) (qp : query_params) (resp : list Z)
  : res (list Z) :=
  let* row := index_parse_resp_as_row dbg qp resp in
  bytes_from_u32_slice dbg row (qp_plaintext_bits qp) (qp_elem_size qp).
Definition index_parse_resp_as_base64 (dbg : bool) (qp : query_params) (resp : list Z)
  : res (list Z) :=
  let* row := index_parse_resp_as_row dbg qp resp in
  base64_from_u32_slice dbg row (qp_plaintext_bits qp) (qp_elem_size qp).

(** src/api.rs:367-402 [parse_resp_as_row] (KV). *)
Definition kv_parse_resp_as_row (dbg : bool) (qp : query_params) (resp : list Z)
    (key : list Z) : res (list Z) :=
  let* rounding_factor := get_rounding_factor dbg (qp_plaintext_bits qp) in
  let* rounding_floor := get_rounding_floor dbg (qp_plaintext_bits qp) in
  let* plaintext_size := get_plaintext_size dbg (qp_plaintext_bits qp) in
  match qp_extra qp with
  | None => Err ENoFilterParams
  | Some fp =>
      let* w := get_row_width (qp_elem_size qp) (qp_plaintext_bits qp) in
      mapM (fun i =>
              let* lft := idx resp i in
              let* rgt := idx (qp_rhs qp) i in
              let* masked := round_word dbg lft rgt rounding_factor rounding_floor in
              let unmasked := unmask_value fp masked key (Z.of_nat i) in
              remz unmasked plaintext_size)
           (seq 0 w)
  end.

(** src/api.rs:405-430 [parse_resp_as_bytes], [parse_resp_as_base64] (KV). *)
Definition kv_parse_resp_as_bytes (dbg : bool) (qp : query_params) (resp key : list Z)
  : res (list Z) :=
  let* row := kv_parse_resp_as_row dbg qp resp key in
  bytes_from_u32_slice dbg row (qp_plaintext_bits qp) (qp_elem_size qp).
Definition kv_parse_resp_as_base64 (dbg : bool) (qp : query_params) (resp key : list Z)
  : res (list Z) :=
  let* row := kv_parse_resp_as_row dbg qp resp key in
  base64_from_u32_slice dbg row (qp_plaintext_bits qp) (qp_elem_size qp).
