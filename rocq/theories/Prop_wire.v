(** Property theorems; each restates a lemma proved in Claims_wire.v. *)
From Coq Require Import String Permutation.
From Verif Require Import Base Db Api Json Files Serde SpecSerde SpecWire Claims_files Claims_wire.
Local Open Scope Z_scope.

(** C81: bincode: the bytes of every serialisable type are the fields in declaration order:
    integers little-endian in their own width, usize in 8 bytes, vectors with an 8-byte length
    in front, arrays without, options and flags with one byte, nothing for markers. *)
Theorem C81_wire_bincode :
  (forall v, bin_serialize b_query v = w_words v /\ bin_serialize b_response v = w_words v) /\
  (forall a, bin_serialize b_common_params a = w_matrix a) /\
  (forall p, bin_serialize b_filter_params p = w_filter_params p) /\
  (forall d, bin_serialize b_index_db d = w_index_db d) /\
  (forall p, bin_serialize b_index_params p = w_index_params p) /\
  (forall s, bin_serialize b_shard s = w_index_db (sh_db s) ++ w_index_params (sh_params s)) /\
  (forall x, bin_serialize b_key_value x = w_key_value x) /\
  (forall d, bin_serialize b_kv_db d = w_kv_db d) /\
  (forall p, bin_serialize b_kv_params p = w_kv_params p) /\
  (forall s, bin_serialize b_kv_shard s = w_kv_db (ks_db s) ++ w_kv_params (ks_params s)) /\
  (forall k v, bin_serialize b_encoded_kv (k, v) = w_vector (uint_le 1) k ++ w_vector (uint_le 1) v) /\
  (forall q, bin_serialize b_index_query_params q = w_query_params None q) /\
  (forall q, bin_serialize b_kv_query_params q = w_query_params (option_map w_filter_params (qp_extra q)) q) /\
  (forall f, bin_serialize b_bfusep f = w_bfusep f) /\
  (forall k f, bin_serialize (b_bfuse k) f = w_bfuse k f) /\
  (forall k f, bin_serialize (b_xor k) f = w_xor k f) /\
  (forall k f, bin_serialize (b_fuse k) f = w_fuse k f).
Proof. exact wire_bincode. Qed.
Print Assumptions C81_wire_bincode.

(** C81: JSON: the text of every serialisable type is the compact object of its fields, under their
    declared names and in declared order, numbers in decimal; newtypes are their content, a marker is
    null, an absent option is null. *)
Theorem C81_wire_json :
  (forall v, wt_words v -> json_to_string j_query v = t_numbers v /\ json_to_string j_response v = t_numbers v) /\
  (forall a, wt_matrix a -> json_to_string j_common_params a = t_matrix a) /\
  (forall p, wt_filter_params p -> json_to_string j_filter_params p = t_filter_params p) /\
  (forall d, wt_index_db d -> json_to_string j_index_db d = t_index_db d) /\
  (forall p, wt_index_params p -> json_to_string j_index_params p = t_index_params p) /\
  (forall s, wt_shard s -> json_to_string j_shard s =
     t_object [("db"%string, t_index_db (sh_db s)); ("base_params"%string, t_index_params (sh_params s))]) /\
  (forall x, wt_key_value x -> json_to_string j_key_value x = t_key_value x) /\
  (forall d, wt_kv_db d -> json_to_string j_kv_db d = t_kv_db d) /\
  (forall p, wt_kv_params p -> json_to_string j_kv_params p = t_kv_params p) /\
  (forall s, wt_kv_shard s -> json_to_string j_kv_shard s =
     t_object [("db"%string, t_kv_db (ks_db s)); ("base_params"%string, t_kv_params (ks_params s))]) /\
  (let quiet := Forall (fun c => 32 <= c /\ c <> 34 /\ c <> 92) in
   forall k v, quiet k -> quiet v -> json_to_string j_encoded_kv (k, v) =
     t_object [("key"%string, txt """" ++ k ++ txt """"); ("value"%string, txt """" ++ v ++ txt """")]) /\
  (forall q, wt_query_params q -> json_to_string j_index_query_params q = t_query_params (txt "null") q) /\
  (forall q, wt_query_params q -> json_to_string j_kv_query_params q =
     t_query_params (match qp_extra q with None => txt "null" | Some f => t_filter_params f end) q) /\
  (forall f, wt_bfusep f -> json_to_string j_bfusep f = t_bfusep f) /\
  (forall k f, (k <= 8)%nat -> wt_bfuse k f -> json_to_string (j_bfuse k) f = t_bfuse f) /\
  (forall k f, (k <= 8)%nat -> wt_xor k f -> json_to_string (j_xor k) f = t_xor f) /\
  (forall k f, (k <= 8)%nat -> wt_fuse k f -> json_to_string (j_fuse k) f = t_fuse f).
Proof. exact wire_json. Qed.
Print Assumptions C81_wire_json.

(** C81: [write_to_file] of a shard: when it succeeds, the database file holds the matrix as an
    array of arrays, one per column, and the parameters file the object with the members lhs_seed
    (the public seed) and rhs, and nothing else: in particular neither dimension nor sizes. *)
Theorem C81_wire_files : forall d d' dbp pp k, dbp <> pp ->
  (forall s, wt_shard s -> shard_write_to_file d s dbp pp k = (d', Ok tt) ->
     d' dbp = Some (t_matrix (id_entries (sh_db s))) /\
     d' pp = Some (t_object [("lhs_seed"%string, t_numbers (ip_public_seed (sh_params s))); ("rhs"%string, t_matrix (ip_rhs (sh_params s)))])) /\
  (forall s, wt_kv_shard s -> kv_shard_write_to_file d s dbp pp k = (d', Ok tt) ->
     d' dbp = Some (t_matrix (kd_entries (ks_db s))) /\
     d' pp = Some (t_object [("lhs_seed"%string, t_numbers (kp_public_seed (ks_params s))); ("rhs"%string, t_matrix (kp_rhs (ks_params s)))])).
Proof. exact wire_files. Qed.
Print Assumptions C81_wire_files.

(** C81: example: a one-element database and its parameters, byte by byte and as text, and the two
    files of the shard made of them. *)
Example C81_wire_example :
  let db := {| id_entries := [[257; 3]; [4; 5]]; id_m := 2; id_elem_size := 16; id_plaintext_bits := 10 |} in
  let pa := {| ip_dim := 1; ip_m := 2; ip_public_seed := repeat 7 32; ip_rhs := [[5]; [60]]; ip_elem_size := 16; ip_plaintext_bits := 10 |} in
  let sh := {| sh_db := db; sh_params := pa |} in
  wt_shard sh /\
  bin_serialize b_index_db db =
    [2;0;0;0;0;0;0;0; 2;0;0;0;0;0;0;0; 1;1;0;0; 3;0;0;0; 2;0;0;0;0;0;0;0; 4;0;0;0; 5;0;0;0;
     2;0;0;0;0;0;0;0; 16;0;0;0;0;0;0;0; 10;0;0;0;0;0;0;0] /\
  w_index_db db = bin_serialize b_index_db db /\
  json_to_string j_index_db db = bytes_of "{""entries"":[[257,3],[4,5]],""m"":2,""elem_size"":16,""plaintext_bits"":10}" /\
  t_index_db db = json_to_string j_index_db db /\
  number 18446744073709551615 = bytes_of "18446744073709551615" /\ number 0 = bytes_of "0" /\
  (exists d', shard_write_to_file (fun _ => None) sh [100] [112] (Z.to_nat 500) = (d', Ok tt) /\
     d' [100] = Some (bytes_of "[[257,3],[4,5]]") /\
     d' [112] = Some (bytes_of "{""lhs_seed"":[7,7,7,7,7,7,7,7,7,7,7,7,7,7,7,7,7,7,7,7,7,7,7,7,7,7,7,7,7,7,7,7],""rhs"":[[5],[60]]}")).
Proof. exact wire_example. Qed.
