(** Property theorems; each restates a lemma proved in Claims_serde.v. *)
From Coq Require Import String Permutation.
From Verif Require Import Base Fmt Mat Lwe Bincode Db Api Json Files Spec SpecFilter SpecJson Serde SpecSerde SpecFiles Claims_files Claims_filter Claims_kv Claims_kvbuild Claims_serde.
Local Open Scope Z_scope.

(** C65: bincode, every serialisable type of the crate: a byte string is accepted exactly when
    it starts with the encoding of a value that fits the type, and that value is the result;
    every other byte string is an error, never a panic. *)
Theorem C65_bincode_exact :
  exact_binary wt_words (bin_serialize b_query) (bin_deserialize b_query) /\
  exact_binary wt_words (bin_serialize b_response) (bin_deserialize b_response) /\
  exact_binary wt_matrix (bin_serialize b_common_params) (bin_deserialize b_common_params) /\
  exact_binary wt_filter_params (bin_serialize b_filter_params) (bin_deserialize b_filter_params) /\
  exact_binary wt_index_db (bin_serialize b_index_db) (bin_deserialize b_index_db) /\
  exact_binary wt_index_params (bin_serialize b_index_params) (bin_deserialize b_index_params) /\
  exact_binary wt_shard (bin_serialize b_shard) (bin_deserialize b_shard) /\
  exact_binary wt_key_value (bin_serialize b_key_value) (bin_deserialize b_key_value) /\
  exact_binary wt_kv_db (bin_serialize b_kv_db) (bin_deserialize b_kv_db) /\
  exact_binary wt_kv_params (bin_serialize b_kv_params) (bin_deserialize b_kv_params) /\
  exact_binary wt_kv_shard (bin_serialize b_kv_shard) (bin_deserialize b_kv_shard) /\
  exact_binary wt_encoded_kv (bin_serialize b_encoded_kv) (bin_deserialize b_encoded_kv) /\
  exact_binary wt_query_params (bin_serialize b_kv_query_params) (bin_deserialize b_kv_query_params).
Proof. exact bincode_exact. Qed.
Print Assumptions C65_bincode_exact.

(** C65: The same for the filters of bff-modp ([k] = 1, 2 or 4 bytes per fingerprint; any [k]). *)
Theorem C65_bincode_exact_filters : forall k,
  exact_binary wt_bfusep (bin_serialize b_bfusep) (bin_deserialize b_bfusep) /\
  exact_binary (wt_bfuse k) (bin_serialize (b_bfuse k)) (bin_deserialize (b_bfuse k)) /\
  exact_binary (wt_xor k) (bin_serialize (b_xor k)) (bin_deserialize (b_xor k)) /\
  exact_binary (wt_fuse k) (bin_serialize (b_fuse k)) (bin_deserialize (b_fuse k)).
Proof. exact bincode_exact_filters. Qed.
Print Assumptions C65_bincode_exact_filters.

(** C65: JSON: the text of every value that fits its type is UTF-8 and reads back as the same
    value. *)
Theorem C65_json_round_trip : forall k, (k <= 8)%nat ->
  text_round_trip wt_words (json_to_string j_query) (json_from_str j_query) /\
  text_round_trip wt_words (json_to_string j_response) (json_from_str j_response) /\
  text_round_trip wt_matrix (json_to_string j_common_params) (json_from_str j_common_params) /\
  text_round_trip wt_filter_params (json_to_string j_filter_params) (json_from_str j_filter_params) /\
  text_round_trip wt_index_db (json_to_string j_index_db) (json_from_str j_index_db) /\
  text_round_trip wt_index_params (json_to_string j_index_params) (json_from_str j_index_params) /\
  text_round_trip wt_shard (json_to_string j_shard) (json_from_str j_shard) /\
  text_round_trip wt_key_value (json_to_string j_key_value) (json_from_str j_key_value) /\
  text_round_trip wt_kv_db (json_to_string j_kv_db) (json_from_str j_kv_db) /\
  text_round_trip wt_kv_params (json_to_string j_kv_params) (json_from_str j_kv_params) /\
  text_round_trip wt_kv_shard (json_to_string j_kv_shard) (json_from_str j_kv_shard) /\
  text_round_trip wt_encoded_kv (json_to_string j_encoded_kv) (json_from_str j_encoded_kv) /\
  text_round_trip wt_query_params (json_to_string j_kv_query_params) (json_from_str j_kv_query_params) /\
  text_round_trip wt_bfusep (json_to_string j_bfusep) (json_from_str j_bfusep) /\
  text_round_trip (wt_bfuse k) (json_to_string (j_bfuse k)) (json_from_str (j_bfuse k)) /\
  text_round_trip (wt_xor k) (json_to_string (j_xor k)) (json_from_str (j_xor k)) /\
  text_round_trip (wt_fuse k) (json_to_string (j_fuse k)) (json_from_str (j_fuse k)).
Proof. exact json_round_trip. Qed.
Print Assumptions C65_json_round_trip.

(** C65: Index query parameters (their [extra_params] is [None]): both formats. *)
Theorem C65_index_query_params_round_trip : forall q rest, wt_query_params q -> qp_extra q = None ->
  bin_deserialize b_index_query_params (bin_serialize b_index_query_params q ++ rest) = Ok q /\
  json_from_str j_index_query_params (json_to_string j_index_query_params q) = Ok q.
Proof. exact index_query_params_round_trip. Qed.
Print Assumptions C65_index_query_params_round_trip.

(** C65: Query parameters written as JSON without their [extra_params] field are read, with no
    filter parameters: harmless for an index client; a key-value client's query and parse then
    fail with an error. (In bincode the field cannot be left out.) *)
Theorem C65_missing_extra_params : forall q s, wt_query_params q -> qp_extra q = None ->
  json_document s (JObj [(bytes_of "lhs", JArr (map JInt (qp_lhs q))); (bytes_of "rhs", JArr (map JInt (qp_rhs q)));
    (bytes_of "elem_size", JInt (Z.of_nat (qp_elem_size q))); (bytes_of "plaintext_bits", JInt (Z.of_nat (qp_plaintext_bits q)));
    (bytes_of "db", JNull); (bytes_of "used", JBool (qp_used q))]) ->
  json_from_str j_index_query_params s = Ok q /\ json_from_str j_kv_query_params s = Ok q /\
  ((1 <= qp_plaintext_bits q <= 31)%nat -> forall dbg key resp,
     kv_generate_query dbg q key = (if qp_used q then (q, Err EParamsReused) else (set_used true q, Err ENoFilterParams)) /\
     kv_parse_resp_as_row dbg q resp key = Err ENoFilterParams).
Proof. exact missing_extra_params. Qed.
Print Assumptions C65_missing_extra_params.

(** C65: A file cut short is an error in both formats, whatever the value and the cut. *)
Theorem C65_cut_is_error :
  torn_is_error wt_shard (bin_serialize b_shard) (bin_deserialize b_shard) /\
  torn_is_error wt_kv_shard (bin_serialize b_kv_shard) (bin_deserialize b_kv_shard) /\
  torn_is_error wt_index_params (bin_serialize b_index_params) (bin_deserialize b_index_params) /\
  torn_is_error wt_kv_params (bin_serialize b_kv_params) (bin_deserialize b_kv_params) /\
  torn_is_error wt_query_params (bin_serialize b_kv_query_params) (bin_deserialize b_kv_query_params) /\
  torn_is_error wt_words (bin_serialize b_query) (bin_deserialize b_query) /\
  torn_is_error wt_words (bin_serialize b_response) (bin_deserialize b_response) /\
  torn_is_error wt_bfusep (bin_serialize b_bfusep) (bin_deserialize b_bfusep) /\
  torn_is_error wt_shard (json_to_string j_shard) (json_from_str j_shard) /\
  torn_is_error wt_kv_shard (json_to_string j_kv_shard) (json_from_str j_kv_shard) /\
  torn_is_error wt_index_params (json_to_string j_index_params) (json_from_str j_index_params) /\
  torn_is_error wt_kv_params (json_to_string j_kv_params) (json_from_str j_kv_params) /\
  torn_is_error wt_query_params (json_to_string j_kv_query_params) (json_from_str j_kv_query_params) /\
  torn_is_error wt_words (json_to_string j_query) (json_from_str j_query) /\
  torn_is_error wt_words (json_to_string j_response) (json_from_str j_response) /\
  torn_is_error wt_bfusep (json_to_string j_bfusep) (json_from_str j_bfusep).
Proof. exact cut_is_error. Qed.
Print Assumptions C65_cut_is_error.

(** C65: The serialisation of a response is the one [respond] uses, and the reader the one the
    client uses; the JSON of [IndexParams] is the one [IndexParams::load] expects. *)
Theorem C65_same_formats :
  (forall v, bincode_ser_vec_u32 v = bin_serialize b_response v) /\
  (forall p, json_to_string j_index_params p = write_json (ser_index_params p)) /\
  (forall d path text, d path = Some text -> index_params_load d path = json_from_str j_index_params text).
Proof. exact same_formats. Qed.
Print Assumptions C65_same_formats.

(** C65: Every index shard that construction returns reloads from its own serialisation (in
    contrast to the files of [write_to_file], C41), and every value of a session with it (the
    parameters sent to the client, the client's saved state before and after the query, the
    query, the response) arrives as it was sent. *)
Theorem C65_index_session_survives : forall prg dbg seed strs dim m es pb sh,
  (1 <= pb <= 32)%nat -> wt_seed seed -> wt_usize dim -> wt_usize m -> wt_usize es ->
  shard_from_base64_strings prg dbg seed strs dim m es pb = Ok sh ->
  bin_deserialize b_shard (bin_serialize b_shard sh) = Ok sh /\
  json_from_str j_shard (json_to_string j_shard sh) = Ok sh /\
  bin_deserialize b_index_params (bin_serialize b_index_params (sh_params sh)) = Ok (sh_params sh) /\
  json_from_str j_index_params (json_to_string j_index_params (sh_params sh)) = Ok (sh_params sh) /\
  forall tape qp tape', generate_index_query_params (index_common_params prg (sh_params sh)) (sh_params sh) tape = Ok (qp, tape') ->
    bin_deserialize b_index_query_params (bin_serialize b_index_query_params qp) = Ok qp /\
    json_from_str j_index_query_params (json_to_string j_index_query_params qp) = Ok qp /\
    forall i qp' q, index_generate_query dbg qp i = (qp', Ok q) ->
      bin_deserialize b_index_query_params (bin_serialize b_index_query_params qp') = Ok qp' /\
      json_from_str j_index_query_params (json_to_string j_index_query_params qp') = Ok qp' /\
      bin_deserialize b_query (bin_serialize b_query q) = Ok q /\
      json_from_str j_query (json_to_string j_query q) = Ok q /\
      forall bytes, shard_respond sh q = Ok bytes ->
        exists resp, bytes = bin_serialize b_response resp /\ bin_deserialize b_response bytes = Ok resp.
Proof. exact index_session_survives. Qed.
Print Assumptions C65_index_session_survives.

(** C65: The same for key-value shards, whose filter parameters travel inside the parameters
    and the client's state. *)
Theorem C65_kv_session_survives : forall prg dbg fe rnd fseed pseed kvs dim m es pb sh,
  sane_estimates fe (length kvs) -> (1 <= pb <= 31)%nat -> wt_seed fseed -> wt_seed pseed ->
  wt_usize dim -> wt_usize m -> wt_usize es -> Forall wt_key_value kvs ->
  kv_shard_new prg dbg fe rnd fseed pseed kvs dim m es pb = Ok sh ->
  bin_deserialize b_kv_shard (bin_serialize b_kv_shard sh) = Ok sh /\
  json_from_str j_kv_shard (json_to_string j_kv_shard sh) = Ok sh /\
  bin_deserialize b_kv_params (bin_serialize b_kv_params (ks_params sh)) = Ok (ks_params sh) /\
  json_from_str j_kv_params (json_to_string j_kv_params (ks_params sh)) = Ok (ks_params sh) /\
  forall tape qp tape', generate_kv_query_params (kv_common_params prg (ks_params sh)) (ks_params sh) tape = Ok (qp, tape') ->
    bin_deserialize b_kv_query_params (bin_serialize b_kv_query_params qp) = Ok qp /\
    json_from_str j_kv_query_params (json_to_string j_kv_query_params qp) = Ok qp /\
    forall key qp' q, kv_generate_query dbg qp key = (qp', Ok q) ->
      bin_deserialize b_kv_query_params (bin_serialize b_kv_query_params qp') = Ok qp' /\
      json_from_str j_kv_query_params (json_to_string j_kv_query_params qp') = Ok qp' /\
      bin_deserialize b_query (bin_serialize b_query q) = Ok q /\
      json_from_str j_query (json_to_string j_query q) = Ok q /\
      forall bytes, kv_shard_respond sh q = Ok bytes ->
        exists resp, bytes = bin_serialize b_response resp /\ bin_deserialize b_response bytes = Ok resp.
Proof. exact kv_session_survives. Qed.
Print Assumptions C65_kv_session_survives.

(** C65: A client whose state was saved after its query and reloaded still refuses a second
    query. *)
Theorem C65_reloaded_state_stays_used : forall dbg qp i key qp1 q1 qp2 q2 s1 s2,
  wt_query_params qp ->
  (qp_extra qp = None -> index_generate_query dbg qp i = (qp1, Ok q1) ->
     bin_deserialize b_index_query_params (bin_serialize b_index_query_params qp1) = Ok s1 ->
     forall i', index_generate_query dbg s1 i' = (s1, Err EParamsReused)) /\
  (kv_generate_query dbg qp key = (qp2, Ok q2) ->
     bin_deserialize b_kv_query_params (bin_serialize b_kv_query_params qp2) = Ok s2 ->
     forall key', kv_generate_query dbg s2 key' = (s2, Err EParamsReused)).
Proof. exact reloaded_state_stays_used. Qed.
Print Assumptions C65_reloaded_state_stays_used.

(** C65: example: the bytes and the text of a query and of a filter-parameter set; a flag byte
    that is neither 0 nor 1, and a cut, are errors. *)
Example C65_serde_example :
  bin_serialize b_query [1; 258] = [2; 0; 0; 0; 0; 0; 0; 0; 1; 0; 0; 0; 2; 1; 0; 0] /\
  json_to_string j_query [1; 258] = bytes_of "[1,258]" /\
  json_to_string j_index_params {| ip_dim := 2; ip_m := 1; ip_public_seed := repeat 7 32; ip_rhs := [[5]]; ip_elem_size := 8; ip_plaintext_bits := 10 |} =
    bytes_of "{""dim"":2,""m"":1,""public_seed"":[7,7,7,7,7,7,7,7,7,7,7,7,7,7,7,7,7,7,7,7,7,7,7,7,7,7,7,7,7,7,7,7],""rhs"":[[5]],""elem_size"":8,""plaintext_bits"":10}" /\
  (let q := {| qp_lhs := [9]; qp_rhs := []; qp_elem_size := 8; qp_plaintext_bits := 10; qp_extra := None; qp_used := true |} in
   wt_query_params q /\
   bin_serialize b_kv_query_params q = [1; 0; 0; 0; 0; 0; 0; 0; 9; 0; 0; 0; 0; 0; 0; 0; 0; 0; 0; 0; 8; 0; 0; 0; 0; 0; 0; 0; 10; 0; 0; 0; 0; 0; 0; 0; 0; 1] /\
   json_from_str j_kv_query_params (bytes_of "{""used"":true,""db"":null,""rhs"":[],""lhs"":[9],""plaintext_bits"":10,""elem_size"":8}") = Ok q /\
   bin_deserialize b_kv_query_params ([1; 0; 0; 0; 0; 0; 0; 0; 9; 0; 0; 0; 0; 0; 0; 0; 0; 0; 0; 0; 8; 0; 0; 0; 0; 0; 0; 0; 10; 0; 0; 0; 0; 0; 0; 0; 0; 2]) = Err EDeserialize) /\
  bin_deserialize b_query [2; 0; 0; 0; 0; 0; 0; 0; 1; 0; 0; 0; 2; 1; 0] = Err EDeserialize.
Proof. exact serde_example. Qed.

(** C65: example: shards that construction returns, and that therefore survive. *)
Example C65_serde_shard_example :
  (exists sh, shard_from_base64_strings ex_prg true (repeat 7 32) [b64_encode [1; 2]; b64_encode [3; 4]] 2 2 16 10 = Ok sh /\
     bin_deserialize b_shard (bin_serialize b_shard sh) = Ok sh /\ json_from_str j_shard (json_to_string j_shard sh) = Ok sh) /\
  (exists sh, kv_shard_new ex_prg true (est 3 12) ex_rnd seed0 (repeat 7 32) ex_kvs 2 3 19 10 = Ok sh /\
     bin_deserialize b_kv_shard (bin_serialize b_kv_shard sh) = Ok sh /\ json_from_str j_kv_shard (json_to_string j_kv_shard sh) = Ok sh).
Proof. exact serde_shard_example. Qed.
