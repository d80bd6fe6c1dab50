(** Property theorems; each restates a lemma proved in Claims_read.v. *)
From Coq Require Import String Permutation.
From Verif Require Import Base Db Api Json Files Serde SpecJson SpecSerde SpecRead Claims_json Claims_read.
Local Open Scope Z_scope.

(** C82: Reading JSON gives a value exactly when the text is a JSON document that denotes it (see
    [SpecRead]: fields by name in any order, unknown members ignored, or the array of the fields;
    numbers in range; arrays of the right length); every other text is an error, never a panic.
    For every type the library and (with feature "serde") the filter crate can read. *)
Theorem C82_json_reading : forall k,
  exact_text d_words (json_from_str j_query) /\
  exact_text d_words (json_from_str j_response) /\
  exact_text d_matrix (json_from_str j_common_params) /\
  exact_text d_filter_params (json_from_str j_filter_params) /\
  exact_text d_index_db (json_from_str j_index_db) /\
  exact_text d_index_params (json_from_str j_index_params) /\
  exact_text d_shard (json_from_str j_shard) /\
  exact_text d_key_value (json_from_str j_key_value) /\
  exact_text d_kv_db (json_from_str j_kv_db) /\
  exact_text d_kv_params (json_from_str j_kv_params) /\
  exact_text d_kv_shard (json_from_str j_kv_shard) /\
  exact_text d_encoded_kv (json_from_str j_encoded_kv) /\
  exact_text d_kv_query_params (json_from_str j_kv_query_params) /\
  exact_text d_index_query_params (json_from_str j_index_query_params) /\
  exact_text d_bfusep (json_from_str j_bfusep) /\
  exact_text (d_bfuse k) (json_from_str (j_bfuse k)) /\
  exact_text (d_xor k) (json_from_str (j_xor k)) /\
  exact_text (d_fuse k) (json_from_str (j_fuse k)).
Proof. exact json_reading. Qed.
Print Assumptions C82_json_reading.

(** C82: The formatting of a text, the order of an object's members and members of other names
    never matter, whether the text is accepted or not. *)
Theorem C82_formatting_free : forall k,
  (forall s s' v, json_document s v -> json_document s' v ->
     json_from_str j_query s = json_from_str j_query s' /\
     json_from_str j_response s = json_from_str j_response s' /\
     json_from_str j_common_params s = json_from_str j_common_params s' /\
     json_from_str j_shard s = json_from_str j_shard s' /\
     json_from_str j_kv_shard s = json_from_str j_kv_shard s') /\
  members_free ["seed"; "segment_length"; "segment_length_mask"; "segment_count_length"]%string (json_from_str j_filter_params) /\
  members_free ["entries"; "m"; "elem_size"; "plaintext_bits"]%string (json_from_str j_index_db) /\
  members_free ["dim"; "m"; "public_seed"; "rhs"; "elem_size"; "plaintext_bits"]%string (json_from_str j_index_params) /\
  members_free ["db"; "base_params"]%string (json_from_str j_shard) /\
  members_free ["key"; "value"]%string (json_from_str j_key_value) /\
  members_free ["entries"; "m"; "elem_size"; "plaintext_bits"; "filter_params"]%string (json_from_str j_kv_db) /\
  members_free ["dim"; "m"; "public_seed"; "rhs"; "elem_size"; "plaintext_bits"; "filter_params"]%string (json_from_str j_kv_params) /\
  members_free ["db"; "base_params"]%string (json_from_str j_kv_shard) /\
  members_free ["key"; "value"]%string (json_from_str j_encoded_kv) /\
  members_free ["lhs"; "rhs"; "elem_size"; "plaintext_bits"; "db"; "extra_params"; "used"]%string (json_from_str j_kv_query_params) /\
  members_free ["lhs"; "rhs"; "elem_size"; "plaintext_bits"; "db"; "extra_params"; "used"]%string (json_from_str j_index_query_params) /\
  members_free ["seed"; "segment_length"; "segment_length_mask"; "segment_count_length"; "fingerprints"; "ptxt_mod"]%string (json_from_str j_bfusep) /\
  members_free ["seed"; "segment_length"; "segment_length_mask"; "segment_count_length"; "fingerprints"]%string (json_from_str (j_bfuse k)) /\
  members_free ["seed"; "block_length"; "fingerprints"]%string (json_from_str (j_xor k)) /\
  members_free ["seed"; "segment_length"; "fingerprints"]%string (json_from_str (j_fuse k)).
Proof. exact formatting_free. Qed.
Print Assumptions C82_formatting_free.

(** C82: Whatever text is accepted, the value fits its type, so that all the round trips of C65
    apply to it; in particular writing it again and reading that gives the same value. *)
Theorem C82_accepted_values_fit : forall k, (k <= 8)%nat ->
  settles wt_words (json_to_string j_query) (json_from_str j_query) /\
  settles wt_words (json_to_string j_response) (json_from_str j_response) /\
  settles wt_matrix (json_to_string j_common_params) (json_from_str j_common_params) /\
  settles wt_filter_params (json_to_string j_filter_params) (json_from_str j_filter_params) /\
  settles wt_index_db (json_to_string j_index_db) (json_from_str j_index_db) /\
  settles wt_index_params (json_to_string j_index_params) (json_from_str j_index_params) /\
  settles wt_shard (json_to_string j_shard) (json_from_str j_shard) /\
  settles wt_key_value (json_to_string j_key_value) (json_from_str j_key_value) /\
  settles wt_kv_db (json_to_string j_kv_db) (json_from_str j_kv_db) /\
  settles wt_kv_params (json_to_string j_kv_params) (json_from_str j_kv_params) /\
  settles wt_kv_shard (json_to_string j_kv_shard) (json_from_str j_kv_shard) /\
  settles wt_encoded_kv (json_to_string j_encoded_kv) (json_from_str j_encoded_kv) /\
  settles wt_query_params (json_to_string j_kv_query_params) (json_from_str j_kv_query_params) /\
  settles (fun q => wt_query_params q /\ qp_extra q = None) (json_to_string j_index_query_params) (json_from_str j_index_query_params) /\
  settles wt_bfusep (json_to_string j_bfusep) (json_from_str j_bfusep) /\
  settles (wt_bfuse k) (json_to_string (j_bfuse k)) (json_from_str (j_bfuse k)) /\
  settles (wt_xor k) (json_to_string (j_xor k)) (json_from_str (j_xor k)) /\
  settles (wt_fuse k) (json_to_string (j_fuse k)) (json_from_str (j_fuse k)).
Proof. exact accepted_values_fit. Qed.
Print Assumptions C82_accepted_values_fit.

(** C52: Every string read from a JSON input file is itself UTF-8. *)
Theorem C52_file_strings_are_text : forall c,
  (forall strs, strings_file c strs -> Forall utf8_text strs) /\
  (forall kvs, kvs_file c kvs -> Forall (fun kv => utf8_text (fst kv) /\ utf8_text (snd kv)) kvs).
Proof. exact file_strings_are_text. Qed.
Print Assumptions C52_file_strings_are_text.

(** C82: example: a filter-parameter set with the members in another order, blanks and an unknown
    member; and what is refused: a member twice, a member missing, a number that does not fit, a
    negative number, a number with a fraction, a seed of 31 bytes, an array one field short. *)
Example C82_json_reading_example :
  let seed := sample_seed 32 in
  let read s := json_from_str j_filter_params s in
  read (bytes_of " {""segment_count_length"": 8 , ""x"": [{}, null, -1.5e3], ""segment_length"" :4294967295,""seed"":" ++ seed ++
        bytes_of ", ""segment_length_mask"" : 3}")%list = Ok sample_params /\
  read (bytes_of "[" ++ seed ++ bytes_of ",4294967295,3,8]")%list = Ok sample_params /\
  read (bytes_of "{""seed"":" ++ seed ++ bytes_of ",""segment_length"":1,""segment_length"":1,""segment_length_mask"":3,""segment_count_length"":8}")%list = Err EDeserialize /\
  read (bytes_of "{""seed"":" ++ seed ++ bytes_of ",""segment_length"":1,""segment_length_mask"":3}")%list = Err EDeserialize /\
  read (bytes_of "[" ++ seed ++ bytes_of ",4294967296,3,8]")%list = Err EDeserialize /\
  read (bytes_of "[" ++ seed ++ bytes_of ",-1,3,8]")%list = Err EDeserialize /\
  read (bytes_of "[" ++ seed ++ bytes_of ",1.0,3,8]")%list = Err EDeserialize /\
  read (bytes_of "[" ++ sample_seed 31 ++ bytes_of ",1,3,8]")%list = Err EDeserialize /\
  read (bytes_of "[" ++ seed ++ bytes_of ",1,3]")%list = Err EDeserialize.
Proof. exact json_reading_example. Qed.

(** C82: example: query parameters: the optional field present, null and left out; and a key-value
    set read as an index one (refused: an index set has no such value unless it is an object). *)
Example C82_query_params_reading_example :
  let q u := {| qp_lhs := [1]; qp_rhs := [2]; qp_elem_size := 8; qp_plaintext_bits := 10; qp_extra := None; qp_used := u |} in
  json_from_str j_kv_query_params (bytes_of "{""used"":false,""lhs"":[1],""rhs"":[2],""elem_size"":8,""plaintext_bits"":10,""db"":null}") = Ok (q false) /\
  json_from_str j_index_query_params (bytes_of "{""used"":true,""lhs"":[1],""rhs"":[2],""elem_size"":8,""plaintext_bits"":10,""db"":null,""extra_params"":{}}") = Ok (q true) /\
  json_from_str j_index_query_params (bytes_of "[[1],[2],8,10,null,null,true]") = Ok (q true) /\
  json_from_str j_index_query_params (bytes_of "[[1],[2],8,10,null,true]") = Err EDeserialize /\
  json_from_str j_kv_query_params (bytes_of "[[1],[2],8,10,null,{},true]") = Err EDeserialize.
Proof. exact query_params_reading_example. Qed.
