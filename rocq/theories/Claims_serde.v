(** C65: saving, sending and reloading values (serde derives, bincode and JSON). *)
From Coq Require Import String.
From Verif Require Import Base Fmt Mat Lwe Bincode Db Api Json Files Spec SpecFilter SpecJson Serde SpecSerde SpecFiles
  Base_facts Fmt_facts Mat_facts Codec_facts Index_facts IndexProto_facts Json_facts Files_facts JsonSpec_facts Geom_facts
  FilterTop_facts KV_facts Serde_facts Claims_files Claims_filter Claims_kv Claims_kvbuild.
Local Open Scope Z_scope.

(** @C65 bincode, every serialisable type of the crate: a byte string is accepted exactly when
    it starts with the encoding of a value that fits the type, and that value is the result;
    every other byte string is an error, never a panic. *)
Lemma bincode_exact :
  exact_binary wt_words (bin_serialize b_query) (bin_deserialize b_query) /\
  exact_binary wt_words (bin_serialize b_response) (bin_deserialize b_response) /\
  exact_binary wt_matrix (bin_serialize b_common_params) (bin_deserialize b_common_params) /\
  exact_binary wt_filter_params (bin_serialize b_filter_params) (bin_deserialize b_filter_params) /\
  exact_binary wt_index_db (bin_serialize b_index_db) (bin_deserialize b_index_db) /\
  exact_binary wt_index_params (bin_serialize b_index_params) (bin_deserialize b_index_params) /\
  exact_binary wt_shard (bin_serialize b_shard) (bin_deserialize b_shard) /\
  exact_binary wt_key_value (bin_serialize b_key_value) (bin_deserialize b_key_value) /\
  exact_binary wt_kv_db (bin_serialize b_kv_db) (bin_deserialize b_kv_db) /\
  exact_binary wt_kv_params (bin_serialize b_kv_params) (bin_deserialize b_kv_params) /\
  exact_binary wt_kv_shard (bin_serialize b_kv_shard) (bin_deserialize b_kv_shard) /\
  exact_binary wt_encoded_kv (bin_serialize b_encoded_kv) (bin_deserialize b_encoded_kv) /\
  exact_binary wt_query_params (bin_serialize b_kv_query_params) (bin_deserialize b_kv_query_params).
Proof.
  split; [exact (exact_of_law _ _ words_law)|]. split; [exact (exact_of_law _ _ words_law)|].
  split; [exact (exact_of_law _ _ matrix_law)|]. split; [exact (exact_of_law _ _ filter_params_law)|].
  split; [exact (exact_of_law _ _ index_db_law)|]. split; [exact (exact_of_law _ _ index_params_law)|].
  split; [exact (exact_of_law _ _ shard_law)|]. split; [exact (exact_of_law _ _ key_value_law)|].
  split; [exact (exact_of_law _ _ kv_db_law)|]. split; [exact (exact_of_law _ _ kv_params_law)|].
  split; [exact (exact_of_law _ _ kv_shard_law)|]. split; [exact (exact_of_law _ _ encoded_kv_law)|].
  exact (exact_of_law _ _ kv_query_params_law).
Qed.

(** @C65 The same for the filters of bff-modp ([k] = 1, 2 or 4 bytes per fingerprint; any [k]). *)
Lemma bincode_exact_filters : forall k,
  exact_binary wt_bfusep (bin_serialize b_bfusep) (bin_deserialize b_bfusep) /\
  exact_binary (wt_bfuse k) (bin_serialize (b_bfuse k)) (bin_deserialize (b_bfuse k)) /\
  exact_binary (wt_xor k) (bin_serialize (b_xor k)) (bin_deserialize (b_xor k)) /\
  exact_binary (wt_fuse k) (bin_serialize (b_fuse k)) (bin_deserialize (b_fuse k)).
Proof.
  intros k. split; [exact (exact_of_law _ _ bfusep_law)|]. split; [exact (exact_of_law _ _ (bfuse_law k))|].
  split; [exact (exact_of_law _ _ (xor_law k))|exact (exact_of_law _ _ (fuse_law k))].
Qed.


(** @C65 JSON: the text of every value that fits its type is UTF-8 and reads back as the same
    value. *)
Lemma json_round_trip : forall k, (k <= 8)%nat ->
  text_round_trip wt_words (json_to_string j_query) (json_from_str j_query) /\
  text_round_trip wt_words (json_to_string j_response) (json_from_str j_response) /\
  text_round_trip wt_matrix (json_to_string j_common_params) (json_from_str j_common_params) /\
  text_round_trip wt_filter_params (json_to_string j_filter_params) (json_from_str j_filter_params) /\
  text_round_trip wt_index_db (json_to_string j_index_db) (json_from_str j_index_db) /\
  text_round_trip wt_index_params (json_to_string j_index_params) (json_from_str j_index_params) /\
  text_round_trip wt_shard (json_to_string j_shard) (json_from_str j_shard) /\
  text_round_trip wt_key_value (json_to_string j_key_value) (json_from_str j_key_value) /\
  text_round_trip wt_kv_db (json_to_string j_kv_db) (json_from_str j_kv_db) /\
  text_round_trip wt_kv_params (json_to_string j_kv_params) (json_from_str j_kv_params) /\
  text_round_trip wt_kv_shard (json_to_string j_kv_shard) (json_from_str j_kv_shard) /\
  text_round_trip wt_encoded_kv (json_to_string j_encoded_kv) (json_from_str j_encoded_kv) /\
  text_round_trip wt_query_params (json_to_string j_kv_query_params) (json_from_str j_kv_query_params) /\
  text_round_trip wt_bfusep (json_to_string j_bfusep) (json_from_str j_bfusep) /\
  text_round_trip (wt_bfuse k) (json_to_string (j_bfuse k)) (json_from_str (j_bfuse k)) /\
  text_round_trip (wt_xor k) (json_to_string (j_xor k)) (json_from_str (j_xor k)) /\
  text_round_trip (wt_fuse k) (json_to_string (j_fuse k)) (json_from_str (j_fuse k)).
Proof.
  intros k Hk.
  split; [exact (text_of_law _ _ j_words_law)|]. split; [exact (text_of_law _ _ j_words_law)|].
  split; [exact (text_of_law _ _ j_matrix_law)|]. split; [exact (text_of_law _ _ j_filter_params_law)|].
  split; [exact (text_of_law _ _ j_index_db_law)|]. split; [exact (text_of_law _ _ j_index_params_law)|].
  split; [exact (text_of_law _ _ j_shard_law)|]. split; [exact (text_of_law _ _ j_key_value_law)|].
  split; [exact (text_of_law _ _ j_kv_db_law)|]. split; [exact (text_of_law _ _ j_kv_params_law)|].
  split; [exact (text_of_law _ _ j_kv_shard_law)|]. split; [exact (text_of_law _ _ j_encoded_kv_law)|].
  split; [exact (text_of_law _ _ j_kv_query_params_law)|]. split; [exact (text_of_law _ _ j_bfusep_law)|].
  split; [exact (text_of_law _ _ (j_bfuse_law k Hk))|]. split; [exact (text_of_law _ _ (j_xor_law k Hk))|].
  exact (text_of_law _ _ (j_fuse_law k Hk)).
Qed.

(** @C65 Index query parameters (their [extra_params] is [None]): both formats. *)
Lemma index_query_params_round_trip : forall q rest, wt_query_params q -> qp_extra q = None ->
  bin_deserialize b_index_query_params (bin_serialize b_index_query_params q ++ rest) = Ok q /\
  json_from_str j_index_query_params (json_to_string j_index_query_params q) = Ok q.
Proof.
  intros q rest H E. split.
  - unfold bin_deserialize, bin_serialize. now rewrite (proj2 (index_query_params_law1 q (conj H E)) rest).
  - exact (proj2 (text_of_law _ _ j_index_query_params_law q (conj H E))).
Qed.

(** @C65 Query parameters written as JSON without their [extra_params] field are read, with no
    filter parameters: harmless for an index client; a key-value client's query and parse then
    fail with an error. (In bincode the field cannot be left out.) *)
Lemma missing_extra_params : forall q s, wt_query_params q -> qp_extra q = None ->
  json_document s (JObj [(bytes_of "lhs", JArr (map JInt (qp_lhs q))); (bytes_of "rhs", JArr (map JInt (qp_rhs q)));
    (bytes_of "elem_size", JInt (Z.of_nat (qp_elem_size q))); (bytes_of "plaintext_bits", JInt (Z.of_nat (qp_plaintext_bits q)));
    (bytes_of "db", JNull); (bytes_of "used", JBool (qp_used q))]) ->
  json_from_str j_index_query_params s = Ok q /\ json_from_str j_kv_query_params s = Ok q /\
  ((1 <= qp_plaintext_bits q <= 31)%nat -> forall dbg key resp,
     kv_generate_query dbg q key = (if qp_used q then (q, Err EParamsReused) else (set_used true q, Err ENoFilterParams)) /\
     kv_parse_resp_as_row dbg q resp key = Err ENoFilterParams).
Proof.
  intros q s W N D. apply parse_text_iff in D.
  pose proof W as (W1 & W2 & W3 & W4 & _).
  assert (E1 : jdec j_words (JArr (map JInt (qp_lhs q))) = Some (qp_lhs q)) by exact (proj1 (j_words_law _ W1)).
  assert (E2 : jdec j_words (JArr (map JInt (qp_rhs q))) = Some (qp_rhs q)) by exact (proj1 (j_words_law _ W2)).
  assert (E3 : jdec j_usize (JInt (Z.of_nat (qp_elem_size q))) = Some (qp_elem_size q)) by exact (proj1 (j_usize_law _ W3)).
  assert (E4 : jdec j_usize (JInt (Z.of_nat (qp_plaintext_bits q))) = Some (qp_plaintext_bits q)) by exact (proj1 (j_usize_law _ W4)).
  unfold json_from_str. rewrite D. split; [|split].
  - unfold j_index_query_params, j_iso. cbn [jdec j_struct fnames foptional f_cons f_opt f_nil].
    match goal with |- context[struct_fields ?a ?b] => replace (struct_fields a b) with (Some [JArr (map JInt (qp_lhs q)); JArr (map JInt (qp_rhs q));
      JInt (Z.of_nat (qp_elem_size q)); JInt (Z.of_nat (qp_plaintext_bits q)); JNull; JNull; JBool (qp_used q)]) by reflexivity end.
    cbn [fdec f_cons f_opt f_nil]. rewrite E1, E2, E3, E4. cbn. rewrite <- N. destruct q; reflexivity.
  - unfold j_kv_query_params, j_iso. cbn [jdec j_struct fnames foptional f_cons f_opt f_nil].
    match goal with |- context[struct_fields ?a ?b] => replace (struct_fields a b) with (Some [JArr (map JInt (qp_lhs q)); JArr (map JInt (qp_rhs q));
      JInt (Z.of_nat (qp_elem_size q)); JInt (Z.of_nat (qp_plaintext_bits q)); JNull; JNull; JBool (qp_used q)]) by reflexivity end.
    cbn [fdec f_cons f_opt f_nil]. rewrite E1, E2, E3, E4. cbn. rewrite <- N. destruct q; reflexivity.
  - intros P dbg key resp. split; [|now apply kv_parse_needs_filter_params].
    unfold kv_generate_query. destruct (qp_used q); [reflexivity|]. rewrite get_rounding_factor_ok by lia. cbn [bind]. now rewrite N.
Qed.

(** @C65 A file cut short is an error in both formats, whatever the value and the cut. *)
Lemma cut_is_error :
  torn_is_error wt_shard (bin_serialize b_shard) (bin_deserialize b_shard) /\
  torn_is_error wt_kv_shard (bin_serialize b_kv_shard) (bin_deserialize b_kv_shard) /\
  torn_is_error wt_index_params (bin_serialize b_index_params) (bin_deserialize b_index_params) /\
  torn_is_error wt_kv_params (bin_serialize b_kv_params) (bin_deserialize b_kv_params) /\
  torn_is_error wt_query_params (bin_serialize b_kv_query_params) (bin_deserialize b_kv_query_params) /\
  torn_is_error wt_words (bin_serialize b_query) (bin_deserialize b_query) /\
  torn_is_error wt_words (bin_serialize b_response) (bin_deserialize b_response) /\
  torn_is_error wt_bfusep (bin_serialize b_bfusep) (bin_deserialize b_bfusep) /\
  torn_is_error wt_shard (json_to_string j_shard) (json_from_str j_shard) /\
  torn_is_error wt_kv_shard (json_to_string j_kv_shard) (json_from_str j_kv_shard) /\
  torn_is_error wt_index_params (json_to_string j_index_params) (json_from_str j_index_params) /\
  torn_is_error wt_kv_params (json_to_string j_kv_params) (json_from_str j_kv_params) /\
  torn_is_error wt_query_params (json_to_string j_kv_query_params) (json_from_str j_kv_query_params) /\
  torn_is_error wt_words (json_to_string j_query) (json_from_str j_query) /\
  torn_is_error wt_words (json_to_string j_response) (json_from_str j_response) /\
  torn_is_error wt_bfusep (json_to_string j_bfusep) (json_from_str j_bfusep).
Proof.
  split; [exact (torn_of_law _ _ shard_law)|]. split; [exact (torn_of_law _ _ kv_shard_law)|].
  split; [exact (torn_of_law _ _ index_params_law)|]. split; [exact (torn_of_law _ _ kv_params_law)|].
  split; [exact (torn_of_law _ _ kv_query_params_law)|]. split; [exact (torn_of_law _ _ words_law)|].
  split; [exact (torn_of_law _ _ words_law)|]. split; [exact (torn_of_law _ _ bfusep_law)|].
  split; [exact (json_torn_of_law _ _ j_shard_law (fun _ => I))|].
  split; [exact (json_torn_of_law _ _ j_kv_shard_law (fun _ => I))|].
  split; [exact (json_torn_of_law _ _ j_index_params_law (fun _ => I))|].
  split; [exact (json_torn_of_law _ _ j_kv_params_law (fun _ => I))|].
  split; [exact (json_torn_of_law _ _ j_kv_query_params_law (fun _ => I))|].
  split; [exact (json_torn_of_law _ _ j_words_law (fun _ => I))|].
  split; [exact (json_torn_of_law _ _ j_words_law (fun _ => I))|].
  exact (json_torn_of_law _ _ j_bfusep_law (fun _ => I)).
Qed.

(** @C65 The serialisation of a response is the one [respond] uses, and the reader the one the
    client uses; the JSON of [IndexParams] is the one [IndexParams::load] expects. *)
Lemma same_formats :
  (forall v, bincode_ser_vec_u32 v = bin_serialize b_response v) /\
  (forall p, json_to_string j_index_params p = write_json (ser_index_params p)) /\
  (forall d path text, d path = Some text -> index_params_load d path = json_from_str j_index_params text).
Proof.
  split; [reflexivity|]. split; [reflexivity|]. intros d path text E. unfold index_params_load, json_from_str. rewrite E.
  f_equal. destruct (parse_text text) as [v|]; [|reflexivity]. unfold de_index_params, j_index_params. cbn [j_iso jdec j_struct f_cons f_nil fnames foptional]. rewrite null_missing_none.
  change [bytes_of "dim"; bytes_of "m"; bytes_of "public_seed"; bytes_of "rhs"; bytes_of "elem_size"; bytes_of "plaintext_bits"] with index_params_names.
  destruct (struct_fields index_params_names v) as [l|]; [|reflexivity].
  cbn [fdec f_cons f_nil]. change (jdec j_usize) with de_usize. change (jdec j_seed) with de_u8_32.
  change (jdec j_matrix) with (de_vec (de_vec (de_uint two32))).
  destruct l as [|a [|b [|c [|r [|e [|p [|x l]]]]]]]; try reflexivity;
    repeat match goal with |- context[match ?x with Some _ => _ | None => _ end] =>
             match x with context[match _ with Some _ => _ | None => _ end] => fail 1 | _ => destruct x end end; reflexivity.
Qed.

(** Every value of a session survives the trip, in both formats: [survives] says so for one
    value, whatever bytes follow it in the buffer. *)
Lemma survive_bin {A} (P : A -> Prop) c : blaw P c -> forall a rest, P a -> bin_deserialize c (bin_serialize c a ++ rest) = Ok a.
Proof. intros [L _] a rest H. unfold bin_deserialize, bin_serialize. now rewrite (proj2 (L a H)). Qed.
Lemma survive_json {A} (P : A -> Prop) c : jlaw P c -> forall a, P a -> json_from_str c (json_to_string c a) = Ok a.
Proof. intros L a H. exact (proj2 (text_of_law _ _ L a H)). Qed.

(** @C65 Every index shard that construction returns reloads from its own serialisation (in
    contrast to the files of [write_to_file], C41), and every value of a session with it (the
    parameters sent to the client, the client's saved state before and after the query, the
    query, the response) arrives as it was sent. *)
Lemma index_session_survives : forall prg dbg seed strs dim m es pb sh,
  (1 <= pb <= 32)%nat -> wt_seed seed -> wt_usize dim -> wt_usize m -> wt_usize es ->
  shard_from_base64_strings prg dbg seed strs dim m es pb = Ok sh ->
  bin_deserialize b_shard (bin_serialize b_shard sh) = Ok sh /\
  json_from_str j_shard (json_to_string j_shard sh) = Ok sh /\
  bin_deserialize b_index_params (bin_serialize b_index_params (sh_params sh)) = Ok (sh_params sh) /\
  json_from_str j_index_params (json_to_string j_index_params (sh_params sh)) = Ok (sh_params sh) /\
  forall tape qp tape', generate_index_query_params (index_common_params prg (sh_params sh)) (sh_params sh) tape = Ok (qp, tape') ->
    bin_deserialize b_index_query_params (bin_serialize b_index_query_params qp) = Ok qp /\
    json_from_str j_index_query_params (json_to_string j_index_query_params qp) = Ok qp /\
    forall i qp' q, index_generate_query dbg qp i = (qp', Ok q) ->
      bin_deserialize b_index_query_params (bin_serialize b_index_query_params qp') = Ok qp' /\
      json_from_str j_index_query_params (json_to_string j_index_query_params qp') = Ok qp' /\
      bin_deserialize b_query (bin_serialize b_query q) = Ok q /\
      json_from_str j_query (json_to_string j_query q) = Ok q /\
      forall bytes, shard_respond sh q = Ok bytes ->
        exists resp, bytes = bin_serialize b_response resp /\ bin_deserialize b_response bytes = Ok resp.
Proof.
  intros prg dbg seed strs dim m es pb sh Hpb Hs Hd Hm He H.
  destruct (constructed_wt _ _ _ _ _ _ _ _ _ Hpb Hs Hd Hm He H) as (T & Tp & Tm). pose proof T as [_ Tq].
  assert (B : forall A (P : A -> Prop) c a, blaw P c -> P a -> bin_deserialize c (bin_serialize c a) = Ok a).
  { intros A P c a L X. rewrite <- (app_nil_r (bin_serialize c a)). exact (survive_bin P c L a [] X). }
  split; [exact (B _ _ _ _ shard_law T)|]. split; [exact (survive_json _ _ j_shard_law _ T)|].
  split; [exact (B _ _ _ _ index_params_law Tq)|]. split; [exact (survive_json _ _ j_index_params_law _ Tq)|].
  intros tape qp tape' Eg.
  assert (Lc : wt_usize (length (index_common_params prg (sh_params sh)))).
  { unfold index_common_params, generate_lwe_matrix_from_seed. rewrite map_length, seq_length, Tm. exact Hm. }
  destruct (index_qp_typed _ _ _ _ _ Tq Lc Eg) as [Q Qn].
  assert (RQ : forall x, wt_query_params x -> qp_extra x = None ->
     bin_deserialize b_index_query_params (bin_serialize b_index_query_params x) = Ok x /\
     json_from_str j_index_query_params (json_to_string j_index_query_params x) = Ok x).
  { intros x X1 X2. rewrite <- (app_nil_r (bin_serialize b_index_query_params x)). now apply index_query_params_round_trip. }
  destruct (RQ qp Q Qn) as [R1 R2]. split; [exact R1|]. split; [exact R2|].
  intros i qp' q Eq. destruct (index_query_typed _ _ _ _ _ Q Eq) as [W Q'].
  assert (Qn' : qp_extra qp' = None).
  { unfold index_generate_query in Eq. destruct (qp_used qp); [discriminate|]. apply (f_equal fst) in Eq. cbn [fst] in Eq. rewrite <- Eq. exact Qn. }
  destruct (RQ qp' Q' Qn') as [R3 R4]. split; [exact R3|]. split; [exact R4|].
  split; [exact (B _ _ _ _ words_law W)|]. split; [exact (survive_json _ _ j_words_law _ W)|].
  intros bytes Er. apply shard_respond_typed in Er as (resp & Wr & ->); [|exact T|clear - Tp Hpb; lia].
  exists resp. split; [reflexivity|]. exact (B _ _ _ _ words_law Wr).
Qed.

(** @C65 The same for key-value shards, whose filter parameters travel inside the parameters
    and the client's state. *)
Lemma kv_session_survives : forall prg dbg fe rnd fseed pseed kvs dim m es pb sh,
  sane_estimates fe (length kvs) -> (1 <= pb <= 31)%nat -> wt_seed fseed -> wt_seed pseed ->
  wt_usize dim -> wt_usize m -> wt_usize es -> Forall wt_key_value kvs ->
  kv_shard_new prg dbg fe rnd fseed pseed kvs dim m es pb = Ok sh ->
  bin_deserialize b_kv_shard (bin_serialize b_kv_shard sh) = Ok sh /\
  json_from_str j_kv_shard (json_to_string j_kv_shard sh) = Ok sh /\
  bin_deserialize b_kv_params (bin_serialize b_kv_params (ks_params sh)) = Ok (ks_params sh) /\
  json_from_str j_kv_params (json_to_string j_kv_params (ks_params sh)) = Ok (ks_params sh) /\
  forall tape qp tape', generate_kv_query_params (kv_common_params prg (ks_params sh)) (ks_params sh) tape = Ok (qp, tape') ->
    bin_deserialize b_kv_query_params (bin_serialize b_kv_query_params qp) = Ok qp /\
    json_from_str j_kv_query_params (json_to_string j_kv_query_params qp) = Ok qp /\
    forall key qp' q, kv_generate_query dbg qp key = (qp', Ok q) ->
      bin_deserialize b_kv_query_params (bin_serialize b_kv_query_params qp') = Ok qp' /\
      json_from_str j_kv_query_params (json_to_string j_kv_query_params qp') = Ok qp' /\
      bin_deserialize b_query (bin_serialize b_query q) = Ok q /\
      json_from_str j_query (json_to_string j_query q) = Ok q /\
      forall bytes, kv_shard_respond sh q = Ok bytes ->
        exists resp, bytes = bin_serialize b_response resp /\ bin_deserialize b_response bytes = Ok resp.
Proof.
  intros prg dbg fe rnd fseed pseed kvs dim m es pb sh Hfe Hpb Hfs Hps Hd Hm He Hk H.
  destruct (kv_constructed_wt _ _ _ _ _ _ _ _ _ _ _ _ Hfe Hpb Hfs Hps Hd Hm He Hk H) as (T & Tp). pose proof T as [_ Tq].
  assert (B : forall A (P : A -> Prop) c a, blaw P c -> P a -> bin_deserialize c (bin_serialize c a) = Ok a).
  { intros A P c a L X. rewrite <- (app_nil_r (bin_serialize c a)). exact (survive_bin P c L a [] X). }
  split; [exact (B _ _ _ _ kv_shard_law T)|]. split; [exact (survive_json _ _ j_kv_shard_law _ T)|].
  split; [exact (B _ _ _ _ kv_params_law Tq)|]. split; [exact (survive_json _ _ j_kv_params_law _ Tq)|].
  intros tape qp tape' Eg.
  assert (Lc : wt_usize (length (kv_common_params prg (ks_params sh)))).
  { unfold kv_common_params, generate_lwe_matrix_from_seed. rewrite map_length, seq_length. apply Tq. }
  pose proof (kv_qp_typed _ _ _ _ _ Tq Lc Eg) as Q.
  split; [exact (B _ _ _ _ kv_query_params_law Q)|]. split; [exact (survive_json _ _ j_kv_query_params_law _ Q)|].
  intros key qp' q Eq. destruct (kv_query_typed _ _ _ _ _ Q Eq) as [W Q'].
  split; [exact (B _ _ _ _ kv_query_params_law Q')|]. split; [exact (survive_json _ _ j_kv_query_params_law _ Q')|].
  split; [exact (B _ _ _ _ words_law W)|]. split; [exact (survive_json _ _ j_words_law _ W)|].
  intros bytes Er. apply kv_shard_respond_typed in Er as (resp & Wr & ->); [|exact T|clear - Tp Hpb; lia].
  exists resp. split; [reflexivity|]. exact (B _ _ _ _ words_law Wr).
Qed.

(** @C65 A client whose state was saved after its query and reloaded still refuses a second
    query. *)
Lemma reloaded_state_stays_used : forall dbg qp i key qp1 q1 qp2 q2 s1 s2,
  wt_query_params qp ->
  (qp_extra qp = None -> index_generate_query dbg qp i = (qp1, Ok q1) ->
     bin_deserialize b_index_query_params (bin_serialize b_index_query_params qp1) = Ok s1 ->
     forall i', index_generate_query dbg s1 i' = (s1, Err EParamsReused)) /\
  (kv_generate_query dbg qp key = (qp2, Ok q2) ->
     bin_deserialize b_kv_query_params (bin_serialize b_kv_query_params qp2) = Ok s2 ->
     forall key', kv_generate_query dbg s2 key' = (s2, Err EParamsReused)).
Proof.
  intros dbg qp i key qp1 q1 qp2 q2 s1 s2 T. split.
  - intros N E R i'. destruct (index_query_typed _ _ _ _ _ T E) as [_ T1].
    unfold index_generate_query in E. destruct (qp_used qp); [discriminate|]. apply (f_equal fst) in E. cbn [fst] in E.
    assert (N1 : qp_extra qp1 = None) by (rewrite <- E; exact N).
    destruct (index_query_params_round_trip qp1 [] T1 N1) as [R1 _]. rewrite app_nil_r in R1. rewrite R1 in R. injection R as <-.
    unfold index_generate_query. now rewrite <- E.
  - intros E R key'. destruct (kv_query_typed _ _ _ _ _ T E) as [_ T1].
    unfold kv_generate_query in E. destruct (qp_used qp); [discriminate|]. apply (f_equal fst) in E. cbn [fst] in E.
    pose proof (survive_bin _ _ kv_query_params_law qp2 [] T1) as R1. rewrite app_nil_r in R1. rewrite R1 in R. injection R as <-.
    unfold kv_generate_query. now rewrite <- E.
Qed.

(** @C65 example: the bytes and the text of a query and of a filter-parameter set; a flag byte
    that is neither 0 nor 1, and a cut, are errors. *)
Example serde_example :
  bin_serialize b_query [1; 258] = [2; 0; 0; 0; 0; 0; 0; 0; 1; 0; 0; 0; 2; 1; 0; 0] /\
  json_to_string j_query [1; 258] = bytes_of "[1,258]" /\
  json_to_string j_index_params {| ip_dim := 2; ip_m := 1; ip_public_seed := repeat 7 32; ip_rhs := [[5]]; ip_elem_size := 8; ip_plaintext_bits := 10 |} =
    bytes_of "{""dim"":2,""m"":1,""public_seed"":[7,7,7,7,7,7,7,7,7,7,7,7,7,7,7,7,7,7,7,7,7,7,7,7,7,7,7,7,7,7,7,7],""rhs"":[[5]],""elem_size"":8,""plaintext_bits"":10}" /\
  (let q := {| qp_lhs := [9]; qp_rhs := []; qp_elem_size := 8; qp_plaintext_bits := 10; qp_extra := None; qp_used := true |} in
   wt_query_params q /\
   bin_serialize b_kv_query_params q = [1; 0; 0; 0; 0; 0; 0; 0; 9; 0; 0; 0; 0; 0; 0; 0; 0; 0; 0; 0; 8; 0; 0; 0; 0; 0; 0; 0; 10; 0; 0; 0; 0; 0; 0; 0; 0; 1] /\
   json_from_str j_kv_query_params (bytes_of "{""used"":true,""db"":null,""rhs"":[],""lhs"":[9],""plaintext_bits"":10,""elem_size"":8}") = Ok q /\
   bin_deserialize b_kv_query_params ([1; 0; 0; 0; 0; 0; 0; 0; 9; 0; 0; 0; 0; 0; 0; 0; 0; 0; 0; 0; 8; 0; 0; 0; 0; 0; 0; 0; 10; 0; 0; 0; 0; 0; 0; 0; 0; 2]) = Err EDeserialize) /\
  bin_deserialize b_query [2; 0; 0; 0; 0; 0; 0; 0; 1; 0; 0; 0; 2; 1; 0] = Err EDeserialize.
Proof.
  split; [vm_compute; reflexivity|]. split; [vm_compute; reflexivity|]. split; [vm_compute; reflexivity|].
  split; [|vm_compute; reflexivity].
  split; [|split; [vm_compute; reflexivity|split; vm_compute; reflexivity]].
  unfold wt_query_params, wt_words, wt_vec, wt_usize. cbn [qp_lhs qp_rhs qp_elem_size qp_plaintext_bits qp_extra].
  change (2 ^ 64) with 18446744073709551616. cbn [length]. repeat split; try (clear; lia); repeat constructor; unfold two32; lia.
Qed.

(** @C65 example: shards that construction returns, and that therefore survive. *)
Example serde_shard_example :
  (exists sh, shard_from_base64_strings ex_prg true (repeat 7 32) [b64_encode [1; 2]; b64_encode [3; 4]] 2 2 16 10 = Ok sh /\
     bin_deserialize b_shard (bin_serialize b_shard sh) = Ok sh /\ json_from_str j_shard (json_to_string j_shard sh) = Ok sh) /\
  (exists sh, kv_shard_new ex_prg true (est 3 12) ex_rnd seed0 (repeat 7 32) ex_kvs 2 3 19 10 = Ok sh /\
     bin_deserialize b_kv_shard (bin_serialize b_kv_shard sh) = Ok sh /\ json_from_str j_kv_shard (json_to_string j_kv_shard sh) = Ok sh).
Proof.
  assert (U : forall n, (n < 1000)%nat -> wt_usize n) by (intros n Hn; unfold wt_usize; change (2 ^ 64) with 18446744073709551616; lia).
  assert (S : forall x, 0 <= x < 256 -> wt_seed (repeat x 32)).
  { intros x Hx. split; [reflexivity|]. apply Forall_forall. intros y Hy. apply repeat_spec in Hy. subst. exact Hx. }
  split.
  - destruct (shard_from_base64_strings ex_prg true (repeat 7 32) [b64_encode [1; 2]; b64_encode [3; 4]] 2 2 16 10)
      as [sh|e| |] eqn:E; [|vm_compute in E; discriminate E|vm_compute in E; discriminate E|vm_compute in E; discriminate E].
    exists sh. split; [reflexivity|].
    destruct (index_session_survives ex_prg true (repeat 7 32) _ 2 2 16 10 sh ltac:(lia) (S 7 ltac:(lia)) (U 2%nat ltac:(lia)) (U 2%nat ltac:(lia)) (U 16%nat ltac:(lia)) E) as (A & B & _).
    auto.
  - destruct (kv_build_example ex_prg ex_rnd (repeat 7 32) 2 3) as [[sh E] _]. exists sh. split; [exact E|].
    destruct (kv_session_survives ex_prg true (est 3 12) ex_rnd seed0 (repeat 7 32) ex_kvs 2 3 19 10 sh) as (A & B & _); auto; try lia.
    + apply est_sane; cbn; lia.
    + apply (S 0). lia.
    + apply (S 7). lia.
    + apply U; lia.
    + apply U; lia.
    + apply U; lia.
    + unfold ex_kvs, wt_key_value, wt_words, wt_vec, wt_usize. change (2 ^ 64) with 18446744073709551616.
      repeat constructor; cbn; unfold two32, two64; lia.
Qed.
