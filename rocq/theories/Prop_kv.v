(** Property theorems; each restates a lemma proved in Claims_kv.v. *)
From Coq Require Import Permutation.
From Verif Require Import Base Spec Fmt Base64 Bincode Mat Lwe Hash Fuse3 Bfusep Db Api SpecFilter Claims_filter Claims_index Claims_kv.
Local Open Scope Z_scope.

(** C35: every successful construction publishes one seed and one geometry, that of the number
    of keys; the matrix has one column per position of the first value, all of the same
    height, which is the published number of slots; and column c is the reduced fingerprint
    array of a filter with exactly the published seed and geometry, built from the c-th
    value entries under label c. Whatever the per-column randomness and the keys. *)
Theorem C35_kv_columns_share_geometry : forall dbg fe rnd seed kvs m es pb db,
  (pb <= 31)%nat -> kv_db_new dbg fe rnd seed kvs m es pb = Ok db ->
  exists kv0 g, nth_error kvs 0 = Some kv0 /\ geometry dbg fe (length kvs) = Ok g /\
    kd_filter_params db = {| fp_seed := seed; fp_segment_length := g_seglen g;
                             fp_segment_length_mask := g_mask g; fp_segment_count_length := g_scl g |} /\
    shape (kd_entries db) (length (kv_value kv0)) (g_arrlen g) /\
    kv_matrix_height db = Ok (g_arrlen g) /\
    forall c, (c < length (kv_value kv0))%nat -> exists f,
      from_slice dbg fe (rnd c) seed (map kv_key kvs)
        (map (fun kv => nth c (kv_value kv) 0) kvs) (Z.of_nat c) (2 ^ Z.of_nat pb) = Ok f /\
      get_fingerprints_mod f = Ok (nth c (kd_entries db) []) /\
      bp_seed f = seed /\ bp_segment_length f = g_seglen g /\ bp_segment_length_mask f = g_mask g /\
      bp_segment_count_length f = g_scl g /\ length (bp_fingerprints f) = g_arrlen g.
Proof. exact kv_columns_share_geometry. Qed.
Print Assumptions C35_kv_columns_share_geometry.

(** C35: *)
Example C35_kv_columns_example : exists db,
  kv_db_new true (est 3 12) ex_rnd seed0 ex_kvs 3 20 10 = Ok db /\
  length (kd_entries db) = 2%nat /\ kv_matrix_height db = Ok 24%nat.
Proof. exact kv_columns_example. Qed.

(** C34: A KV shard built from key-value pairs, query parameters generated from its public
    parameters with any randomness, a query for the key at position i: the query always
    succeeds, the server answers, the client decodes a row of the value's width, and the row
    is the stored value modulo 2^plaintext_bits if and only if, for every column, the inner
    product of the drawn error with the column is congruent mod 2^32 to a number in
    (-delta/2, delta/2]. The key must be the last one with its 64-bit hash; in release builds
    no slot may be shared by more than 63 keys (a debug build panics in that case). *)
Theorem C34_kv_retrieval : forall prg dbg fe rnd fseed pseed kvs dim m es pb w sh tape rest qp i kv,
  (1 <= pb <= 31)%nat -> is_ceil_div es pb w -> Z.of_nat es < 2 ^ 64 ->
  sane_estimates fe (length kvs) ->
  Forall (fun kv => length (kv_value kv) = w) kvs ->
  kv_shard_new prg dbg fe rnd fseed pseed kvs dim m es pb = Ok sh ->
  (dbg = true \/ exists slots,
     (forall key, get_hash_evals dbg (kd_filter_params (ks_db sh)) key = Ok (slots key)) /\
     forall j, (load slots (map kv_key kvs) j <= 63)%nat) ->
  nth_error kvs i = Some kv -> last_with_hash fseed (map kv_key kvs) i (kv_key kv) ->
  generate_kv_query_params (kv_common_params prg (ks_params sh)) (ks_params sh) tape = Ok (qp, rest) ->
  exists qp' q bytes resp row,
    kv_generate_query dbg qp (kv_key kv) = (qp', Ok q) /\
    kv_shard_respond sh q = Ok bytes /\ bincode_de_vec_u32 bytes = Ok resp /\
    kv_parse_resp_as_row dbg qp' resp (kv_key kv) = Ok row /\ length row = w /\
    (row = map (fun x => x mod 2 ^ Z.of_nat pb) (kv_value kv) <->
     forall c, (c < w)%nat ->
       congruent_in (dot (firstn (kp_m (ks_params sh)) (skipn dim (draws tape)))
                         (nth c (kd_entries (ks_db sh)) []))
                    (- 2 ^ (31 - Z.of_nat pb)) (2 ^ (31 - Z.of_nat pb))).
Proof. exact kv_retrieval. Qed.
Print Assumptions C34_kv_retrieval.

(** C34: Below the worst-case bound slots * (2^plaintext_bits - 1) < 2^(31 - plaintext_bits),
    the stored value always comes back, whatever the randomness. *)
Theorem C34_kv_retrieval_unconditional :
  forall prg dbg fe rnd fseed pseed kvs dim m es pb w sh tape rest qp i kv,
  (1 <= pb <= 31)%nat -> is_ceil_div es pb w -> Z.of_nat es < 2 ^ 64 ->
  sane_estimates fe (length kvs) ->
  Forall (fun kv => length (kv_value kv) = w) kvs ->
  kv_shard_new prg dbg fe rnd fseed pseed kvs dim m es pb = Ok sh ->
  (dbg = true \/ exists slots,
     (forall key, get_hash_evals dbg (kd_filter_params (ks_db sh)) key = Ok (slots key)) /\
     forall j, (load slots (map kv_key kvs) j <= 63)%nat) ->
  Z.of_nat (kp_m (ks_params sh)) * (2 ^ Z.of_nat pb - 1) < 2 ^ (31 - Z.of_nat pb) ->
  nth_error kvs i = Some kv -> last_with_hash fseed (map kv_key kvs) i (kv_key kv) ->
  generate_kv_query_params (kv_common_params prg (ks_params sh)) (ks_params sh) tape = Ok (qp, rest) ->
  exists qp' q bytes resp,
    kv_generate_query dbg qp (kv_key kv) = (qp', Ok q) /\
    kv_shard_respond sh q = Ok bytes /\ bincode_de_vec_u32 bytes = Ok resp /\
    kv_parse_resp_as_row dbg qp' resp (kv_key kv) = Ok (map (fun x => x mod 2 ^ Z.of_nat pb) (kv_value kv)).
Proof. exact kv_retrieval_unconditional. Qed.
Print Assumptions C34_kv_retrieval_unconditional.

(** C34: With string inputs: the keys' SHA-256 digests are the filter keys; querying the digest
    of string i returns the plaintext chunks of value i under the same noise condition, and,
    when plaintext_bits does not divide elem_size, parse_resp_as_bytes and _as_base64 return
    elem_size bits of the decoded value (see C05 for the dividing case). *)
Theorem C34_kv_retrieval_strings :
  forall sha256 prg dbg fe rnd fseed pseed keys values hkeys dim m es pb w sh tape rest qp i key value,
  (1 <= pb <= 31)%nat -> is_ceil_div es pb w -> Z.of_nat es < 2 ^ 64 ->
  sane_estimates fe (length keys) ->
  kv_shard_from_base64_strings sha256 prg dbg fe rnd fseed pseed keys values dim m es pb = Ok sh ->
  mapM (sha256_into_u64_sized sha256) keys = Ok hkeys ->
  (dbg = true \/ exists slots,
     (forall key, get_hash_evals dbg (kd_filter_params (ks_db sh)) key = Ok (slots key)) /\
     forall j, (load slots hkeys j <= 63)%nat) ->
  last_with_hash fseed hkeys i key -> b64_decode (nth i values []) = Ok value ->
  generate_kv_query_params (kv_common_params prg (ks_params sh)) (ks_params sh) tape = Ok (qp, rest) ->
  exists qp' q bytes resp row,
    kv_generate_query dbg qp key = (qp', Ok q) /\
    kv_shard_respond sh q = Ok bytes /\ bincode_de_vec_u32 bytes = Ok resp /\
    kv_parse_resp_as_row dbg qp' resp key = Ok row /\ length row = w /\
    (row = map (chunk value pb) (seq 0 w) <->
     forall c, (c < w)%nat ->
       congruent_in (dot (firstn (kp_m (ks_params sh)) (skipn dim (draws tape)))
                         (nth c (kd_entries (ks_db sh)) []))
                    (- 2 ^ (31 - Z.of_nat pb)) (2 ^ (31 - Z.of_nat pb))) /\
    (row = map (chunk value pb) (seq 0 w) -> (es mod pb <> 0)%nat ->
     exists out, kv_parse_resp_as_bytes dbg qp' resp key = Ok out /\
       kv_parse_resp_as_base64 dbg qp' resp key = Ok (b64_encode out) /\
       length out = ((es + 7) / 8)%nat /\
       byte_string_bits out = fit es (byte_string_bits value) ++ repeat false (8 * length out - es)).
Proof. exact kv_retrieval_strings. Qed.
Print Assumptions C34_kv_retrieval_strings.

(** C34: example: three pairs with two 10-bit entries each, noise of both signs; all hypotheses
    are met (the worst-case bound too) and the value of the second key comes back. *)
Example C34_kv_retrieval_example : exists sh qp rest qp' q bytes resp,
  kv_shard_new ex_prg true (est 3 12) ex_rnd seed0 [] ex_kvs 2 3 19 10 = Ok sh /\
  is_ceil_div 19 10 2 /\ Forall (fun kv => length (kv_value kv) = 2%nat) ex_kvs /\
  sane_estimates (est 3 12) (length ex_kvs) /\
  Z.of_nat (kp_m (ks_params sh)) * (2 ^ 10 - 1) < 2 ^ (31 - 10) /\
  last_with_hash seed0 (map kv_key ex_kvs) 1 (key4 2) /\
  generate_kv_query_params (kv_common_params ex_prg (ks_params sh)) (ks_params sh) ex_tape = Ok (qp, rest) /\
  kv_generate_query true qp (key4 2) = (qp', Ok q) /\
  kv_shard_respond sh q = Ok bytes /\ bincode_de_vec_u32 bytes = Ok resp /\
  kv_parse_resp_as_row true qp' resp (key4 2) = Ok [5; 1023].
Proof. exact kv_retrieval_example. Qed.

(** C21: For every key (present or not) and every query vector there is exactly one masking
    vector that yields it, and every masking vector yields a query: the map from masks to
    queries is a bijection of the u32 vectors of the matrix height. So under a uniformly
    distributed mask the query has the same (uniform) distribution for every key. *)
Theorem C21_kv_query_bijection : forall dbg dbg' fe n g seed mk pb key,
  sane_estimates fe n -> geometry dbg fe n = Ok g -> (1 <= pb <= 31)%nat ->
  (forall lhs : list Z, qp_lhs (mk lhs) = lhs /\ qp_used (mk lhs) = false /\
     qp_plaintext_bits (mk lhs) = pb /\
     qp_extra (mk lhs) = Some {| fp_seed := seed; fp_segment_length := g_seglen g;
                                 fp_segment_length_mask := g_mask g; fp_segment_count_length := g_scl g |}) ->
  (forall lhs, Forall is_u32 lhs -> length lhs = g_arrlen g ->
     exists q, snd (kv_generate_query dbg' (mk lhs) key) = Ok q /\ Forall is_u32 q /\ length q = g_arrlen g) /\
  (forall q, Forall is_u32 q -> length q = g_arrlen g ->
     exists! lhs, (Forall is_u32 lhs /\ length lhs = g_arrlen g) /\
       snd (kv_generate_query dbg' (mk lhs) key) = Ok q).
Proof. exact kv_query_bijection. Qed.
Print Assumptions C21_kv_query_bijection.

(** C21: example: the same query vector from two different keys, each with its own mask. *)
Example C21_kv_query_bijection_example :
  let fp := {| fp_seed := seed0; fp_segment_length := 8; fp_segment_length_mask := 7; fp_segment_count_length := 8 |} in
  let mk lhs := {| qp_lhs := lhs; qp_rhs := []; qp_elem_size := 20; qp_plaintext_bits := 10;
                   qp_extra := Some fp; qp_used := false |} in
  geometry true (est 3 12) 3 = Ok {| g_seglen := 8; g_mask := 7; g_scl := 8; g_segcount := 1; g_arrlen := 24 |} /\
  sane_estimates (est 3 12) 3 /\
  exists m1 m2 q, m1 <> m2 /\ Forall is_u32 m1 /\ Forall is_u32 m2 /\ length m1 = 24%nat /\ length m2 = 24%nat /\
    snd (kv_generate_query true (mk m1) (key4 7)) = Ok q /\
    snd (kv_generate_query true (mk m2) (key4 1)) = Ok q.
Proof. exact kv_query_bijection_example. Qed.

(** C22: Key-value: two queries from the same mask differ by plus or minus delta exactly at the
    slots of one key that are not slots of the other; they are equal iff the two keys have
    the same slots. *)
Theorem C22_kv_mask_reuse_reveals_slots : forall dbg dbg' fe n g seed qp k1 k2 q1 q2 slots,
  sane_estimates fe n -> geometry dbg fe n = Ok g ->
  (1 <= qp_plaintext_bits qp <= 31)%nat -> length (qp_lhs qp) = g_arrlen g -> Forall is_u32 (qp_lhs qp) ->
  qp_extra qp = Some {| fp_seed := seed; fp_segment_length := g_seglen g;
                        fp_segment_length_mask := g_mask g; fp_segment_count_length := g_scl g |} ->
  evaluates dbg' seed (g_seglen g) (g_mask g) (g_scl g) slots ->
  snd (kv_generate_query dbg' (set_used false qp) k1) = Ok q1 ->
  snd (kv_generate_query dbg' (set_used false qp) k2) = Ok q2 ->
  (q1 = q2 <-> slots k1 = slots k2) /\
  (forall j, (nth j q1 0 - nth j q2 0) mod 2 ^ 32 =
     2 ^ (32 - Z.of_nat (qp_plaintext_bits qp)) *
     ((if in_dec Nat.eq_dec j (slots k1) then 1 else 0) - (if in_dec Nat.eq_dec j (slots k2) then 1 else 0))
     mod 2 ^ 32).
Proof. exact kv_mask_reuse_reveals_slots. Qed.
Print Assumptions C22_kv_mask_reuse_reveals_slots.

(** C23: Key-value: a query of the matrix height is answered with one word per column, the
    inner product of query and column mod 2^32, correctly serialized; a query of any other
    length makes the server panic. *)
Theorem C23_kv_respond_shape : forall prg dbg fe rnd fseed pseed kvs dim m es pb w sh q,
  (1 <= pb <= 31)%nat -> is_ceil_div es pb w -> Z.of_nat es < 2 ^ 64 ->
  sane_estimates fe (length kvs) ->
  Forall (fun kv => length (kv_value kv) = w) kvs ->
  kv_shard_new prg dbg fe rnd fseed pseed kvs dim m es pb = Ok sh ->
  (length q = kp_m (ks_params sh) ->
   exists bytes v, kv_shard_respond sh q = Ok bytes /\ bincode_de_vec_u32 bytes = Ok v /\
      length v = w /\ length bytes = (8 + 4 * w)%nat /\
      forall c, (c < w)%nat -> nth c v 0 = dot q (nth c (kd_entries (ks_db sh)) []) mod 2 ^ 32) /\
  (length q <> kp_m (ks_params sh) -> kv_shard_respond sh q = Panic).
Proof. exact kv_respond_shape. Qed.
Print Assumptions C23_kv_respond_shape.

(** C23: *)
Example C23_kv_respond_example : exists sh,
  kv_shard_new ex_prg true (est 3 12) ex_rnd seed0 [] ex_kvs 2 3 19 10 = Ok sh /\
  kp_m (ks_params sh) = 24%nat /\
  (exists b, kv_shard_respond sh (repeat 1 24) = Ok b /\ length b = 16%nat) /\
  kv_shard_respond sh (repeat 1 23) = Panic.
Proof. exact kv_respond_example. Qed.

(** C24: Key-value parsing: for every key, reads only the first row_width words, returns that
    many values below 2^plaintext_bits, panics exactly on shorter responses. *)
Theorem C24_kv_parse_total : forall dbg qp fp key pb w,
  qp_plaintext_bits qp = pb -> (1 <= pb <= 31)%nat -> qp_extra qp = Some fp ->
  is_ceil_div (qp_elem_size qp) pb w -> (w <= length (qp_rhs qp))%nat ->
  (forall resp, (w <= length resp)%nat ->
     exists row, kv_parse_resp_as_row dbg qp resp key = Ok row /\ length row = w /\
       Forall (fun x => 0 <= x < 2 ^ Z.of_nat pb) row /\
       forall resp', (w <= length resp')%nat -> firstn w resp' = firstn w resp ->
         kv_parse_resp_as_row dbg qp resp' key = Ok row) /\
  (forall resp, kv_parse_resp_as_row dbg qp resp key = Panic <-> (length resp < w)%nat).
Proof. exact kv_parse_total. Qed.
Print Assumptions C24_kv_parse_total.

(** C24: Index query params given to the key-value parser (no filter parameters): an error. *)
Theorem C24_kv_parse_needs_filter_params : forall dbg qp resp key,
  (1 <= qp_plaintext_bits qp <= 31)%nat -> qp_extra qp = None ->
  kv_parse_resp_as_row dbg qp resp key = Err ENoFilterParams.
Proof. exact kv_parse_needs_filter_params. Qed.
Print Assumptions C24_kv_parse_needs_filter_params.

(** C36: refuted, for every database: whatever the key, inserted or not, the query succeeds, the
    server answers and the client returns a full row of values below 2^plaintext_bits; no
    error is possible. *)
Theorem C36_kv_every_key_answered : forall prg dbg fe rnd fseed pseed kvs dim m es pb w sh tape rest qp,
  (1 <= pb <= 31)%nat -> is_ceil_div es pb w -> Z.of_nat es < 2 ^ 64 ->
  sane_estimates fe (length kvs) ->
  Forall (fun kv => length (kv_value kv) = w) kvs ->
  kv_shard_new prg dbg fe rnd fseed pseed kvs dim m es pb = Ok sh ->
  generate_kv_query_params (kv_common_params prg (ks_params sh)) (ks_params sh) tape = Ok (qp, rest) ->
  forall key, exists qp' q bytes resp row,
    kv_generate_query dbg qp key = (qp', Ok q) /\
    kv_shard_respond sh q = Ok bytes /\ bincode_de_vec_u32 bytes = Ok resp /\
    kv_parse_resp_as_row dbg qp' resp key = Ok row /\ length row = w /\
    Forall (fun x => 0 <= x < 2 ^ Z.of_nat pb) row.
Proof. exact kv_every_key_answered. Qed.
Print Assumptions C36_kv_every_key_answered.

(** C36: refuted: a concrete absent key and the row a client gets for it. *)
Theorem C36_absent_key_refuted : exists sh qp rest qp' q bytes resp row,
  kv_shard_new ex_prg true (est 3 12) ex_rnd seed0 [] ex_kvs 2 3 19 10 = Ok sh /\
  ~ In (key4 1000) (map kv_key ex_kvs) /\
  generate_kv_query_params (kv_common_params ex_prg (ks_params sh)) (ks_params sh) ex_tape = Ok (qp, rest) /\
  kv_generate_query true qp (key4 1000) = (qp', Ok q) /\
  kv_shard_respond sh q = Ok bytes /\ bincode_de_vec_u32 bytes = Ok resp /\
  kv_parse_resp_as_row true qp' resp (key4 1000) = Ok row /\ length row = 2%nat /\
  Forall (fun x => 0 < x < 1024) row.
Proof. exact absent_key_refuted. Qed.
Print Assumptions C36_absent_key_refuted.

(** C37: refuted: no pairs at all, with either constructor: a panic, not an error. *)
Theorem C37_kv_empty_panics : forall sha256 prg dbg fe rnd fseed pseed dim m es pb,
  kv_shard_new prg dbg fe rnd fseed pseed [] dim m es pb = Panic /\
  kv_shard_from_base64_strings sha256 prg dbg fe rnd fseed pseed [] [] dim m es pb = Panic.
Proof. exact kv_empty_panics. Qed.
Print Assumptions C37_kv_empty_panics.

(** C37: refuted, in general: whenever the keys (distinct hashes, at most 63 per slot) are not
    peelable, database construction panics in both build profiles. *)
Theorem C37_kv_unpeelable_panics : forall dbg fe rnd seed kvs m es pb g slots kv0,
  (pb <= 31)%nat -> (dbg = true -> (8 <= pb)%nat) ->
  geometry dbg fe (length kvs) = Ok g -> sane_estimates fe (length kvs) ->
  evaluates dbg seed (g_seglen g) (g_mask g) (g_scl g) slots ->
  nth_error kvs 0 = Some kv0 -> Forall (fun kv => (0 < length (kv_value kv))%nat) kvs ->
  NoDup (map (fun kv => mix256 (kv_key kv) seed) kvs) ->
  (forall j, (load slots (map kv_key kvs) j <= 63)%nat) ->
  ~ peelable slots (map kv_key kvs) ->
  kv_db_new dbg fe rnd seed kvs m es pb = Panic.
Proof. exact kv_unpeelable_panics. Qed.
Print Assumptions C37_kv_unpeelable_panics.

(** C37: refuted: a concrete pair of distinct keys for which construction panics. *)
Theorem C37_kv_failure_is_error_refuted : forall prg dbg rnd pseed dim m,
  let kvs := [ {| kv_key := key4 7; kv_value := [1; 2] |}; {| kv_key := key4 10; kv_value := [3; 4] |} ] in
  kv_shard_new prg dbg (est 2 12) rnd seed0 pseed kvs dim m 20 10 = Panic.
Proof. exact kv_failure_is_error_refuted. Qed.
Print Assumptions C37_kv_failure_is_error_refuted.

(** C37: refuted: in a debug build fewer than 8 plaintext bits always panic (the filter asserts
    a modulus of at least 256), even for one pair; a release build accepts them. *)
Theorem C37_kv_small_modulus_panics : forall fe rnd seed kvs m es pb kv0,
  (pb < 8)%nat -> nth_error kvs 0 = Some kv0 ->
  kv_db_new true fe rnd seed kvs m es pb = Panic.
Proof. exact kv_small_modulus_panics. Qed.
Print Assumptions C37_kv_small_modulus_panics.

(** C37: example: the hypotheses of the general theorem are met by that pair. *)
Example C37_kv_unpeelable_example :
  let kvs := [ {| kv_key := key4 7; kv_value := [1; 2] |}; {| kv_key := key4 10; kv_value := [3; 4] |} ] in
  exists g slots, geometry true (est 2 12) (length kvs) = Ok g /\
    evaluates true seed0 (g_seglen g) (g_mask g) (g_scl g) slots /\
    NoDup (map (fun kv => mix256 (kv_key kv) seed0) kvs) /\
    (forall j, (load slots (map kv_key kvs) j <= 63)%nat) /\ ~ peelable slots (map kv_key kvs).
Proof. exact kv_unpeelable_example. Qed.

(** C38: Key-value: different numbers of keys and values: an error, whatever the strings. *)
Theorem C38_kv_count_mismatch : forall sha256 prg dbg fe rnd fseed pseed keys values dim m es pb,
  length keys <> length values ->
  kv_shard_from_base64_strings sha256 prg dbg fe rnd fseed pseed keys values dim m es pb = Err EKeyValueCount.
Proof. exact kv_count_mismatch. Qed.
Print Assumptions C38_kv_count_mismatch.

(** C38: Key-value: if some value cannot be decoded, construction returns an error (provided
    the decodable ones are long enough to be cut into row_width chunks). *)
Theorem C38_kv_undecodable_gives_error :
  forall sha256 prg dbg fe rnd fseed pseed keys values dim m es pb w k,
  (1 <= pb <= 32)%nat -> is_ceil_div es pb w -> length keys = length values -> (k < length values)%nat ->
  (forall s, length (sha256 s) = 32%nat) ->
  (forall i b, (i < length values)%nat -> b64_decode (nth i values []) = Ok b ->
     (w * pb <= 8 * length b + pb)%nat) ->
  (forall b, b64_decode (nth k values []) <> Ok b) ->
  kv_shard_from_base64_strings sha256 prg dbg fe rnd fseed pseed keys values dim m es pb = Err EConstructKV.
Proof. exact kv_undecodable_gives_error. Qed.
Print Assumptions C38_kv_undecodable_gives_error.

(** C38: example: both error cases. *)
Example C38_kv_validation_example :
  let sha := fun _ : list Z => repeat 1 32 in
  kv_shard_from_base64_strings sha ex_prg true (est 2 0) ex_rnd seed0 [] [[107]] [] 2 1 16 10 = Err EKeyValueCount /\
  kv_shard_from_base64_strings sha ex_prg true (est 2 0) ex_rnd seed0 [] [[107]; [108]] [b64_encode [1; 2]; [33]]
    2 2 16 10 = Err EConstructKV.
Proof. exact kv_validation_example. Qed.
