(** Property theorems; each restates a lemma proved in Claims_files.v. *)
From Coq Require Import String Permutation.
From Verif Require Import Base Spec Base64 Mat Hash Fuse3 Bfusep Db Api Json Files SpecFilter SpecFiles Claims_filter Claims_index Claims_kv Claims_files.
Local Open Scope Z_scope.

(** C42: What [Shard::write_to_file] leaves behind after [k] successful file operations, for
    every [k] (a crash, or an I/O error which it reports, at that point): other files are
    untouched; the database file is the old one (k = 0) or a prefix of the new text; the
    parameters file is the old one until the whole database text is written and then a
    prefix of its new text; success is reported exactly when nothing is missing. *)
Theorem C42_shard_write_states : forall d s dbp pp k, dbp <> pp ->
  let (d', r) := shard_write_to_file d s dbp pp k in
  let t1 := write_json (json_matrix (id_entries (sh_db s))) in
  let t2 := write_json (params_json (ip_public_seed (sh_params s)) (ip_rhs (sh_params s))) in
  (forall q, q <> dbp -> q <> pp -> d' q = d q) /\
  (d' dbp = d dbp /\ k = 0%nat \/ exists j, d' dbp = Some (firstn j t1)) /\
  (d' pp = d pp \/ d' dbp = Some t1 /\ exists j, d' pp = Some (firstn j t2)) /\
  ((r = Ok tt /\ d' dbp = Some t1 /\ d' pp = Some t2) \/ (r = Err EIo /\ (k <= length t1 + length t2 + 1)%nat)).
Proof. exact shard_write_states. Qed.
Print Assumptions C42_shard_write_states.

(** C42: What [KVShard::write_to_file] leaves behind after [k] successful file operations, for
    every [k] (a crash, or an I/O error which it reports, at that point): other files are
    untouched; the database file is the old one (k = 0) or a prefix of the new text; the
    parameters file is the old one until the whole database text is written and then a
    prefix of its new text; success is reported exactly when nothing is missing. *)
Theorem C42_kv_shard_write_states : forall d s dbp pp k, dbp <> pp ->
  let (d', r) := kv_shard_write_to_file d s dbp pp k in
  let t1 := write_json (json_matrix (kd_entries (ks_db s))) in
  let t2 := write_json (params_json (kp_public_seed (ks_params s)) (kp_rhs (ks_params s))) in
  (forall q, q <> dbp -> q <> pp -> d' q = d q) /\
  (d' dbp = d dbp /\ k = 0%nat \/ exists j, d' dbp = Some (firstn j t1)) /\
  (d' pp = d pp \/ d' dbp = Some t1 /\ exists j, d' pp = Some (firstn j t2)) /\
  ((r = Ok tt /\ d' dbp = Some t1 /\ d' pp = Some t2) \/ (r = Err EIo /\ (k <= length t1 + length t2 + 1)%nat)).
Proof. exact kv_shard_write_states. Qed.
Print Assumptions C42_kv_shard_write_states.

(** C42: refuted: whatever the shard, the paths and the old contents, a failure (or crash)
    after the database has been written leaves the new database next to the old parameters,
    and a failure right after the first operation has already destroyed the old database. *)
Theorem C42_write_is_atomic_refuted : forall d s dbp pp, dbp <> pp ->
  (exists k, let (d', r) := shard_write_to_file d s dbp pp k in
     r = Err EIo /\ d' dbp = Some (write_json (json_matrix (id_entries (sh_db s)))) /\ d' pp = d pp) /\
  (exists k, let (d', r) := shard_write_to_file d s dbp pp k in
     r = Err EIo /\ d' dbp = Some [] /\ d' pp = d pp) /\
  (exists k, let (d', r) := shard_write_to_file d s dbp pp k in
     r = Err EIo /\ d' dbp = Some (write_json (json_matrix (id_entries (sh_db s)))) /\ d' pp = Some []).
Proof. exact write_is_atomic_refuted. Qed.
Print Assumptions C42_write_is_atomic_refuted.

(** C42: If both paths are the same file, a successful write keeps only the parameters. *)
Theorem C42_same_path_loses_database : forall d s p,
  exists k d', shard_write_to_file d s p p k = (d', Ok tt) /\
    d' p = Some (write_json (params_json (ip_public_seed (sh_params s)) (ip_rhs (sh_params s)))).
Proof. exact same_path_loses_database. Qed.
Print Assumptions C42_same_path_loses_database.

(** C42: A torn file is never mistaken for a shorter one: if a shard's database file (or
    parameters file) was cut off anywhere, reading it is an error (a panic for
    [Shard::from_json_file]), whatever parameters are passed. *)
Theorem C42_torn_files_are_rejected : forall prg dbg pseed d p s cut,
  typed_shard s ->
  ((exists rest, write_json (json_matrix (id_entries (sh_db s))) = cut ++ rest /\ rest <> []) \/
   (exists rest, write_json (params_json (ip_public_seed (sh_params s)) (ip_rhs (sh_params s))) = cut ++ rest /\ rest <> [])) ->
  d p = Some cut ->
  (forall m es pb, exists e, index_db_from_file dbg d p m es pb = Err e) /\
  (forall dim m es pb, shard_from_json_file prg dbg pseed d p dim m es pb = Panic) /\
  index_params_load d p = Err EDeserialize.
Proof. exact torn_files_are_rejected. Qed.
Print Assumptions C42_torn_files_are_rejected.

(** C40: refuted: for every shard, after a completely successful [write_to_file],
    [IndexParams::load] of the parameters file fails. *)
Theorem C40_saved_params_load_refuted : forall d s dbp pp k d',
  typed_shard s -> dbp <> pp -> shard_write_to_file d s dbp pp k = (d', Ok tt) ->
  index_params_load d' pp = Err EDeserialize.
Proof. exact saved_params_load_refuted. Qed.
Print Assumptions C40_saved_params_load_refuted.

(** C40: By contrast the JSON of the derived [Serialize] impl is loaded back exactly. *)
Theorem C40_serialized_params_load : forall d p q,
  d p = Some (write_json (ser_index_params q)) ->
  Forall is_u8 (ip_public_seed q) -> length (ip_public_seed q) = 32%nat -> Forall (Forall is_u32) (ip_rhs q) ->
  Z.of_nat (ip_dim q) < two64 -> Z.of_nat (ip_m q) < two64 -> Z.of_nat (ip_elem_size q) < two64 ->
  Z.of_nat (ip_plaintext_bits q) < two64 ->
  index_params_load d p = Ok q.
Proof. exact serialized_params_load. Qed.
Print Assumptions C40_serialized_params_load.

(** C41: refuted: for every shard with at least one column, reloading the database file that
    was just written successfully is an error, and [Shard::from_json_file] on it panics. *)
Theorem C41_saved_db_reload_refuted : forall prg dbg pseed d s dbp pp k d',
  typed_shard s -> dbp <> pp -> id_entries (sh_db s) <> [] ->
  shard_write_to_file d s dbp pp k = (d', Ok tt) ->
  (forall m es pb, index_db_from_file dbg d' dbp m es pb = Err EDeserialize) /\
  (forall dim m es pb, shard_from_json_file prg dbg pseed d' dbp dim m es pb = Panic).
Proof. exact saved_db_reload_refuted. Qed.
Print Assumptions C41_saved_db_reload_refuted.

(** C41: refuted, end to end: every shard built from strings (elements of at least one bit,
    so at least one column) cannot be reloaded from the files it writes: neither the database
    nor the parameters. *)
Theorem C41_constructed_shard_reload_refuted : forall prg dbg seed strs dim m es pb sh d dbp pp k d',
  (1 <= pb <= 32)%nat -> (0 < es)%nat -> Forall is_u8 seed -> length seed = 32%nat -> dbp <> pp ->
  shard_from_base64_strings prg dbg seed strs dim m es pb = Ok sh ->
  shard_write_to_file d sh dbp pp k = (d', Ok tt) ->
  (forall m' es' pb', index_db_from_file dbg d' dbp m' es' pb' = Err EDeserialize) /\
  index_params_load d' pp = Err EDeserialize.
Proof. exact constructed_shard_reload_refuted. Qed.
Print Assumptions C41_constructed_shard_reload_refuted.

(** C41: *)
Example C41_files_example : exists sh d',
  shard_from_base64_strings ex_prg true (repeat 7 32) [b64_encode [1; 2]; b64_encode [3; 4]] 2 2 16 10 = Ok sh /\
  shard_write_to_file (fun _ => None) sh [100] [112] (Z.to_nat 500) = (d', Ok tt) /\
  d' [100] = Some (write_json (json_matrix (id_entries (sh_db sh)))) /\
  index_params_load d' [112] = Err EDeserialize /\ index_db_from_file true d' [100] 2 16 10 = Err EDeserialize.
Proof. exact files_example. Qed.

(** C42: example: the hypotheses are met by that shard with its database text cut in half. *)
Example C42_torn_example : exists sh cut rest,
  shard_from_base64_strings ex_prg true (repeat 7 32) [b64_encode [1; 2]; b64_encode [3; 4]] 2 2 16 10 = Ok sh /\
  typed_shard sh /\ write_json (json_matrix (id_entries (sh_db sh))) = cut ++ rest /\ rest <> [] /\ cut <> [] /\
  index_db_from_file true (fun _ => Some cut) [100] 2 16 10 = Err EDeserialize.
Proof. exact torn_example. Qed.

(** C52: Building from a JSON file of a list of strings is the same as building from the
    strings, for every list of (UTF-8) strings and every outcome: same shard, same error,
    same panic. *)
Theorem C52_json_file_is_strings : forall prg dbg pseed d p strs dim m es pb,
  Forall (fun s => is_utf8 s = true) strs -> d p = Some (strings_text strs) ->
  shard_from_json_file prg dbg pseed d p dim m es pb = shard_from_base64_strings prg dbg pseed strs dim m es pb /\
  index_db_from_file dbg d p m es pb = index_db_new dbg strs m es pb.
Proof. exact json_file_is_strings. Qed.
Print Assumptions C52_json_file_is_strings.

(** C52: Key-value shards from a JSON file of {key, value} objects. *)
Theorem C52_json_file_is_kvs : forall sha prg dbg fe rnd fseed pseed d p kvs dim m es pb,
  Forall (fun kv => is_utf8 (fst kv) = true /\ is_utf8 (snd kv) = true) kvs -> d p = Some (kvs_text kvs) ->
  kv_shard_from_json_file sha prg dbg fe rnd fseed pseed d p dim m es pb =
  kv_shard_from_base64_strings sha prg dbg fe rnd fseed pseed (map fst kvs) (map snd kvs) dim m es pb.
Proof. exact json_file_is_kvs. Qed.
Print Assumptions C52_json_file_is_kvs.

(** C52: example: strings with characters that need escaping. *)
Example C52_json_file_example :
  let strs := [ [34; 92; 10; 1]; [195; 169]; b64_encode [1; 2] ] in
  Forall (fun s => is_utf8 s = true) strs /\ json_strings (strings_text strs) = Ok strs /\
  shard_from_json_file ex_prg true (repeat 7 32) (fun _ => Some (strings_text strs)) [100] 2 1 16 10 = Err EBase64.
Proof. exact json_file_example. Qed.

(** C53: refuted: a missing, non-UTF-8 or ill-formed input file makes
    [Shard::from_json_file] and [KVShard::from_json_file] panic instead of returning an
    error, for every such file; [IndexDatabase::from_file] returns an error. *)
Theorem C53_bad_file_is_error_refuted : forall sha prg dbg fe rnd fseed pseed d p dim m es pb,
  (d p = None \/ exists c, d p = Some c /\ (is_utf8 c = false \/ parse_text c = None)) ->
  shard_from_json_file prg dbg pseed d p dim m es pb = Panic /\
  kv_shard_from_json_file sha prg dbg fe rnd fseed pseed d p dim m es pb = Panic /\
  exists e, index_db_from_file dbg d p m es pb = Err e.
Proof. exact bad_file_is_error_refuted. Qed.
Print Assumptions C53_bad_file_is_error_refuted.

(** C53: A well-formed file whose value is not a list of strings: the same. *)
Theorem C53_wrong_json_is_error_refuted : forall prg dbg pseed d p c v dim m es pb,
  d p = Some c -> is_utf8 c = true -> parse_text c = Some v ->
  (forall strs, v <> JArr (map JStr strs)) ->
  shard_from_json_file prg dbg pseed d p dim m es pb = Panic /\
  index_db_from_file dbg d p m es pb = Err EDeserialize.
Proof. exact wrong_json_is_error_refuted. Qed.
Print Assumptions C53_wrong_json_is_error_refuted.

(** C53: example: a file holding [[1]]. *)
Example C53_bad_file_example :
  parse_text [91; 91; 49; 93; 93] = Some (JArr [JArr [JInt 1]]) /\
  shard_from_json_file ex_prg true [] (fun _ => Some [91; 91; 49; 93; 93]) [100] 2 1 16 10 = Panic /\
  shard_from_json_file ex_prg true [] (fun _ => Some [91; 34]) [100] 2 1 16 10 = Panic.
Proof. exact bad_file_example. Qed.

(** C54: refuted: two key-value shards, each built by [KVShard::new] from one pair (same key,
    different values, different filter seeds), write byte-identical files although their
    filter parameters (which a client needs to query and to unmask) differ. *)
Theorem C54_kv_files_determine_shard_refuted : exists rnd1 rnd2 v1 v2 s1 s2,
  kv_shard_new ex_prg true (est 2 12) rnd1 seed0 (repeat 7 32) [ {| kv_key := key4 1; kv_value := [v1] |} ] 2 1 10 10 = Ok s1 /\
  kv_shard_new ex_prg true (est 2 12) rnd2 seed1 (repeat 7 32) [ {| kv_key := key4 1; kv_value := [v2] |} ] 2 1 10 10 = Ok s2 /\
  (forall dbp pp, kv_shard_write_ops s1 dbp pp = kv_shard_write_ops s2 dbp pp) /\
  kp_filter_params (ks_params s1) <> kp_filter_params (ks_params s2) /\ v1 <> v2.
Proof. exact kv_files_determine_shard_refuted. Qed.
Print Assumptions C54_kv_files_determine_shard_refuted.

(** C54: refuted for the index parameters: the file depends only on the seed and the right
    hand side; shards that differ in the dimension, the number of records, the element size
    or the plaintext bits (all of which [load] and a client need) write the same file. *)
Theorem C54_params_file_omits_fields : forall s p' dbp pp,
  ip_public_seed p' = ip_public_seed (sh_params s) -> ip_rhs p' = ip_rhs (sh_params s) ->
  shard_write_ops {| sh_db := sh_db s; sh_params := p' |} dbp pp = shard_write_ops s dbp pp.
Proof. exact params_file_omits_fields. Qed.
Print Assumptions C54_params_file_omits_fields.
