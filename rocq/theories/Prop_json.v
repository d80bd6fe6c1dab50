(** Property theorems; each restates a lemma proved in Claims_json.v. *)
From Coq Require Import String Permutation.
From Verif Require Import Base Spec Base64 Hash Fuse3 Bfusep Db Api Json Files SpecFilter SpecFiles SpecJson Claims_index Claims_json.
Local Open Scope Z_scope.

(** C52: Whatever the formatting (blanks, escapes, member order): a file that is a JSON array of
    strings gives exactly the shard, error or panic of those strings. *)
Theorem C52_any_formatting_strings : forall prg dbg pseed d p c strs dim m es pb,
  d p = Some c -> strings_file c strs ->
  shard_from_json_file prg dbg pseed d p dim m es pb = shard_from_base64_strings prg dbg pseed strs dim m es pb /\
  index_db_from_file dbg d p m es pb = index_db_new dbg strs m es pb.
Proof. exact any_formatting_strings. Qed.
Print Assumptions C52_any_formatting_strings.

(** C52: The same for key-value files: an array of records, each an object with one "key" and
    one "value" string in either order among any other members, or a two-element array. *)
Theorem C52_any_formatting_kvs : forall sha prg dbg fe rnd fseed pseed d p c kvs dim m es pb,
  d p = Some c -> kvs_file c kvs ->
  kv_shard_from_json_file sha prg dbg fe rnd fseed pseed d p dim m es pb =
  kv_shard_from_base64_strings sha prg dbg fe rnd fseed pseed (map fst kvs) (map snd kvs) dim m es pb.
Proof. exact any_formatting_kvs. Qed.
Print Assumptions C52_any_formatting_kvs.

(** C52: A file has at most one reading. *)
Theorem C52_one_reading : forall c,
  (forall s1 s2, strings_file c s1 -> strings_file c s2 -> s1 = s2) /\
  (forall k1 k2, kvs_file c k1 -> kvs_file c k2 -> k1 = k2) /\
  (forall v1 v2, json_document c v1 -> json_document c v2 -> v1 = v2).
Proof. exact one_reading. Qed.
Print Assumptions C52_one_reading.

(** C52: example: blanks, an escape, an ignored member, the fields in the other order, an array
    instead of an object. *)
Example C52_any_formatting_example :
  let a := bytes_of " [ ""\u0041\/"" ,""AA=="" ] " in
  let b := bytes_of "[{""value"":""AA=="" , ""x"":[1.5e3,null], ""key"":""k""},[""j"",""""]]" in
  strings_file a [bytes_of "A/"; bytes_of "AA=="] /\
  kvs_file b [(bytes_of "k", bytes_of "AA=="); (bytes_of "j", [])].
Proof. exact any_formatting_example. Qed.

(** C53: refuted, exactly: if the file is not a UTF-8 JSON array of strings (or is missing),
    [Shard::from_json_file] panics and [IndexDatabase::from_file] returns an error. *)
Theorem C53_not_strings_file_refuted : forall prg dbg pseed d p dim m es pb,
  (forall c strs, d p = Some c -> ~ strings_file c strs) ->
  shard_from_json_file prg dbg pseed d p dim m es pb = Panic /\
  exists e, index_db_from_file dbg d p m es pb = Err e.
Proof. exact not_strings_file_refuted. Qed.
Print Assumptions C53_not_strings_file_refuted.

(** C53: refuted: if the file is not a UTF-8 JSON array of key-value records (or is missing),
    [KVShard::from_json_file] panics. *)
Theorem C53_not_kvs_file_refuted : forall sha prg dbg fe rnd fseed pseed d p dim m es pb,
  (forall c kvs, d p = Some c -> ~ kvs_file c kvs) ->
  kv_shard_from_json_file sha prg dbg fe rnd fseed pseed d p dim m es pb = Panic.
Proof. exact not_kvs_file_refuted. Qed.
Print Assumptions C53_not_kvs_file_refuted.

(** C53: example: trailing text, a key twice, a leading zero, a lone surrogate, a raw control
    character and a bad byte are all refused. *)
Example C53_not_document_example :
  Forall (fun c => forall strs, ~ strings_file c strs)
    [ bytes_of "[""a""] x"; bytes_of "[""a"",]"; bytes_of "[""\ud800""]"; [91; 34; 10; 34; 93]; [91; 34; 255; 34; 93]; [] ] /\
  Forall (fun c => forall v, ~ json_document c v) [ bytes_of "[007]"; bytes_of "[1.]"; bytes_of "[""a"" ""b""]"; bytes_of "{""a""}" ] /\
  Forall (fun c => forall kvs, ~ kvs_file c kvs) [ bytes_of "[{""key"":""a"",""key"":""a"",""value"":""b""}]"; bytes_of "[{""key"":""a""}]"; bytes_of "[[""a""]]" ].
Proof. exact not_document_example. Qed.

(** C40: [IndexParams::load] succeeds with [q] exactly when the file is a JSON record of the six
    fields of [q], each in the range of its type, in any formatting; everything else is an error.
    (Files in UTF-8: see the simplification noted at [index_params_load].) *)
Theorem C40_params_load_iff : forall d p, (forall c, d p = Some c -> utf8_text c) ->
  (forall q, index_params_load d p = Ok q <-> exists c, d p = Some c /\ params_file c q) /\
  ((forall c q, d p = Some c -> ~ params_file c q) -> exists e, index_params_load d p = Err e).
Proof. exact params_load_iff. Qed.
Print Assumptions C40_params_load_iff.

(** C40: example: members in another order and an unknown one; a seed of 31 bytes and a u32 out
    of range are refused. *)
Example C40_params_load_example :
  let seed := "[1,2,3,4,5,6,7,8,9,10,11,12,13,14,15,16,17,18,19,20,21,22,23,24,25,26,27,28,29,30,31"%string in
  let text s r := bytes_of ("{""m"":3,""dim"":2,""note"":""x"",""rhs"":[[7," ++ r ++ "],[]],""elem_size"":16,
    ""public_seed"":" ++ seed ++ s ++ "],""plaintext_bits"":10}")%string in
  let q := {| ip_dim := 2; ip_m := 3; ip_public_seed := map Z.of_nat (seq 1 32); ip_rhs := [[7; 8]; []];
              ip_elem_size := 16; ip_plaintext_bits := 10 |} in
  params_file (text ",32" "8")%string q /\
  (forall q', ~ params_file (text "" "8")%string q') /\ (forall q', ~ params_file (text ",32" "4294967296")%string q').
Proof. exact params_load_example. Qed.
