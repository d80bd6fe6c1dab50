(** Property theorems; each restates a lemma proved in Claims_gendb.v. *)
From Coq Require Import String Permutation.
From Verif Require Import Base Spec Fmt Base64 Db Api Json Files SpecJson GenDb Claims_format Claims_json Claims_gendb.
Local Open Scope Z_scope.

(** C67: The script writes a JSON array of exactly 2^entries base64 strings, each of 2^size bytes
    (size counts bytes, not bits): fresh random bytes when DB_ALL_ONES is "0", all ones
    otherwise. *)
Theorem C67_generated_file : forall env urandom e s,
  random_bytes urandom -> says (DB_NUM_ENTRIES_EXP env) 16 e -> says (DB_ELEMENT_SIZE_EXP env) 13 s ->
  exists path text blocks, generate_db env urandom = Some (path, text) /\
    strings_file text (map b64_encode blocks) /\ length blocks = (2 ^ e)%nat /\
    Forall (fun b => length b = (2 ^ s)%nat /\ Forall is_u8 b) blocks /\
    (DB_ALL_ONES env = Some (bytes_of "0") -> forall i, (i < 2 ^ e)%nat -> nth i blocks [] = urandom i (2 ^ s)%nat) /\
    (DB_ALL_ONES env <> Some (bytes_of "0") -> forall i, (i < 2 ^ e)%nat -> nth i blocks [] = repeat 255 (2 ^ s)%nat) /\
    (forall p, DB_OUTPUT_PATH env = Some p -> p <> [] -> path = p).
Proof. exact generated_file. Qed.
Print Assumptions C67_generated_file.

(** C67: A shard loaded from the file with m = 2^entries and an element size of 8 * 2^size bits
    lists exactly the generated elements (plaintext_bits not dividing the element size, C05). *)
Theorem C67_generated_shard : forall env urandom e s prg dbg seed d dim pb path text,
  random_bytes urandom -> says (DB_NUM_ENTRIES_EXP env) 16 e -> says (DB_ELEMENT_SIZE_EXP env) 13 s ->
  (1 <= pb <= 32)%nat -> ((8 * 2 ^ s) mod pb <> 0)%nat ->
  generate_db env urandom = Some (path, text) -> d path = Some text ->
  exists sh rows, shard_from_json_file prg dbg seed d path dim (2 ^ e) (8 * 2 ^ s) pb = Ok sh /\
    shard_into_row_iter dbg sh = Ok rows /\ strings_file text rows /\ length rows = (2 ^ e)%nat.
Proof. exact generated_shard. Qed.
Print Assumptions C67_generated_shard.

(** C67: Refuted: "make gen-db writes elements of ELEMENT_SIZE_BITS bits". The target passes the
    size under a name the script does not read: whatever ELEMENT_SIZE_BITS is, every element
    has 2^13 bytes (unless the caller happens to export DB_ELEMENT_SIZE_EXP). *)
Theorem C67_make_ignores_element_size_refuted : forall urandom nexp e bits ones,
  random_bytes urandom -> says (Some nexp) 16 e ->
  exists text blocks, generate_db (make_gen_db_env nexp bits ones None) urandom = Some (bytes_of "data/rand_db.json", text) /\
    strings_file text (map b64_encode blocks) /\ length blocks = (2 ^ e)%nat /\
    Forall (fun b => length b = (2 ^ 13)%nat) blocks.
Proof. exact make_ignores_element_size_refuted. Qed.
Print Assumptions C67_make_ignores_element_size_refuted.

(** C67: The consequence with the Makefile's own values: the shard for 2^16 elements of 2^13 bits in
    10-bit chunks is built without complaint from the generated file, and entry i is only the
    first 2^10 of the 2^13 bytes of element i. *)
Theorem C67_make_default_shard_truncates : forall urandom prg dbg seed d dim path text,
  random_bytes urandom ->
  generate_db (make_gen_db_env (bytes_of "16") (bytes_of "8192") (bytes_of "0") None) urandom = Some (path, text) ->
  d path = Some text ->
  exists sh, shard_from_json_file prg dbg seed d path dim (2 ^ 16) (2 ^ 13) 10 = Ok sh /\
    forall i, (i < 2 ^ 16)%nat ->
      index_get_db_entry dbg (sh_db sh) i = Ok (b64_encode (firstn (2 ^ 10) (urandom i (2 ^ 13)%nat))) /\
      b64_encode (firstn (2 ^ 10) (urandom i (2 ^ 13)%nat)) <> b64_encode (urandom i (2 ^ 13)%nat).
Proof. exact make_default_shard_truncates. Qed.
Print Assumptions C67_make_default_shard_truncates.

(** C67: Refuted: "run without settings, the script writes random elements" (its default file is
    rand_db.json): with DB_ALL_ONES unset every element is all ones. *)
Theorem C67_default_is_not_random_refuted : forall urandom,
  random_bytes urandom ->
  exists text, generate_db {| DB_ALL_ONES := None; DB_NUM_ENTRIES_EXP := None; DB_ELEMENT_SIZE_EXP := None; DB_OUTPUT_PATH := None |} urandom
    = Some (bytes_of "rand_db.json", text) /\
  strings_file text (repeat (b64_encode (repeat 255 (2 ^ 13)%nat)) (2 ^ 16)%nat).
Proof. exact default_is_not_random_refuted. Qed.
Print Assumptions C67_default_is_not_random_refuted.

(** C67: example: two random elements of two bytes; the file text. *)
Example C67_generated_example :
  generate_db {| DB_ALL_ONES := Some (bytes_of "0"); DB_NUM_ENTRIES_EXP := Some (bytes_of "1");
                 DB_ELEMENT_SIZE_EXP := Some (bytes_of "01"); DB_OUTPUT_PATH := Some [] |}
    (fun i n => repeat (Z.of_nat i + 1) n) = Some (bytes_of "rand_db.json", bytes_of "[""AQE="", ""AgI=""]") /\
  says (Some (bytes_of "01")) 13 1 /\
  generate_db {| DB_ALL_ONES := None; DB_NUM_ENTRIES_EXP := Some (bytes_of "x"); DB_ELEMENT_SIZE_EXP := None; DB_OUTPUT_PATH := None |}
    (fun i n => repeat 0 n) = None.
Proof. exact generated_example. Qed.
