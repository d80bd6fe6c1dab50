(** * Files: the file-reading and file-writing entry points of src/api.rs, src/db/*.rs. *)
From Coq Require Import String Ascii.
From Verif Require Export Json Api.
Local Open Scope Z_scope.

(** Byte codes of a string constant. *)
Definition bytes_of (s : String.string) : list Z :=
  map (fun c => Z.of_nat (Ascii.nat_of_ascii c)) (String.list_ascii_of_string s).
Local Open Scope string_scope.

(** ** File system: contents by path. A path not present cannot be opened. *)
Definition fs : Type := list Z -> option (list Z).
Definition fs_set (d : fs) (p c : list Z) : fs := fun q => if beq q p then Some c else d q.

(** [fs::File::create] (truncates) and one unbuffered [write] of one byte. Simplification:
    [serde_json::to_writer] writes to the [File] in pieces of one or more bytes; byte
    granularity covers every way to cut the text into pieces. *)
Inductive fsop := Create (p : list Z) | Append (p : list Z) (b : Z).
Definition fs_step (d : fs) (o : fsop) : fs :=
  match o with
  | Create p => fs_set d p []
  | Append p b => match d p with Some c => fs_set d p (c ++ [b]) | None => d end
  end.
Definition fs_run (d : fs) (ops : list fsop) : fs := fold_left fs_step ops d.

(** [serde_json::to_writer(&fs::File::create(path)?, &json)?] *)
Definition write_ops (p : list Z) (v : json) : list fsop :=
  Create p :: map (Append p) (write_json v).

(** A sequence of file operations of which the first [k] succeed: if [k] is less than
    their number, operation [k] fails and [?] returns the error. The file system is
    returned whatever the outcome is. *)
Definition run_io (d : fs) (ops : list fsop) (k : nat) : fs * res unit :=
  (fs_run d (firstn k ops), if (k <? length ops)%nat then Err EIo else Ok tt).

(** ** Writers *)
Definition json_matrix (m : list (list Z)) : json := JArr (map (fun r => JArr (map JInt r)) m).
(** src/db/index.rs:67-70 and src/db/kv.rs:196-199 [DatabaseMatrix::write_to_file]. *)
Definition db_write_ops (path : list Z) (entries : list (list Z)) : list fsop :=
  write_ops path (json_matrix entries).
(** src/db/mod.rs:51-57 [BaseParams::write_to_file]. The [json!] object is a sorted map;
    "lhs_seed" precedes "rhs". *)
Definition params_json (public_seed : list Z) (rhs : list (list Z)) : json :=
  JObj [ (bytes_of "lhs_seed", JArr (map JInt public_seed)); (bytes_of "rhs", json_matrix rhs) ].
Definition params_write_ops (path public_seed : list Z) (rhs : list (list Z)) : list fsop :=
  write_ops path (params_json public_seed rhs).
(** src/api.rs:59-67 [Shard::write_to_file]: the database first, then the parameters. *)
Definition shard_write_ops (s : shard) (db_path params_path : list Z) : list fsop :=
  db_write_ops db_path (id_entries (sh_db s)) ++
  params_write_ops params_path (ip_public_seed (sh_params s)) (ip_rhs (sh_params s)).
Definition shard_write_to_file (d : fs) (s : shard) (db_path params_path : list Z) (k : nat)
  : fs * res unit := run_io d (shard_write_ops s db_path params_path) k.
(** src/api.rs:206-214 [KVShard::write_to_file]. *)
Definition kv_shard_write_ops (s : kv_shard) (db_path params_path : list Z) : list fsop :=
  db_write_ops db_path (kd_entries (ks_db s)) ++
  params_write_ops params_path (kp_public_seed (ks_params s)) (kp_rhs (ks_params s)).
Definition kv_shard_write_to_file (d : fs) (s : kv_shard) (db_path params_path : list Z)
    (k : nat) : fs * res unit := run_io d (kv_shard_write_ops s db_path params_path) k.

(** ** Readers *)

(** [fs::read_to_string(path)]: an error if the file is missing or not UTF-8. *)
Definition read_to_string (d : fs) (path : list Z) : res (list Z) :=
  match d path with
  | None => Err EIo
  | Some c => if is_utf8 c then Ok c else Err EIo
  end.
Definition of_opt {A} (o : option A) : res A :=
  match o with Some a => Ok a | None => Err EDeserialize end.
(** [serde_json::from_str::<Vec<String>>] *)
Definition json_strings (text : list Z) : res (list (list Z)) :=
  of_opt (match parse_text text with Some v => de_vec de_string v | None => None end).

(** src/db/index.rs:40-49 [IndexDatabase::from_file]. *)
Definition index_db_from_file (dbg : bool) (d : fs) (path : list Z)
    (m elem_size plaintext_bits : nat) : res index_db :=
  let* text := read_to_string d path in
  let* elements := json_strings text in
  index_db_new dbg elements m elem_size plaintext_bits.

(** src/api.rs:31-42 [Shard::from_json_file]: reading and parsing errors are unwrapped. *)
Definition shard_from_json_file (prg : list Z -> nat -> Z) (dbg : bool) (public_seed : list Z)
    (d : fs) (path : list Z) (lwe_dim m elem_size plaintext_bits : nat) : res shard :=
  let* text := unwrap (read_to_string d path) in
  let* elements := unwrap (json_strings text) in
  shard_from_base64_strings prg dbg public_seed elements lwe_dim m elem_size plaintext_bits.

(** src/api.rs:101-106 [struct EncodedKV], decoded from JSON; src/api.rs:150-170
    [KVShard::from_json_file]. *)
Definition de_encoded_kv (v : json) : option (list Z * list Z) :=
  match struct_fields [bytes_of "key"; bytes_of "value"] v with
  | Some [k; x] => match de_string k, de_string x with
                   | Some k, Some x => Some (k, x)
                   | _, _ => None
                   end
  | _ => None
  end.
Definition json_kvs (text : list Z) : res (list (list Z * list Z)) :=
  of_opt (match parse_text text with Some v => de_vec de_encoded_kv v | None => None end).
Definition kv_shard_from_json_file (sha256 : list Z -> list Z) (prg : list Z -> nat -> Z)
    (dbg : bool) (fe : fest) (rnd : nat -> nat -> Z) (filter_seed public_seed : list Z)
    (d : fs) (path : list Z) (lwe_dim m elem_size plaintext_bits : nat) : res kv_shard :=
  let* text := unwrap (read_to_string d path) in
  let* enc_kvs := unwrap (json_kvs text) in
  kv_shard_from_base64_strings sha256 prg dbg fe rnd filter_seed public_seed
    (map fst enc_kvs) (map snd enc_kvs) lwe_dim m elem_size plaintext_bits.

(** src/db/index.rs:120-129: derived [Serialize] / [Deserialize] of [IndexParams]. *)
Definition index_params_names : list (list Z) :=
  [bytes_of "dim"; bytes_of "m"; bytes_of "public_seed"; bytes_of "rhs";
   bytes_of "elem_size"; bytes_of "plaintext_bits"].
Definition ser_index_params (p : index_params) : json :=
  JObj (combine index_params_names
    [JInt (Z.of_nat (ip_dim p)); JInt (Z.of_nat (ip_m p)); JArr (map JInt (ip_public_seed p));
     json_matrix (ip_rhs p); JInt (Z.of_nat (ip_elem_size p));
     JInt (Z.of_nat (ip_plaintext_bits p))]).
Definition de_index_params (v : json) : option index_params :=
  match struct_fields index_params_names v with
  | Some [a; b; c; r; e; p] =>
      match de_usize a, de_usize b, de_u8_32 c, de_vec (de_vec (de_uint two32)) r,
            de_usize e, de_usize p with
      | Some dim, Some m, Some seed, Some rhs, Some es, Some pb =>
          Some {| ip_dim := dim; ip_m := m; ip_public_seed := seed; ip_rhs := rhs;
                  ip_elem_size := es; ip_plaintext_bits := pb |}
      | _, _, _, _, _, _ => None
      end
  | _ => None
  end.

(** src/db/index.rs:143-147 [IndexParams::load]. [from_reader] checks UTF-8 only inside
    strings; the model checks nothing (it can only accept more). *)
Definition index_params_load (d : fs) (path : list Z) : res index_params :=
  match d path with
  | None => Err EIo
  | Some text => of_opt (match parse_text text with
                         | Some v => de_index_params v
                         | None => None end)
  end.
