(** * SpecFiles: vocabulary of the file claims. *)
From Coq Require Import String.
From Verif Require Import Base Db Api Json Files.
Local Open Scope Z_scope.

(** The type invariants of a Rust [Shard]: u32 matrices, a 32-byte seed. *)
Definition typed_shard (s : shard) : Prop :=
  Forall (Forall is_u32) (id_entries (sh_db s)) /\ Forall (Forall is_u32) (ip_rhs (sh_params s)) /\
  Forall is_u8 (ip_public_seed (sh_params s)) /\ length (ip_public_seed (sh_params s)) = 32%nat.

(** JSON text of a list of strings / of key-value objects, as a JSON library writes it. *)
Definition strings_text (l : list (list Z)) : list Z := write_json (JArr (map JStr l)).
Definition kvs_text (l : list (list Z * list Z)) : list Z :=
  write_json (JArr (map (fun kv => JObj [ (bytes_of "key", JStr (fst kv)); (bytes_of "value", JStr (snd kv)) ]) l)).
