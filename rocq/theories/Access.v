(** * Access: the remaining read accessors of the databases and parameters. *)
From Verif Require Export Base Db Api.
Local Open Scope Z_scope.

(** src/db/kv.rs:201-204 [KVDatabase::get_row]. *)
Definition kv_get_row (db : kv_db) (i : nat) : res (list Z) := idx (kd_entries db) i.

(** src/db/index.rs:145-167, src/db/kv.rs:309-331 [BaseParams] getters, in the order
    [get_total_records], [get_dim], [get_elem_size], [get_plaintext_bits]. *)
Definition index_params_getters (p : index_params) : nat * nat * nat * nat :=
  (ip_m p, ip_dim p, ip_elem_size p, ip_plaintext_bits p).
Definition kv_params_getters (p : kv_params) : nat * nat * nat * nat :=
  (kp_m p, kp_dim p, kp_elem_size p, kp_plaintext_bits p).
