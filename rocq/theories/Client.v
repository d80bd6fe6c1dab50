(** * Client: what leaves the client when it makes one query from one random tape
    (src/api.rs:434-447 [generate_*_query_params], then [generate_query], lines 276-294 and
    348-364; the composition benches/bench.rs and the tests of api.rs run). *)
From Verif Require Export Api.
Local Open Scope Z_scope.

Definition index_client_query (prg : list Z -> nat -> Z) (dbg : bool) (p : index_params) (row : nat)
    (tape : list Z) : res (list Z) :=
  let* (qp, _) := generate_index_query_params (index_common_params prg p) p tape in
  snd (index_generate_query dbg qp row).

Definition kv_client_query (prg : list Z -> nat -> Z) (dbg : bool) (p : kv_params) (key : list Z)
    (tape : list Z) : res (list Z) :=
  let* (qp, _) := generate_kv_query_params (kv_common_params prg p) p tape in
  snd (kv_generate_query dbg qp key).
