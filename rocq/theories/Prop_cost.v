(** Property theorems; each restates a lemma proved in Claims_cost.v. *)
From Coq Require Import Permutation.
From Verif Require Import Base Spec Fmt Bincode Mat Lwe Db Api Hash Fuse3 Bfusep Float64 Estimate SpecFilter SpecEst Serde Base64 Claims_format Claims_filter Claims_index Claims_kv Claims_prob Claims_estimate Claims_cost.
Local Open Scope Z_scope.

(** C70: Index queries, for every shard and every run: the bytes of the query, of the answer, of
    the common parameters and of the shard's parameters, and the size of the matrix that the
    server multiplies by, for m elements of w chunks. *)
Theorem C70_index_costs : forall prg dbg seed strs dim m es pb w sh tape rest qp r qp' q bytes,
  (1 <= pb <= 31)%nat -> is_ceil_div es pb w -> length seed = 32%nat ->
  shard_from_base64_strings prg dbg seed strs dim m es pb = Ok sh ->
  generate_index_query_params (index_common_params prg (sh_params sh)) (sh_params sh) tape = Ok (qp, rest) ->
  index_generate_query dbg qp r = (qp', Ok q) -> shard_respond sh q = Ok bytes ->
  (length (bin_serialize b_query q) = 8 + 4 * m)%nat /\
  (length bytes = 8 + 4 * w)%nat /\
  (length (bin_serialize b_common_params (index_common_params prg (sh_params sh))) = 8 + (8 + 4 * dim) * m)%nat /\
  (length (bin_serialize b_index_params (sh_params sh)) = 72 + (8 + 4 * dim) * w)%nat /\
  shape (id_entries (sh_db sh)) w m.
Proof. exact index_costs. Qed.
Print Assumptions C70_index_costs.

(** C70: Keyword queries: the same numbers with the number of filter slots (published as the
    shard's m) in place of the number of elements, and 44 more bytes of parameters. *)
Theorem C70_keyword_costs : forall prg dbg fe rnd fseed pseed kvs dim m es pb w sh tape rest qp key qp' q bytes,
  (1 <= pb <= 31)%nat -> is_ceil_div es pb w -> length fseed = 32%nat -> length pseed = 32%nat ->
  sane_estimates fe (length kvs) -> Forall (fun kv => length (kv_value kv) = w) kvs ->
  kv_shard_new prg dbg fe rnd fseed pseed kvs dim m es pb = Ok sh ->
  generate_kv_query_params (kv_common_params prg (ks_params sh)) (ks_params sh) tape = Ok (qp, rest) ->
  kv_generate_query dbg qp key = (qp', Ok q) -> kv_shard_respond sh q = Ok bytes ->
  let slots := kp_m (ks_params sh) in
  (length (bin_serialize b_query q) = 8 + 4 * slots)%nat /\
  (length bytes = 8 + 4 * w)%nat /\
  (length (bin_serialize b_common_params (kv_common_params prg (ks_params sh))) = 8 + (8 + 4 * dim) * slots)%nat /\
  (length (bin_serialize b_kv_params (ks_params sh)) = 72 + (8 + 4 * dim) * w + 44)%nat /\
  shape (kd_entries (ks_db sh)) w slots.
Proof. exact keyword_costs. Qed.
Print Assumptions C70_keyword_costs.

(** C70: Refuted, for every key-value shard that is built and every query: "all costs bounded by a
    factor of at most 1.08". With the code's own size computation the query of a shard of n
    pairs has more than 1.08 n words (an index query has n, see index_costs); so has each
    column of the matrix the server multiplies by. *)
Theorem C70_overhead_refuted : forall log prg dbg rnd fseed pseed kvs dim m es pb w sh tape rest qp key qp' q,
  (1 <= pb <= 31)%nat -> is_ceil_div es pb w -> Z.of_nat es < 2 ^ 64 ->
  reasonable_log log -> Z.of_nat (length kvs) <= max_keys ->
  Forall (fun kv => length (kv_value kv) = w) kvs ->
  kv_shard_new prg dbg (f64_estimates log) rnd fseed pseed kvs dim m es pb = Ok sh ->
  generate_kv_query_params (kv_common_params prg (ks_params sh)) (ks_params sh) tape = Ok (qp, rest) ->
  kv_generate_query dbg qp key = (qp', Ok q) ->
  108 * Z.of_nat (length kvs) < 100 * Z.of_nat (length q).
Proof. exact overhead_refuted. Qed.
Print Assumptions C70_overhead_refuted.

(** C70: What does hold: from 2^16 pairs on every key-value query is at most 1.25 times as long as
    an index query, and from 2^20 pairs on at most 1.141 times; and so are the columns of the
    matrix. *)
Theorem C70_overhead_bound : forall log prg dbg rnd fseed pseed kvs dim m es pb w sh tape rest qp key qp' q,
  (1 <= pb <= 31)%nat -> is_ceil_div es pb w -> Z.of_nat es < 2 ^ 64 ->
  reasonable_log log -> 2 ^ 16 <= Z.of_nat (length kvs) <= max_keys ->
  Forall (fun kv => length (kv_value kv) = w) kvs ->
  kv_shard_new prg dbg (f64_estimates log) rnd fseed pseed kvs dim m es pb = Ok sh ->
  generate_kv_query_params (kv_common_params prg (ks_params sh)) (ks_params sh) tape = Ok (qp, rest) ->
  kv_generate_query dbg qp key = (qp', Ok q) ->
  100 * Z.of_nat (length q) <= 125 * Z.of_nat (length kvs) /\
  (2 ^ 20 <= Z.of_nat (length kvs) -> 1000 * Z.of_nat (length q) <= 1141 * Z.of_nat (length kvs)).
Proof. exact overhead_bound. Qed.
Print Assumptions C70_overhead_bound.

(** C70: example: three pairs with the code's size computation: a shard is built and queried; the
    query has 20 words (88 bytes) where the index query for the same three values has 3 (20
    bytes), the answers have 16 bytes in both cases. *)
Example C70_cost_example : exists sh qp rest qp' q bytes ksh kqp krest kqp' kq kbytes,
  reasonable_log crude_log /\ is_ceil_div 19 10 2 /\ Forall (fun kv => length (kv_value kv) = 2%nat) ex_kvs /\
  shard_from_base64_strings ex_prg true seed0 (map b64_encode [[188; 6; 0]; [5; 252; 7]; [255; 99; 1]]) 2 3 19 10 = Ok sh /\
  generate_index_query_params (index_common_params ex_prg (sh_params sh)) (sh_params sh) ex_tape = Ok (qp, rest) /\
  index_generate_query true qp 1 = (qp', Ok q) /\ shard_respond sh q = Ok bytes /\
  length (bin_serialize b_query q) = 20%nat /\ length bytes = 16%nat /\
  kv_shard_new ex_prg true (f64_estimates crude_log) ex_rnd seed0 seed0 ex_kvs 2 3 19 10 = Ok ksh /\
  generate_kv_query_params (kv_common_params ex_prg (ks_params ksh)) (ks_params ksh) ex_tape = Ok (kqp, krest) /\
  kv_generate_query true kqp (key4 2) = (kqp', Ok kq) /\ kv_shard_respond ksh kq = Ok kbytes /\
  length kq = 20%nat /\ length (bin_serialize b_query kq) = 88%nat /\ length kbytes = 16%nat.
Proof. exact cost_example. Qed.
