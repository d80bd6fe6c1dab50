(** Property theorems; each restates a lemma proved in Claims_access.v. *)
From Coq Require Import Permutation.
From Verif Require Import Base Spec Fmt Base64 Mat Bfusep Db Api SpecFilter Access Claims_format Claims_filter Claims_kv Claims_access.
Local Open Scope Z_scope.

(** C66: Index databases: [get_row j] is the j-th plaintext chunk of every one of the m
    elements (a column of the element table), and panics from the row width on;
    [get_db_entry] panics from m on. *)
Theorem C66_index_get_row_is_chunk_column :
  forall (dbg : bool) (strs : list (list Z)) (m es pb w : nat) (db : index_db),
    (1 <= pb <= 32)%nat -> (0 < es)%nat -> is_ceil_div es pb w ->
    index_db_new dbg strs m es pb = Ok db ->
    exists elems, length elems = m /\
      (forall i, (i < m)%nat -> b64_decode (nth i strs []) = Ok (nth i elems [])) /\
      (forall j, (j < w)%nat -> index_get_row db j = Ok (map (fun e => chunk e pb j) elems)) /\
      (forall j, (w <= j)%nat -> index_get_row db j = Panic) /\
      (forall dbg i, (m <= i)%nat -> index_get_db_entry dbg db i = Panic).
Proof. exact index_get_row_is_chunk_column. Qed.
Print Assumptions C66_index_get_row_is_chunk_column.

(** C66: After [switch_fmt], [get_row i] is the row of element i, and a second [switch_fmt]
    restores the database. *)
Theorem C66_index_get_row_after_switch :
  forall (dbg : bool) (strs : list (list Z)) (m es pb w : nat) (db : index_db),
    (1 <= pb <= 32)%nat -> (0 < es)%nat -> is_ceil_div es pb w ->
    index_db_new dbg strs m es pb = Ok db ->
    exists db', index_switch_fmt db = Ok db' /\ index_switch_fmt db' = Ok db /\
      forall i e, (i < m)%nat -> b64_decode (nth i strs []) = Ok e ->
        index_get_row db' i = Ok (map (chunk e pb) (seq 0 w)).
Proof. exact index_get_row_after_switch. Qed.
Print Assumptions C66_index_get_row_after_switch.

(** C66: Refuted: "get_row(i) is the row of element i". Two elements of three chunks: [get_row]
    answers for 2, where there is no element, and [get_row 0] is not the row of element 0. *)
Theorem C66_get_row_is_element_row_refuted :
  exists strs m es pb db e w, index_db_new true strs m es pb = Ok db /\ (0 < m)%nat /\
    b64_decode (nth 0 strs []) = Ok e /\ is_ceil_div es pb w /\
    index_get_row db 0 <> Ok (map (chunk e pb) (seq 0 w)) /\
    (exists r, index_get_row db m = Ok r).
Proof. exact get_row_is_element_row_refuted. Qed.
Print Assumptions C66_get_row_is_element_row_refuted.

(** C66: The parameter getters of an index shard report what construction was given. *)
Theorem C66_index_getters : forall prg dbg seed strs dim m es pb sh,
  shard_from_base64_strings prg dbg seed strs dim m es pb = Ok sh ->
  index_params_getters (sh_params sh) = (m, dim, es, pb) /\ ip_public_seed (sh_params sh) = seed.
Proof. exact index_getters. Qed.
Print Assumptions C66_index_getters.

(** C66: Key-value shards: [into_row_iter] never fails and yields one string per filter slot
    (not per pair); [get_db_entry] panics from there on, [get_row] from the number of columns
    on, and [get_total_records] is the number of slots. *)
Theorem C66_kv_row_iter : forall prg dbg fe rnd fseed pseed kvs dim m es pb sh,
  (1 <= pb <= 31)%nat -> sane_estimates fe (length kvs) ->
  kv_shard_new prg dbg fe rnd fseed pseed kvs dim m es pb = Ok sh ->
  exists g rows, geometry dbg fe (length kvs) = Ok g /\
    kv_shard_into_row_iter dbg sh = Ok rows /\ length rows = g_arrlen g /\
    kv_params_getters (ks_params sh) = (g_arrlen g, dim, es, pb) /\
    (forall i, (i < g_arrlen g)%nat -> kv_get_db_entry dbg (ks_db sh) i = Ok (nth i rows [])) /\
    (forall i, (g_arrlen g <= i)%nat -> kv_get_db_entry dbg (ks_db sh) i = Panic) /\
    (forall j, (length (kd_entries (ks_db sh)) <= j)%nat -> kv_get_row (ks_db sh) j = Panic).
Proof. exact kv_row_iter. Qed.
Print Assumptions C66_kv_row_iter.

(** C66: What the slots hold: for every stored key that is the last with its hash, in every
    column, the three slots of the key and its fingerprint sum to the stored value modulo
    2^plaintext_bits. *)
Theorem C66_kv_get_row_slots : forall prg dbg fe rnd fseed pseed kvs dim m es pb w sh i kv,
  (1 <= pb <= 31)%nat -> sane_estimates fe (length kvs) ->
  Forall (fun kv => length (kv_value kv) = w) kvs ->
  kv_shard_new prg dbg fe rnd fseed pseed kvs dim m es pb = Ok sh ->
  (dbg = true \/ exists slots,
     (forall key, get_hash_evals dbg (kd_filter_params (ks_db sh)) key = Ok (slots key)) /\
     forall j, (load slots (map kv_key kvs) j <= 63)%nat) ->
  nth_error kvs i = Some kv -> last_with_hash fseed (map kv_key kvs) i (kv_key kv) ->
  exists a b c, get_hash_evals dbg (kd_filter_params (ks_db sh)) (kv_key kv) = Ok [a; b; c] /\
    (a < b < c)%nat /\
    forall j, (j < w)%nat -> exists col, kv_get_row (ks_db sh) j = Ok col /\ (c < length col)%nat /\
      (nth a col 0 + nth b col 0 + nth c col 0 + get_key_fingerprint (kv_key kv) fseed (Z.of_nat j)) mod 2 ^ Z.of_nat pb
      = nth j (kv_value kv) 0 mod 2 ^ Z.of_nat pb.
Proof. exact kv_get_row_slots. Qed.
Print Assumptions C66_kv_get_row_slots.

(** C66: Refuted: "into_row_iter lists the stored values" for key-value shards. Three pairs give
    24 strings, and none of them is the string of a stored value. *)
Theorem C66_kv_row_iter_lists_values_refuted :
  exists fe rnd fseed pseed kvs es pb sh rows,
    sane_estimates fe (length kvs) /\
    kv_shard_new ex_prg true fe rnd fseed pseed kvs 2 (length kvs) es pb = Ok sh /\
    kv_shard_into_row_iter true sh = Ok rows /\
    length rows <> length kvs /\ kp_m (ks_params sh) <> length kvs /\
    forall kv s, In kv kvs -> base64_from_u32_slice true (kv_value kv) pb es = Ok s -> ~ In s rows.
Proof. exact kv_row_iter_lists_values_refuted. Qed.
Print Assumptions C66_kv_row_iter_lists_values_refuted.

(** C66: example: the hypotheses of the shard statements are met. *)
Example C66_access_example : exists sh rows,
  kv_shard_new ex_prg true (est 3 12) ex_rnd seed0 seed0 ex_kvs 2 3 16 10 = Ok sh /\
  kv_shard_into_row_iter true sh = Ok rows /\ length rows = 24%nat /\
  sane_estimates (est 3 12) (length ex_kvs) /\ Forall (fun kv => length (kv_value kv) = 2%nat) ex_kvs.
Proof. exact access_example. Qed.
