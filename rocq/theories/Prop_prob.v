(** Property theorems; each restates a lemma proved in Claims_prob.v. *)
From Coq Require Import Permutation.
From Verif Require Import Base Spec SpecFilter Fmt Mat Lwe Db Api Experiment Claims_matrix Claims_index Claims_filter Claims_kv Claims_kvbuild Claims_prob.
Local Open Scope Z_scope.

(** C61: Of all tapes of accepted random words, the number on which an index query is generated
    but the decoded row is not the stored one. S bounds the sum of squares of every column,
    n >= 1 is arbitrary: the fraction of such tapes is at most
    2 w (n / (n+1))^(2^(31-pb)) (1 + 1 / (3 n (n+1)))^S. *)
Theorem C61_index_failure_fraction :
  forall (prg : list Z -> nat -> Z) (dbg : bool) (seed : list Z) (strs elems : list (list Z))
         (dim m es pb w : nat) (sh : shard) (r : nat) (n S : Z),
    (1 <= pb <= 31)%nat -> is_ceil_div es pb w -> Z.of_nat es < 2 ^ 64 ->
    shard_from_base64_strings prg dbg seed strs dim m es pb = Ok sh ->
    length elems = m ->
    (forall i, (i < m)%nat -> b64_decode (nth i strs []) = Ok (nth i elems [])) ->
    1 <= n -> 0 <= S ->
    (forall c, (c < w)%nat -> sum_squares (column elems pb c) <= S) ->
    count_tapes (index_run_wrong prg dbg sh r (map (chunk (nth r elems []) pb) (seq 0 w))) (dim + m)
      * (n + 1) ^ (2 ^ (31 - Z.of_nat pb)) * (3 * (n * (n + 1))) ^ S
    <= (2 * Z.of_nat w) * n ^ (2 ^ (31 - Z.of_nat pb)) * (2 ^ 32 - 3) ^ Z.of_nat (dim + m)
       * (3 * (n * (n + 1)) + 1) ^ S.
Proof. exact index_failure_fraction. Qed.
Print Assumptions C61_index_failure_fraction.

(** C61: The fraction is out of all tapes: there are (2^32 - 3)^n of them. *)
Theorem C61_all_tapes : forall n, count_tapes (fun _ => true) n = (2 ^ 32 - 3) ^ Z.of_nat n.
Proof. exact all_tapes. Qed.
Print Assumptions C61_all_tapes.

(** C61: In every configuration the Makefile runs, the probability of a wrong row is below
    2^-bits, whatever the database content, the row and the dimension. *)
Theorem C61_index_failure_shipped :
  forall prg dbg seed strs elems dim m es pb w sh r mz ez pz bits,
    In (mz, ez, pz, bits) index_configs ->
    Z.of_nat m = mz -> Z.of_nat es = ez -> Z.of_nat pb = pz -> is_ceil_div es pb w ->
    shard_from_base64_strings prg dbg seed strs dim m es pb = Ok sh ->
    length elems = m ->
    (forall i, (i < m)%nat -> b64_decode (nth i strs []) = Ok (nth i elems [])) ->
    count_tapes (index_run_wrong prg dbg sh r (map (chunk (nth r elems []) pb) (seq 0 w))) (dim + m) * 2 ^ bits
    <= count_tapes (fun _ => true) (dim + m).
Proof. exact index_failure_shipped. Qed.
Print Assumptions C61_index_failure_shipped.

(** C62: Of all tapes of accepted random words, the number on which a keyword run (parameters,
    query for a stored key, answer, decoding) does not end with the stored value: with S a
    bound on the sum of squares of every column of the filter matrix and n >= 1 arbitrary,
    their fraction is at most 2 w (n / (n+1))^(2^(31-pb)) (1 + 1 / (3 n (n+1)))^S. *)
Theorem C62_kv_failure_fraction : forall prg dbg fe rnd fseed pseed kvs dim m es pb w sh i kv n S,
  (1 <= pb <= 31)%nat -> is_ceil_div es pb w -> Z.of_nat es < 2 ^ 64 ->
  sane_estimates fe (length kvs) ->
  Forall (fun kv => length (kv_value kv) = w) kvs ->
  kv_shard_new prg dbg fe rnd fseed pseed kvs dim m es pb = Ok sh ->
  (dbg = true \/ exists slots,
     (forall key, get_hash_evals dbg (kd_filter_params (ks_db sh)) key = Ok (slots key)) /\
     forall j, (load slots (map kv_key kvs) j <= 63)%nat) ->
  nth_error kvs i = Some kv -> last_with_hash fseed (map kv_key kvs) i (kv_key kv) ->
  1 <= n -> 0 <= S ->
  (forall c, (c < w)%nat -> sum_squares (nth c (kd_entries (ks_db sh)) []) <= S) ->
  count_tapes (kv_run_wrong prg dbg sh (kv_key kv) (map (fun x => x mod 2 ^ Z.of_nat pb) (kv_value kv)))
      (dim + kp_m (ks_params sh))
    * (n + 1) ^ (2 ^ (31 - Z.of_nat pb)) * (3 * (n * (n + 1))) ^ S
  <= (2 * Z.of_nat w) * n ^ (2 ^ (31 - Z.of_nat pb)) * (2 ^ 32 - 3) ^ Z.of_nat (dim + kp_m (ks_params sh))
     * (3 * (n * (n + 1)) + 1) ^ S.
Proof. exact kv_failure_fraction. Qed.
Print Assumptions C62_kv_failure_fraction.

(** C62: With a filter of at most that many slots, the probability that a stored key's value
    does not come back is below 2^-bits, whatever the keys, the values and the dimension. *)
Theorem C62_kv_failure_shipped : forall prg dbg fe rnd fseed pseed kvs dim m es pb w sh i kv mz ez pz bits,
  In (mz, ez, pz, bits) kv_configs ->
  Z.of_nat (kp_m (ks_params sh)) <= mz -> Z.of_nat es = ez -> Z.of_nat pb = pz -> is_ceil_div es pb w ->
  sane_estimates fe (length kvs) ->
  Forall (fun kv => length (kv_value kv) = w) kvs ->
  kv_shard_new prg dbg fe rnd fseed pseed kvs dim m es pb = Ok sh ->
  (dbg = true \/ exists slots,
     (forall key, get_hash_evals dbg (kd_filter_params (ks_db sh)) key = Ok (slots key)) /\
     forall j, (load slots (map kv_key kvs) j <= 63)%nat) ->
  nth_error kvs i = Some kv -> last_with_hash fseed (map kv_key kvs) i (kv_key kv) ->
  count_tapes (kv_run_wrong prg dbg sh (kv_key kv) (map (fun x => x mod 2 ^ Z.of_nat pb) (kv_value kv)))
      (dim + kp_m (ks_params sh)) * 2 ^ bits
  <= count_tapes (fun _ => true) (dim + kp_m (ks_params sh)).
Proof. exact kv_failure_shipped. Qed.
Print Assumptions C62_kv_failure_shipped.

(** C61: example: a database of 2^16 rows of 1 KiB (every string decodes to the same 1024
    arbitrary bytes) meets all hypotheses of the first configuration. *)
Example C61_index_shipped_example : forall prg dbg seed dim s bytes,
  b64_decode s = Ok bytes -> length bytes = Z.to_nat 1024 ->
  exists m es w strs elems sh,
    In (Z.of_nat m, Z.of_nat es, Z.of_nat 10, 58) index_configs /\ is_ceil_div es 10 w /\
    shard_from_base64_strings prg dbg seed strs dim m es 10 = Ok sh /\ length elems = m /\
    (forall i, (i < m)%nat -> b64_decode (nth i strs []) = Ok (nth i elems [])).
Proof. exact index_shipped_example. Qed.

(** C62: example: three keys and 228-entry values, 2048-bit values of 9-bit chunks: the shard
    is built whatever the randomness, and meets the hypotheses for the last configuration. *)
Example C62_kv_shipped_example : forall prg rnd pseed dim m, exists sh kv,
  In (1179648, 2048, 9, 52) kv_configs /\ is_ceil_div 2048 9 228 /\
  sane_estimates (est 3 12) (length wide_kvs) /\
  Forall (fun kv => length (kv_value kv) = 228%nat) wide_kvs /\
  kv_shard_new prg true (est 3 12) rnd seed0 pseed wide_kvs dim m 2048 9 = Ok sh /\
  Z.of_nat (kp_m (ks_params sh)) <= 1179648 /\
  nth_error wide_kvs 1 = Some kv /\ last_with_hash seed0 (map kv_key wide_kvs) 1 (kv_key kv).
Proof. exact kv_shipped_example. Qed.
