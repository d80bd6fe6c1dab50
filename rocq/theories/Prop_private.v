(** Property theorems; each restates a lemma proved in Claims_private.v. *)
From Coq Require Import Permutation.
From Verif Require Import Base Spec SpecFilter SpecLwe Fmt Mat Lwe Hash Fuse3 Bfusep Db Api Client Claims_index Claims_filter Claims_kv Claims_kvbuild Claims_prob Claims_private.
Local Open Scope Z_scope.

(** C71: A keyword query is a learning-with-errors vector for the public matrix, with
    delta = 2^32 / 2^plaintext_bits added at the key's slots, and nothing else: for every tape,
    whoever made the public parameters, as long as their right-hand side has the right shape and
    the key's slots are inside the matrix. *)
Theorem C71_kv_query_is_lwe : forall prg dbg p key js tape,
  (1 <= kp_plaintext_bits p <= 31)%nat -> Forall (fun c => length c = kp_dim p) (kp_rhs p) ->
  get_hash_evals dbg (kp_filter_params p) key = Ok js -> Forall (fun j => (j < kp_m p)%nat) js ->
  In tape (random_tapes (kp_dim p + kp_m p)) ->
  kv_client_query prg dbg p key tape =
    Ok (plant (2 ^ (32 - Z.of_nat (kp_plaintext_bits p))) js (lwe_vector (kv_common_params prg p) (kp_dim p) tape)).
Proof. exact kv_query_is_lwe. Qed.
Print Assumptions C71_kv_query_is_lwe.

(** C71: Keyword queries are as private as learning with errors. A server sees n queries, each
    made with fresh parameters, for one list of keys or for another of the same length. Whatever
    test D it applies to all of them, its advantage in telling the two lists apart is at most the
    sum of the advantages of two tests for learning with errors over the public matrix, and these
    tests only add delta at the slots of the keys before they apply D. (All counts are over the
    same tapes and vectors, so the inequality is one between probabilities.) *)
Theorem C71_kv_queries_private : forall prg dbg p slots keys1 keys2 (D : list (res (list Z)) -> bool),
  (1 <= kp_plaintext_bits p <= 31)%nat -> Forall (fun c => length c = kp_dim p) (kp_rhs p) ->
  (forall key, In key (keys1 ++ keys2) ->
     get_hash_evals dbg (kp_filter_params p) key = Ok (slots key) /\ Forall (fun j => (j < kp_m p)%nat) (slots key)) ->
  length keys1 = length keys2 ->
  let A := kv_common_params prg p in
  let n := length keys1 in
  let T := lwe_tapes A (kp_dim p) n in
  let seen keys := count (fun tapes => D (map2 (kv_client_query prg dbg p) keys tapes)) T in
  let test keys := fun vectors =>
    D (map2 (fun key v => Ok (plant (2 ^ (32 - Z.of_nat (kp_plaintext_bits p))) (slots key) v)) keys vectors) in
  Z.abs (seen keys1 - seen keys2) * size (lwe_uniform A n)
  <= lwe_advantage A (kp_dim p) n (test keys1) + lwe_advantage A (kp_dim p) n (test keys2).
Proof. exact kv_queries_private. Qed.
Print Assumptions C71_kv_queries_private.

(** C71: The parameters of every key-value shard that is built meet the hypotheses, for every
    key, stored or not. *)
Theorem C71_kv_shard_params_fit : forall prg dbg fe rnd fseed pseed kvs dim m es pb w sh,
  (1 <= pb <= 31)%nat -> is_ceil_div es pb w -> sane_estimates fe (length kvs) ->
  Forall (fun kv => length (kv_value kv) = w) kvs ->
  kv_shard_new prg dbg fe rnd fseed pseed kvs dim m es pb = Ok sh ->
  let p := ks_params sh in
  kp_plaintext_bits p = pb /\ kp_dim p = dim /\ Forall (fun c => length c = kp_dim p) (kp_rhs p) /\
  exists slots, forall key, get_hash_evals dbg (kp_filter_params p) key = Ok (slots key) /\ Forall (fun j => (j < kp_m p)%nat) (slots key).
Proof. exact kv_shard_params_fit. Qed.
Print Assumptions C71_kv_shard_params_fit.

(** C71: An index query is a learning-with-errors vector with delta added at the row, or the
    overflow error when the sum does not fit in 32 bits (see C18, C20). *)
Theorem C71_index_query_is_lwe : forall prg dbg p r tape,
  (1 <= ip_plaintext_bits p <= 31)%nat -> Forall (fun c => length c = ip_dim p) (ip_rhs p) ->
  (r < ip_m p)%nat -> In tape (random_tapes (ip_dim p + ip_m p)) ->
  let v := lwe_vector (index_common_params prg p) (ip_dim p) tape in
  let delta := 2 ^ (32 - Z.of_nat (ip_plaintext_bits p)) in
  index_client_query prg dbg p r tape =
    if nth r v 0 + delta <? 2 ^ 32 then Ok (plant delta [r] v) else Err EOverflownAdd.
Proof. exact index_query_is_lwe. Qed.
Print Assumptions C71_index_query_is_lwe.

(** C71: Index queries, refused ones included: the advantage of a server in telling two lists of n
    rows apart is at most that of two tests for learning with errors, plus n (1/P) (1 - 1/P),
    where P = 2^plaintext_bits. The last term is the price of refusing queries that overflow. *)
Theorem C71_index_queries_private : forall prg dbg p rows1 rows2 (D : list (res (list Z)) -> bool),
  (1 <= ip_plaintext_bits p <= 31)%nat -> Forall (fun c => length c = ip_dim p) (ip_rhs p) ->
  Forall (fun r => (r < ip_m p)%nat) rows1 -> Forall (fun r => (r < ip_m p)%nat) rows2 -> length rows1 = length rows2 ->
  let A := index_common_params prg p in
  let n := length rows1 in
  let T := lwe_tapes A (ip_dim p) n in
  let P := 2 ^ Z.of_nat (ip_plaintext_bits p) in
  let seen rows := count (fun tapes => D (map2 (index_client_query prg dbg p) rows tapes)) T in
  let test rows := fun vectors => D (map2 (index_view (2 ^ (32 - Z.of_nat (ip_plaintext_bits p)))) rows vectors) in
  P ^ 2 * (Z.abs (seen rows1 - seen rows2) * size (lwe_uniform A n))
  <= P ^ 2 * (lwe_advantage A (ip_dim p) n (test rows1) + lwe_advantage A (ip_dim p) n (test rows2))
     + Z.of_nat n * (P - 1) * size T * size (lwe_uniform A n).
Proof. exact index_queries_private. Qed.
Print Assumptions C71_index_queries_private.

(** C71: That price is real: under uniform masks (where no query could be told from random if
    overflowing sums were kept), the test "entry r2 is below delta" accepts a query for row r1
    with probability exactly (1/P) (1 - 1/P), and never a query for row r2. The second half
    holds for the real masks too. *)
Theorem C71_index_no_loss_refuted : forall m pb r1 r2, (1 <= pb <= 31)%nat -> (r1 < m)%nat -> (r2 < m)%nat -> r1 <> r2 ->
  let delta := 2 ^ (32 - Z.of_nat pb) in
  let P := 2 ^ Z.of_nat pb in
  let test (view : res (list Z)) := match view with Ok q => nth r2 q 0 <? delta | _ => false end in
  P ^ 2 * count (fun v => test (index_view delta r1 v)) (uniform_vectors m) = (P - 1) * size (uniform_vectors m) /\
  count (fun v => test (index_view delta r2 v)) (uniform_vectors m) = 0 /\
  (forall prg dbg p tape, ip_plaintext_bits p = pb -> test (index_client_query prg dbg p r2 tape) = false).
Proof. exact index_no_loss_refuted. Qed.
Print Assumptions C71_index_no_loss_refuted.

(** C71: The lists counted over are never empty, so the inequalities above do bound
    probabilities. *)
Theorem C71_lwe_sizes : forall A dim n, 0 < size (lwe_tapes A dim n) /\ 0 < size (lwe_uniform A n).
Proof. exact lwe_sizes. Qed.
Print Assumptions C71_lwe_sizes.

(** C71: example: three stored keys; any two lists of keys of the same length, and a client that
    asks for one stored and one absent key against one that asks for them in the other order. *)
Example C71_private_example : forall prg rnd pseed dim m, exists sh slots,
  kv_shard_new prg true (est 3 12) rnd seed0 pseed ex_kvs dim m 19 10 = Ok sh /\
  (1 <= kp_plaintext_bits (ks_params sh) <= 31)%nat /\
  Forall (fun c => length c = kp_dim (ks_params sh)) (kp_rhs (ks_params sh)) /\
  (forall key, In key ([key4 1; key4 99] ++ [key4 99; key4 1]) ->
     get_hash_evals true (kp_filter_params (ks_params sh)) key = Ok (slots key) /\
     Forall (fun j => (j < kp_m (ks_params sh))%nat) (slots key)) /\
  exists p rows1 rows2,
    (1 <= ip_plaintext_bits p <= 31)%nat /\ Forall (fun c => length c = ip_dim p) (ip_rhs p) /\
    Forall (fun r => (r < ip_m p)%nat) rows1 /\ Forall (fun r => (r < ip_m p)%nat) rows2 /\
    length rows1 = 2%nat /\ length rows2 = 2%nat /\ rows1 <> rows2.
Proof. exact private_example. Qed.
