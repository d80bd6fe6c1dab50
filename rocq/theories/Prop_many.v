(** Property theorems; each restates a lemma proved in Claims_many.v. *)
From Coq Require Import Permutation.
From Verif Require Import Base Spec SpecFilter SpecLwe Fmt Mat Lwe Hash Fuse3 Bfusep Db Api Client Claims_filter Claims_kv Claims_kvbuild Claims_private Claims_many.
Local Open Scope Z_scope.

(** C71: One sample is as hard as many. The advantage of any test that tells S k LWE vectors from
    S k uniform ones is at most S k times its advantage in telling one LWE vector from one uniform
    vector, once k of the vectors it looks at have been fixed: LWE vectors before the one under
    test (which a tester can draw for itself), uniform ones after it. (Advantages are scaled by
    the numbers of tapes and of vectors, hence the two sizes for the k fixed samples.) *)
Theorem C71_lwe_samples : forall A dim k D, exists i j tapes post,
  (i + j = k)%nat /\ In tapes (lwe_tapes A dim i) /\ In post (lwe_uniform A j) /\
  lwe_advantage A dim (S k) D <=
  Z.of_nat (S k) * (size (lwe_tapes A dim k) * size (lwe_uniform A k)) *
  lwe_advantage A dim 1 (fun vs => D (map (lwe_vector A dim) tapes ++ vs ++ post)).
Proof. exact lwe_samples. Qed.
Print Assumptions C71_lwe_samples.

(** C71: Keyword mode: a server that sees S k queries tells two lists of S k keys apart with an
    advantage of at most S k times the sum of two advantages against a single LWE vector, of
    which it computes the queries itself: it draws the vectors before and after, plants each
    query in its vector and looks. Nothing but the one vector is hidden from these two tests. *)
Theorem C71_kv_queries_one_sample : forall prg dbg p slots keys1 keys2 k (D : list (res (list Z)) -> bool),
  (1 <= kp_plaintext_bits p <= 31)%nat -> Forall (fun c => length c = kp_dim p) (kp_rhs p) ->
  (forall key, In key (keys1 ++ keys2) ->
     get_hash_evals dbg (kp_filter_params p) key = Ok (slots key) /\ Forall (fun j => (j < kp_m p)%nat) (slots key)) ->
  length keys1 = S k -> length keys2 = S k ->
  let A := kv_common_params prg p in
  let T n := lwe_tapes A (kp_dim p) n in
  let U n := lwe_uniform A n in
  let seen keys := count (fun tapes => D (map2 (kv_client_query prg dbg p) keys tapes)) (T (S k)) in
  let test keys := fun vectors =>
    D (map2 (fun key v => Ok (plant (2 ^ (32 - Z.of_nat (kp_plaintext_bits p))) (slots key) v)) keys vectors) in
  exists pre1 post1 pre2 post2,
  Z.abs (seen keys1 - seen keys2) * size (U (S k)) <=
  Z.of_nat (S k) * (size (T k) * size (U k)) *
  (lwe_advantage A (kp_dim p) 1 (fun vs => test keys1 (pre1 ++ vs ++ post1)) +
   lwe_advantage A (kp_dim p) 1 (fun vs => test keys2 (pre2 ++ vs ++ post2))).
Proof. exact kv_queries_one_sample. Qed.
Print Assumptions C71_kv_queries_one_sample.

(** C71: Index mode, refused queries included: the same bound, plus the price of the refusals (at
    most 1/2^plaintext_bits for every query, in each of the two runs; see C71 above). *)
Theorem C71_index_queries_one_sample : forall prg dbg p rows1 rows2 k (D : list (res (list Z)) -> bool),
  (1 <= ip_plaintext_bits p <= 31)%nat -> Forall (fun c => length c = ip_dim p) (ip_rhs p) ->
  Forall (fun r => (r < ip_m p)%nat) rows1 -> Forall (fun r => (r < ip_m p)%nat) rows2 ->
  length rows1 = S k -> length rows2 = S k ->
  let A := index_common_params prg p in
  let T n := lwe_tapes A (ip_dim p) n in
  let U n := lwe_uniform A n in
  let P := 2 ^ Z.of_nat (ip_plaintext_bits p) in
  let seen rows := count (fun tapes => D (map2 (index_client_query prg dbg p) rows tapes)) (T (S k)) in
  let test rows := fun vectors => D (map2 (index_view (2 ^ (32 - Z.of_nat (ip_plaintext_bits p)))) rows vectors) in
  exists pre1 post1 pre2 post2,
  P ^ 2 * (Z.abs (seen rows1 - seen rows2) * size (U (S k))) <=
  P ^ 2 * (Z.of_nat (S k) * (size (T k) * size (U k)) *
    (lwe_advantage A (ip_dim p) 1 (fun vs => test rows1 (pre1 ++ vs ++ post1)) +
     lwe_advantage A (ip_dim p) 1 (fun vs => test rows2 (pre2 ++ vs ++ post2))))
  + Z.of_nat (S k) * (P - 1) * size (T (S k)) * size (U (S k)).
Proof. exact index_queries_one_sample. Qed.
Print Assumptions C71_index_queries_one_sample.

(** C71: example: the two-query run of the example above, with k = 1. *)
Example C71_one_sample_example : forall prg rnd pseed dim m, exists sh slots,
  kv_shard_new prg true (est 3 12) rnd seed0 pseed ex_kvs dim m 19 10 = Ok sh /\
  (1 <= kp_plaintext_bits (ks_params sh) <= 31)%nat /\
  Forall (fun c => length c = kp_dim (ks_params sh)) (kp_rhs (ks_params sh)) /\
  (forall key, In key ([key4 1; key4 99] ++ [key4 99; key4 1]) ->
     get_hash_evals true (kp_filter_params (ks_params sh)) key = Ok (slots key) /\
     Forall (fun j => (j < kp_m (ks_params sh))%nat) (slots key)) /\
  length [key4 1; key4 99] = S 1 /\ length [key4 99; key4 1] = S 1.
Proof. exact one_sample_example. Qed.
