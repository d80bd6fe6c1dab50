(** Property theorems; each restates a lemma proved in Claims_refusal.v. *)
From Coq Require Import Permutation.
From Verif Require Import Base Spec SpecLwe Base64 Lwe Mat Db Api Client Refusal Claims_index Claims_refusal.
Local Open Scope Z_scope.

(** C74: Any number of clients, each with its own randomness (whose secret is not all zero),
    each asking for a different row of the same database: over all public matrices, the fraction
    for which no query is refused is exactly (1 - 2^-plaintext_bits)^queries, whatever the
    database content, the tapes and the dimension. *)
Theorem C74_refusal_rate : forall dbg seed strs dim m es pb (queries : list (nat * list Z)) prg0 sh0,
  (1 <= pb <= 31)%nat ->
  shard_from_base64_strings prg0 dbg seed strs dim m es pb = Ok sh0 ->
  NoDup (map fst queries) ->
  (forall row tape, In (row, tape) queries -> (row < m)%nat /\ (dim + m <= length (draws tape))%nat /\
     exists j, (j < dim)%nat /\ nth j (draws tape) 0 <> 0) ->
  count (fun stream => forallb (fun q => negb (index_query_refused (stream_prg stream) dbg seed strs dim m es pb (fst q) (snd q))) queries)
    (uniform_vectors (dim * m)) * (2 ^ Z.of_nat pb) ^ Z.of_nat (length queries)
  = (2 ^ Z.of_nat pb - 1) ^ Z.of_nat (length queries) * size (uniform_vectors (dim * m)).
Proof. exact refusal_rate. Qed.
Print Assumptions C74_refusal_rate.

(** C74: One query: refused for exactly one public matrix in 2^plaintext_bits. *)
Theorem C74_one_refusal_rate : forall dbg seed strs dim m es pb row tape prg0 sh0,
  (1 <= pb <= 31)%nat ->
  shard_from_base64_strings prg0 dbg seed strs dim m es pb = Ok sh0 ->
  (row < m)%nat -> (dim + m <= length (draws tape))%nat -> (exists j, (j < dim)%nat /\ nth j (draws tape) 0 <> 0) ->
  count (fun stream => index_query_refused (stream_prg stream) dbg seed strs dim m es pb row tape) (uniform_vectors (dim * m))
    * 2 ^ Z.of_nat pb
  = size (uniform_vectors (dim * m)).
Proof. exact one_refusal_rate. Qed.
Print Assumptions C74_one_refusal_rate.

(** C74: If the secret is all zero, the query is refused exactly when the error drawn for the
    row is -1, whatever the public matrix. *)
Theorem C74_zero_secret_refusal : forall prg dbg seed strs dim m es pb row tape sh,
  (1 <= pb <= 31)%nat ->
  shard_from_base64_strings prg dbg seed strs dim m es pb = Ok sh ->
  (row < m)%nat -> (dim + m <= length (draws tape))%nat -> (forall j, (j < dim)%nat -> nth j (draws tape) 0 = 0) ->
  index_query_refused prg dbg seed strs dim m es pb row tape = (nth (dim + row) (draws tape) 0 =? -1).
Proof. exact zero_secret_refusal. Qed.
Print Assumptions C74_zero_secret_refusal.

(** C74: Over all random tapes and all public matrices together: the fraction of refused
    queries is 2^-plaintext_bits up to the fraction of runs whose secret is all zero, which is
    (1431655765 / 4294967293)^dim, about 3^-dim. *)
Theorem C74_overall_refusal_rate : forall dbg seed strs dim m es pb row prg0 sh0,
  (1 <= pb <= 31)%nat ->
  shard_from_base64_strings prg0 dbg seed strs dim m es pb = Ok sh0 -> (row < m)%nat ->
  let runs := list_prod (random_tapes (dim + m)) (uniform_vectors (dim * m)) in
  let zero_secret := 1431655765 ^ Z.of_nat dim * (2 ^ 32 - 3) ^ Z.of_nat m * size (uniform_vectors (dim * m)) in
  - zero_secret
  <= count (fun run => index_query_refused (stream_prg (snd run)) dbg seed strs dim m es pb row (fst run)) runs * 2 ^ Z.of_nat pb - size runs
  <= (2 ^ Z.of_nat pb - 1) * zero_secret.
Proof. exact overall_refusal_rate. Qed.
Print Assumptions C74_overall_refusal_rate.

(** C74: example: two rows, dimension 2, 10-bit chunks: a shard that is built, and two tapes
    with different non-zero secrets. *)
Example C74_refusal_example : exists sh0,
  shard_from_base64_strings (fun _ _ => 7) true [] (map b64_encode [[1; 2]; [255; 128]]) 2 2 16 10 = Ok sh0 /\
  NoDup (map fst [(0%nat, [2000000000; 5; 9; 3000000000]); (1%nat, [5; 3000000000; 9; 9])]) /\
  (forall row tape, In (row, tape) [(0%nat, [2000000000; 5; 9; 3000000000]); (1%nat, [5; 3000000000; 9; 9])] ->
     (row < 2)%nat /\ (2 + 2 <= length (draws tape))%nat /\ exists j, (j < 2)%nat /\ nth j (draws tape) 0 <> 0) /\
  index_query_refused (fun _ _ => 7) true [] (map b64_encode [[1; 2]; [255; 128]]) 2 2 16 10 0 [2000000000; 5; 9; 3000000000] = false /\
  index_query_refused (fun _ _ => 4294967295) true [] (map b64_encode [[1; 2]; [255; 128]]) 2 2 16 10 0 [2000000000; 5; 9; 3000000000] = true.
Proof. exact refusal_example. Qed.
