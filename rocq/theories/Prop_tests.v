(** Property theorems; each restates a lemma proved in Claims_tests.v. *)
From Coq Require Import Permutation.
From Verif Require Import Base Spec SpecLwe SpecFilter Experiment Fmt Base64 Bincode Mat Lwe Hash Bfusep Db Api Client Bench Refusal Tests Claims_format Claims_filter Claims_index Claims_kv Claims_kvbuild Claims_keys Claims_prob Claims_bench Claims_refusal Claims_tests.
Local Open Scope Z_scope.

(** C75: [client_query_to_server_10_times], for any number of rows, element size, dimension and
    rounds: it panics as soon as one round's query is refused; if the error of each round is
    within bounds for every column (C14; C61 says how likely that is), that is the only way it
    can fail. *)
Theorem C75_index_test_outcome : forall prg dbg seed bytes tapes dim m es pb w rounds,
  os_bytes bytes -> (1 <= pb <= 31)%nat -> is_ceil_div es pb w -> Z.of_nat es < 2 ^ 64 -> (0 < m)%nat ->
  (rounds <= m)%nat -> (forall i, (i < rounds)%nat -> (dim + m <= length (draws (tapes i)))%nat) ->
  let strs := generate_db_eles bytes m ((es + 7) / 8) in
  let all_accepted := forallb (fun i => negb (index_query_refused prg dbg seed strs dim m es pb i (tapes i))) (seq 0 rounds) in
  (all_accepted = false -> index_test prg dbg seed bytes tapes dim m es pb rounds <> Ok tt) /\
  ((es mod 8 = 0)%nat -> (es mod pb <> 0)%nat ->
   (forall i c, (i < rounds)%nat -> (c < w)%nat ->
      congruent_in (dot (firstn m (skipn dim (draws (tapes i)))) (column (map (fun i => bytes i ((es + 7) / 8)%nat) (seq 0 m)) pb c))
                   (- 2 ^ (31 - Z.of_nat pb)) (2 ^ (31 - Z.of_nat pb))) ->
   index_test prg dbg seed bytes tapes dim m es pb rounds = if all_accepted then Ok tt else Panic).
Proof. exact index_test_outcome. Qed.
Print Assumptions C75_index_test_outcome.

(** C75: Over all public matrices, for given elements and given client randomness (non-zero
    secrets): the test passes for at most a fraction (1 - 2^-plaintext_bits)^rounds of them, and
    for exactly that fraction when the errors are within bounds. *)
Theorem C75_index_test_rate : forall dbg seed bytes tapes dim m es pb w rounds,
  os_bytes bytes -> (1 <= pb <= 31)%nat -> is_ceil_div es pb w -> Z.of_nat es < 2 ^ 64 -> (0 < m)%nat -> (rounds <= m)%nat ->
  (forall i, (i < rounds)%nat -> (dim + m <= length (draws (tapes i)))%nat /\
     exists j, (j < dim)%nat /\ nth j (draws (tapes i)) 0 <> 0) ->
  let passing := count (fun stream => passes (index_test (stream_prg stream) dbg seed bytes tapes dim m es pb rounds)) (uniform_vectors (dim * m)) in
  let all := size (uniform_vectors (dim * m)) in
  passing * (2 ^ Z.of_nat pb) ^ Z.of_nat rounds <= (2 ^ Z.of_nat pb - 1) ^ Z.of_nat rounds * all /\
  ((es mod 8 = 0)%nat -> (es mod pb <> 0)%nat ->
   (forall i c, (i < rounds)%nat -> (c < w)%nat ->
      congruent_in (dot (firstn m (skipn dim (draws (tapes i)))) (column (map (fun i => bytes i ((es + 7) / 8)%nat) (seq 0 m)) pb c))
                   (- 2 ^ (31 - Z.of_nat pb)) (2 ^ (31 - Z.of_nat pb))) ->
   passing * (2 ^ Z.of_nat pb) ^ Z.of_nat rounds = (2 ^ Z.of_nat pb - 1) ^ Z.of_nat rounds * all).
Proof. exact index_test_rate. Qed.
Print Assumptions C75_index_test_rate.

(** C75: [client_query_to_server_attempt_params_reuse] checks what it says except when the
    first query is refused: it panics exactly then. *)
Theorem C75_reuse_test_outcome : forall prg dbg seed bytes tape dim m es pb,
  os_bytes bytes -> (1 <= pb <= 31)%nat -> (0 < m)%nat -> (dim + m <= length (draws tape))%nat ->
  reuse_test prg dbg seed bytes tape dim m es pb =
  if index_query_refused prg dbg seed (generate_db_eles bytes m ((es + 7) / 8)) dim m es pb 0 tape then Panic else Ok tt.
Proof. exact reuse_test_outcome. Qed.
Print Assumptions C75_reuse_test_outcome.

(** C75: Hence it fails for exactly one public matrix in 2^plaintext_bits. *)
Theorem C75_reuse_test_rate : forall dbg seed bytes tape dim m es pb,
  os_bytes bytes -> (1 <= pb <= 31)%nat -> (0 < m)%nat -> (dim + m <= length (draws tape))%nat ->
  (exists j, (j < dim)%nat /\ nth j (draws tape) 0 <> 0) ->
  count (fun stream => negb (passes (reuse_test (stream_prg stream) dbg seed bytes tape dim m es pb))) (uniform_vectors (dim * m))
    * 2 ^ Z.of_nat pb = size (uniform_vectors (dim * m)).
Proof. exact reuse_test_rate. Qed.
Print Assumptions C75_reuse_test_rate.

(** C75: Refuted: "the test suite passes". For every public matrix, every seed and all elements
    there is client randomness for which both index tests fail, whatever their sizes. *)
Theorem C75_tests_always_pass_refuted : forall prg dbg seed bytes dim m es pb rounds,
  os_bytes bytes -> (1 <= pb <= 31)%nat -> (0 < rounds <= m)%nat -> Z.of_nat es < 2 ^ 64 ->
  exists tape, (dim + m <= length (draws tape))%nat /\
    reuse_test prg dbg seed bytes tape dim m es pb = Panic /\
    index_test prg dbg seed bytes (fun _ => tape) dim m es pb rounds = Panic.
Proof. exact tests_always_pass_refuted. Qed.
Print Assumptions C75_tests_always_pass_refuted.

(** C75: With the test's sizes (4096 rows of 256 bits, 11 plaintext bits), refused queries are
    practically the only reason for a failed round: whatever the elements, the matrix and the
    row, fewer than one tape in 2^62 gives a round that fails although its query is accepted. *)
Theorem C75_index_test_noise : forall prg dbg seed bytes dim r,
  os_bytes bytes -> (r < ten_times_m)%nat ->
  let strs := generate_db_eles bytes ten_times_m ((ten_times_elem_size + 7) / 8) in
  exists sh, shard_from_base64_strings prg dbg seed strs dim ten_times_m ten_times_elem_size ten_times_bits = Ok sh /\
  count_tapes (fun tape => negb (passes (index_round prg dbg sh strs r tape)) &&
      negb (index_query_refused prg dbg seed strs dim ten_times_m ten_times_elem_size ten_times_bits r tape)) (dim + ten_times_m) * 2 ^ 62
  <= count_tapes (fun _ => true) (dim + ten_times_m).
Proof. exact index_test_noise. Qed.
Print Assumptions C75_index_test_noise.

(** C75: The four tests of the keyword database, for any key, any non-empty value of entries below
    2^plaintext_bits and any seed and random fill: they always pass. *)
Theorem C75_kv_unit_tests_pass : forall dbg fe rnd seed key value pb,
  (1 <= pb <= 31)%nat -> (dbg = true -> (8 <= pb)%nat) -> sane_estimates fe 1 ->
  value <> [] -> Forall (fun x => 0 <= x < 2 ^ Z.of_nat pb) value ->
  retrieval_test dbg fe rnd seed key value pb = Ok tt /\
  hashes_test dbg fe rnd seed key value pb = Ok tt /\
  db_retrieval_test dbg fe rnd seed key value pb = Ok tt /\
  mult_test dbg fe rnd seed key value pb = Ok tt.
Proof. exact kv_unit_tests_pass. Qed.
Print Assumptions C75_kv_unit_tests_pass.

(** C75: [client_kv_query_to_server_10_times], for any number of pairs, value size, dimension and
    rounds: its pairs are always accepted; it passes if the shard is built (C63 says when), the
    keys have distinct 64-bit hashes and the errors are within bounds (C62), and it fails if the
    shard is not built. No query is ever refused. *)
Theorem C75_kv_test_outcome : forall sha prg dbg fe rnd fseed pseed kbytes bytes tapes dim m es pb w rounds,
  (forall x, length (sha x) = 32%nat) -> os_bytes bytes -> (1 <= pb <= 31)%nat -> is_ceil_div es pb w -> Z.of_nat es < 2 ^ 64 ->
  (0 < m)%nat -> (rounds <= m)%nat -> sane_estimates fe m ->
  let test := kv_test sha prg dbg fe rnd fseed pseed kbytes bytes tapes dim m es pb rounds in
  exists kvs, length kvs = m /\
    (forall i kv, nth_error kvs i = Some kv ->
       kv_from_base64_strings sha dbg (b64_encode (kbytes i 32%nat)) (b64_encode (bytes i ((es + 7) / 8)%nat)) es pb = Ok kv) /\
    match kv_shard_new prg dbg fe rnd fseed pseed kvs dim m es pb with
    | Ok sh =>
        NoDup (map (fun kv => mix256 (kv_key kv) fseed) kvs) ->
        (dbg = true \/ exists slots,
           (forall key, get_hash_evals dbg (kd_filter_params (ks_db sh)) key = Ok (slots key)) /\
           forall j, (load slots (map kv_key kvs) j <= 63)%nat) ->
        (forall i, (i < rounds)%nat -> (dim + kp_m (ks_params sh) <= length (draws (tapes i)))%nat) ->
        (forall i c, (i < rounds)%nat -> (c < w)%nat ->
           congruent_in (dot (firstn (kp_m (ks_params sh)) (skipn dim (draws (tapes i)))) (nth c (kd_entries (ks_db sh)) []))
                        (- 2 ^ (31 - Z.of_nat pb)) (2 ^ (31 - Z.of_nat pb))) ->
        test = Ok tt
    | _ => test <> Ok tt
    end.
Proof. exact kv_test_outcome. Qed.
Print Assumptions C75_kv_test_outcome.

(** C75: With the sizes in the repository: the ten-rounds test passes for at most 2047^10 / 2048^10
    of the public matrices (it fails about once in 205 runs), and the reuse test fails for
    exactly one in 1024. *)
Theorem C75_shipped_test_rates : forall dbg seed bytes tapes,
  os_bytes bytes ->
  (forall i, (i < 10)%nat -> (ten_times_dim + ten_times_m <= length (draws (tapes i)))%nat /\
     exists j, (j < ten_times_dim)%nat /\ nth j (draws (tapes i)) 0 <> 0) ->
  count (fun stream => passes (index_test (stream_prg stream) dbg seed bytes tapes ten_times_dim ten_times_m ten_times_elem_size ten_times_bits 10))
        (uniform_vectors (ten_times_dim * ten_times_m)) * 2048 ^ 10
    <= 2047 ^ 10 * size (uniform_vectors (ten_times_dim * ten_times_m)) /\
  forall tape, (ten_times_dim + reuse_m <= length (draws tape))%nat -> (exists j, (j < ten_times_dim)%nat /\ nth j (draws tape) 0 <> 0) ->
  count (fun stream => negb (passes (reuse_test (stream_prg stream) dbg seed bytes tape ten_times_dim reuse_m ten_times_elem_size reuse_bits)))
        (uniform_vectors (ten_times_dim * reuse_m)) * 1024
    = size (uniform_vectors (ten_times_dim * reuse_m)).
Proof. exact shipped_test_rates. Qed.
Print Assumptions C75_shipped_test_rates.

(** C75: example: small instances of every test, evaluated. Five rows of 16 bits: the index test
    passes with one matrix and panics with another; so does the reuse test; the keyword test
    passes; the tests of src/db/kv.rs pass with their own key and value. *)
Example C75_tests_example :
  os_bytes ex_bytes /\
  index_test ex_prg true [] ex_bytes (fun _ => ex_tape) 2 5 16 10 3 = Ok tt /\
  index_test (fun _ _ => 4294967295) true [] ex_bytes (fun _ => [2000000000; 5; 9; 9; 9; 9; 9; 9]) 2 5 16 10 3 = Panic /\
  reuse_test ex_prg true [] ex_bytes ex_tape 2 5 16 10 = Ok tt /\
  reuse_test (fun _ _ => 4294967295) true [] ex_bytes [2000000000; 5; 9; 9; 9; 9; 9; 9] 2 5 16 10 = Panic /\
  kv_test ex_sha ex_prg true (est 3 12) ex_rnd seed0 [] ex_bytes ex_bytes (fun _ => ex_tape) 2 3 16 10 3 = Ok tt /\
  retrieval_test true (est 3 12) ex_rnd seed0 test_key test_value test_bits = Ok tt /\
  hashes_test true (est 3 12) ex_rnd seed0 test_key test_value test_bits = Ok tt /\
  db_retrieval_test true (est 3 12) ex_rnd seed0 test_key test_value test_bits = Ok tt /\
  mult_test true (est 3 12) ex_rnd seed0 test_key test_value test_bits = Ok tt.
Proof. exact tests_example. Qed.
