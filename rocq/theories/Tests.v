(** * Tests: the crate's own test functions (src/api.rs:472-619, src/db/kv.rs:333-460), as
    programs: a failed assertion or [unwrap] is a panic. All their sizes are arguments here, the
    values they use are given at the end. What the tests draw (elements, seeds, random blocks,
    tapes, keys) are arguments. *)
From Verif Require Export Base Base64 Bincode Db Api Bench.
Local Open Scope Z_scope.

(** [assert!], [assert_eq!] *)
Definition assert_ (b : bool) : res unit := if b then Ok tt else Panic.
Definition equal (a b : list Z) : bool := if list_eq_dec Z.eq_dec a b then true else false.
Definition equal_n (a b : list nat) : bool := if list_eq_dec Nat.eq_dec a b then true else false.
(** A [for] loop over a vector. *)
Definition for_each {A} (l : list A) (body : A -> res unit) : res unit :=
  let* _ := mapM body l in Ok tt.

(** src/api.rs:496-504: one round of [client_query_to_server_10_times]. *)
Definition index_round (prg : list Z -> nat -> Z) (dbg : bool) (sh : shard) (db_eles : list (list Z))
    (i : nat) (tape : list Z) : res unit :=
  let bp := sh_params sh in
  let* (qp, _) := unwrap (generate_index_query_params (index_common_params prg bp) bp tape) in
  let (qp, q) := index_generate_query dbg qp i in
  let* q := unwrap q in
  let* d_resp := unwrap (shard_respond sh q) in
  let* resp := unwrap (bincode_de_vec_u32 d_resp) in
  let* output := index_parse_resp_as_base64 dbg qp resp in
  let* e := idx db_eles i in
  assert_ (equal output e).

(** src/api.rs:478-505 [client_query_to_server_10_times]; [generate_db_eles] (592-601) is the
    benchmark's. *)
Definition index_test (prg : list Z -> nat -> Z) (dbg : bool) (seed : list Z) (bytes : nat -> nat -> list Z)
    (tapes : nat -> list Z) (lwe_dim m elem_size plaintext_bits rounds : nat) : res unit :=
  let db_eles := generate_db_eles bytes m ((elem_size + 7) / 8) in
  let* sh := unwrap (shard_from_base64_strings prg dbg seed db_eles lwe_dim m elem_size plaintext_bits) in
  for_each (seq 0 rounds) (fun i => index_round prg dbg sh db_eles i (tapes i)).

(** src/api.rs:561-590 [client_query_to_server_attempt_params_reuse]. *)
Definition reuse_test (prg : list Z -> nat -> Z) (dbg : bool) (seed : list Z) (bytes : nat -> nat -> list Z)
    (tape : list Z) (lwe_dim m elem_size plaintext_bits : nat) : res unit :=
  let db_eles := generate_db_eles bytes m ((elem_size + 7) / 8) in
  let* sh := unwrap (shard_from_base64_strings prg dbg seed db_eles lwe_dim m elem_size plaintext_bits) in
  let bp := sh_params sh in
  let* (qp, _) := unwrap (generate_index_query_params (index_common_params prg bp) bp tape) in
  let (qp, res_unused) := index_generate_query dbg qp 0 in
  let* _ := match res_unused with Ok _ => Ok tt | Err _ => assert_ false | Panic => Panic | Hang => Hang end in
  let* _ := assert_ (qp_used qp) in
  let (_, res2) := index_generate_query dbg qp 0 in
  match res2 with Err _ => Ok tt | Ok _ => assert_ false | Panic => Panic | Hang => Hang end.

(** src/api.rs:533-540, src/db/kv.rs:409-415: the sum of a key's three entries of a column,
    unmasked and reduced. *)
Definition real_value (db : kv_db) (key : list Z) (pb j : nat) (slots : list nat) : res Z :=
  let* col := idx (kd_entries db) j in
  let* masked := foldM (fun acc r => let* x := idx col r in Ok (wadd32 acc x)) slots 0 in
  remz (unmask_value (kd_filter_params db) masked key (Z.of_nat j)) (2 ^ Z.of_nat pb).

(** src/api.rs:507-559 [client_kv_query_to_server_10_times]. *)
Definition kv_round (prg : list Z -> nat -> Z) (dbg : bool) (sh : kv_shard) (kvs : list key_value)
    (i : nat) (tape : list Z) : res unit :=
  let bp := ks_params sh in
  let* (qp, _) := unwrap (generate_kv_query_params (kv_common_params prg bp) bp tape) in
  let* kv := idx kvs i in
  let (qp, q) := kv_generate_query dbg qp (kv_key kv) in
  let* q := unwrap q in
  let* d_resp := unwrap (kv_shard_respond sh q) in
  let* resp := unwrap (bincode_de_vec_u32 d_resp) in
  let* output := unwrap (kv_parse_resp_as_row dbg qp resp (kv_key kv)) in
  assert_ (equal output (kv_value kv)).
Definition kv_real_values (dbg : bool) (db : kv_db) (pb : nat) (kv : key_value) : res unit :=
  let* v := mapM (fun _ => get_hash_evals dbg (kd_filter_params db) (kv_key kv))
                 (seq 0 (length (kd_entries db))) in
  for_each (combine (seq 0 (length v)) v) (fun '(j, slots) =>
    let* x := real_value db (kv_key kv) pb j slots in
    let* y := idx (kv_value kv) j in
    assert_ (y =? x)).
Definition kv_test (sha256 : list Z -> list Z) (prg : list Z -> nat -> Z) (dbg : bool) (fe : fest)
    (rnd : nat -> nat -> Z) (fseed pseed : list Z) (kbytes bytes : nat -> nat -> list Z)
    (tapes : nat -> list Z) (lwe_dim m elem_size plaintext_bits rounds : nat) : res unit :=
  let db_eles := generate_kv_db_elems kbytes bytes m ((elem_size + 7) / 8) in
  let* rs := map_all (fun e => kv_from_base64_strings sha256 dbg (fst e) (snd e) elem_size plaintext_bits) db_eles in
  let* kvs := unwrap (collect_results rs) in
  let* sh := unwrap (kv_shard_new prg dbg fe rnd fseed pseed kvs lwe_dim m elem_size plaintext_bits) in
  let* _ := for_each kvs (kv_real_values dbg (ks_db sh) plaintext_bits) in
  for_each (seq 0 rounds) (fun i => kv_round prg dbg sh kvs i (tapes i)).

(** src/db/kv.rs:337-351 [check_consistent_retrieval]. *)
Definition retrieval_test (dbg : bool) (fe : fest) (rnd : nat -> nat -> Z) (seed : list Z)
    (key value : list Z) (plaintext_bits : nat) : res unit :=
  let row_width := length value in
  let* (filters, _) := unwrap (from_kvs dbg fe rnd seed [{| kv_key := key; kv_value := value |}] row_width plaintext_bits) in
  for_each (seq 0 row_width) (fun i =>
    let* f := idx filters i in
    let* x := retrieve dbg f key (Z.of_nat i) in
    let* y := idx value i in
    assert_ (x =? y)).

(** src/db/kv.rs:353-378 [check_consistent_hashes]; the loop over [1..n] is shared with the two
    tests below. *)
Definition same_hashes (v : list (list nat)) : res unit :=
  for_each (seq 1 (length v - 1)) (fun i =>
    let* a := idx v 0 in
    let* b := idx v i in
    assert_ (equal_n a b)).
Definition hashes_test (dbg : bool) (fe : fest) (rnd : nat -> nat -> Z) (seed : list Z)
    (key value : list Z) (plaintext_bits : nat) : res unit :=
  let row_width := length value in
  let* (_, fp) := unwrap (from_kvs dbg fe rnd seed [{| kv_key := key; kv_value := value |}] row_width plaintext_bits) in
  let* v := mapM (fun _ => get_hash_evals dbg fp key) (seq 0 row_width) in
  same_hashes v.

(** src/db/kv.rs:380-418 [db_check_consistent_retrieval]. *)
Definition db_retrieval_test (dbg : bool) (fe : fest) (rnd : nat -> nat -> Z) (seed : list Z)
    (key value : list Z) (plaintext_bits : nat) : res unit :=
  let len := length value in
  let elem_size := (plaintext_bits * len)%nat in
  let* db := unwrap (kv_db_new dbg fe rnd seed [{| kv_key := key; kv_value := value |}] 1 elem_size plaintext_bits) in
  let* v := mapM (fun _ => get_hash_evals dbg (kd_filter_params db) key) (seq 0 len) in
  let* _ := same_hashes v in
  for_each (combine (seq 0 (length v)) v) (fun '(i, slots) =>
    let* x := real_value db key plaintext_bits i slots in
    let* y := idx value i in
    assert_ (x =? y)).

(** src/db/kv.rs:420-459 [attempt_actual_mult]. *)
Definition mult_test (dbg : bool) (fe : fest) (rnd : nat -> nat -> Z) (seed : list Z)
    (key value : list Z) (plaintext_bits : nat) : res unit :=
  let len := length value in
  let elem_size := (plaintext_bits * len)%nat in
  let* db := unwrap (kv_db_new dbg fe rnd seed [{| kv_key := key; kv_value := value |}] 1 elem_size plaintext_bits) in
  let* h := kv_matrix_height db in
  let* indices := mapM (fun _ => get_hash_evals dbg (kd_filter_params db) key) (seq 0 len) in
  let* _ := same_hashes indices in
  let* i0 := idx indices 0 in
  let* mult_v := foldM (fun v i => set v i 1) i0 (repeat 0 h) in
  for_each (combine (seq 0 (Nat.min len (length indices))) value) (fun '(i, y) =>
    let* masked := kv_vec_mult db mult_v i in
    let* x := remz (unmask_value (kd_filter_params db) masked key (Z.of_nat i)) (2 ^ Z.of_nat plaintext_bits) in
    assert_ (x =? y)).

(** The values of the tests: api.rs:480-483 and 509-512 (m, elem_size, plaintext_bits, lwe_dim;
    10 rounds), api.rs:563-566, kv.rs:339-343. *)
Definition ten_times_m : nat := Z.to_nat 4096.
Definition ten_times_elem_size : nat := Z.to_nat 256.
Definition ten_times_bits : nat := 11.
Definition ten_times_dim : nat := Z.to_nat 512.
Definition reuse_m : nat := 64.
Definition reuse_bits : nat := 10.
Definition test_key : list Z := [1; 2; 3; 4].
Definition test_value : list Z := [1; 2; 3].
Definition test_bits : nat := 10.
(** The test framework's verdict. *)
Definition passes (r : res unit) : bool := match r with Ok _ => true | _ => false end.
