(** * Bench: benches/bench.rs, the program behind [make bench]. Criterion runs each measured
    closure a number of times of its own choosing: the counts [k] are arguments. Printing and
    timing are not modelled, nor the wrapping of [elem_size + 7] at 2^64. *)
From Verif Require Export Base Base64 Bincode Db Api Cli.
Local Open Scope Z_scope.

(** bench.rs:341-350 [bench_utils::generate_db_eles]; the OsRng bytes of the i-th element are
    an argument. *)
Definition generate_db_eles (bytes : nat -> nat -> list Z) (num_eles ele_byte_len : nat) : list (list Z) :=
  map (fun i => b64_encode (bytes i ele_byte_len)) (seq 0 num_eles).
(** bench.rs:352-367 [bench_utils::generate_kv_db_elems]: 32-byte keys. *)
Definition generate_kv_db_elems (kbytes bytes : nat -> nat -> list Z) (num_eles ele_byte_len : nat)
  : list (list Z * list Z) :=
  map (fun i => (b64_encode (kbytes i 32%nat), b64_encode (bytes i ele_byte_len))) (seq 0 num_eles).

(** [b.iter(|| body)], run [k] times; the state is what the closure captures by reference. *)
Fixpoint iter_n {S} (k : nat) (body : nat -> S -> res S) (s : S) : res S :=
  match k with
  | O => Ok s
  | Datatypes.S k => let* s := iter_n k body s in body k s
  end.
(** A [Result] that is dropped: only panics (and non-termination) remain visible. *)
Definition drop_result {A} (r : res A) : res unit :=
  match r with Ok _ => Ok tt | Err _ => Ok tt | Panic => Panic | Hang => Hang end.
(** A result whose value is dropped after [unwrap]. *)
Definition drop_unwrap {A} (r : res A) : res unit := let* _ := unwrap r in Ok tt.

(** bench.rs:174-244 [_bench_client_query]; [tapes i] is the randomness of the i-th measured
    parameter generation. *)
Definition bench_client_query (prg : list Z -> nat -> Z) (dbg : bool) (sh : shard)
    (tape : list Z) (tapes : nat -> list Z) (k : nat -> nat) : res unit :=
  let bp := sh_params sh in
  let cp := index_common_params prg bp in
  let* _ := index_row_width_self (sh_db sh) in
  let idx := 10%nat in
  let* (qp, _) := unwrap (generate_index_query_params cp bp tape) in
  let (qp, q) := index_generate_query dbg qp idx in
  let* q := unwrap q in
  let* resp := unwrap (shard_respond sh q) in
  let* _ := iter_n (k 0%nat) (fun i _ => drop_result (generate_index_query_params cp bp (tapes i))) tt in
  let* qp := iter_n (k 1%nat) (fun _ qp => let (qp, r) := index_generate_query dbg (set_used false qp) idx in
                                           let* _ := unwrap r in Ok qp) qp in
  let* _ := iter_n (k 2%nat) (fun _ _ => drop_unwrap (shard_respond sh q)) tt in
  iter_n (k 3%nat) (fun _ _ => let* deser := unwrap (bincode_de_vec_u32 resp) in
                               let* _ := index_parse_resp_as_base64 dbg qp deser in Ok tt) tt.

(** bench.rs:84-126 [_bench_db_generation]; [seeds i] is the public seed of the i-th rebuild. *)
Definition bench_db_generation (prg : list Z -> nat -> Z) (dbg : bool) (sh : shard)
    (db_eles : list (list Z)) (seeds : nat -> list Z) (k : nat -> nat) : res unit :=
  let bp := sh_params sh in
  let db := sh_db sh in
  let* _ := index_row_width_self db in
  (* the first closure only derives the public matrix, which cannot fail *)
  let* h := index_matrix_height db in
  iter_n (k 5%nat) (fun i _ => drop_unwrap (shard_from_base64_strings prg dbg (seeds i) db_eles (ip_dim bp)
                                              h (id_elem_size db) (id_plaintext_bits db))) tt.

(** bench.rs:57-78: the index branch of [criterion_benchmark]. *)
Definition bench_index (prg : list Z -> nat -> Z) (dbg : bool) (seed : list Z) (seeds : nat -> list Z)
    (bytes : nat -> nat -> list Z) (tape : list Z) (tapes : nat -> list Z) (k : nat -> nat)
    (m lwe_dim elem_size plaintext_bits : nat) (offline : bool) : res unit :=
  let db_eles := generate_db_eles bytes m ((elem_size + 7) / 8) in
  let* sh := unwrap (shard_from_base64_strings prg dbg seed db_eles lwe_dim m elem_size plaintext_bits) in
  let* _ := bench_client_query prg dbg sh tape tapes k in
  if offline then bench_db_generation prg dbg sh db_eles seeds k else Ok tt.

(** bench.rs:246-333 [_bench_client_kv_query]. *)
Definition bench_client_kv_query (sha256 : list Z -> list Z) (prg : list Z -> nat -> Z) (dbg : bool)
    (sh : kv_shard) (example_kv : list Z * list Z) (tape : list Z) (tapes : nat -> list Z) (k : nat -> nat)
  : res unit :=
  let bp := ks_params sh in
  let* kv := unwrap (kv_from_base64_strings sha256 dbg (fst example_kv) (snd example_kv)
                       (kp_elem_size bp) (kp_plaintext_bits bp)) in
  let cp := kv_common_params prg bp in
  let* _ := kv_row_width_self (ks_db sh) in
  let* (qp, _) := unwrap (generate_kv_query_params cp bp tape) in
  let (qp, q) := kv_generate_query dbg qp (kv_key kv) in
  let* q := unwrap q in
  let* resp := unwrap (kv_shard_respond sh q) in
  let* _ := iter_n (k 0%nat) (fun i _ => drop_result (generate_kv_query_params cp bp (tapes i))) tt in
  let* qp := iter_n (k 1%nat) (fun _ qp => let (qp, r) := kv_generate_query dbg (set_used false qp) (kv_key kv) in
                                           let* _ := unwrap r in Ok qp) qp in
  let* _ := iter_n (k 2%nat) (fun _ _ => drop_unwrap (kv_shard_respond sh q)) tt in
  iter_n (k 3%nat) (fun _ _ => let* deser := unwrap (bincode_de_vec_u32 resp) in
                               drop_unwrap (kv_parse_resp_as_base64 dbg qp deser (kv_key kv))) tt.

(** bench.rs:128-172 [_bench_kv_db_generation]; the i-th rebuild has its own random blocks,
    filter seed and public seed. The [m] passed on is the height of the filter. *)
Definition bench_kv_db_generation (sha256 : list Z -> list Z) (prg : list Z -> nat -> Z) (dbg : bool) (fe : fest)
    (sh : kv_shard) (keys values : list (list Z)) (rnds : nat -> nat -> nat -> Z) (fseeds pseeds : nat -> list Z)
    (k : nat -> nat) : res unit :=
  let bp := ks_params sh in
  let db := ks_db sh in
  let* _ := kv_row_width_self db in
  let* h := kv_matrix_height db in
  iter_n (k 5%nat) (fun i _ => drop_unwrap (kv_shard_from_base64_strings sha256 prg dbg fe (rnds i) (fseeds i) (pseeds i)
                                              keys values (kp_dim bp) h (kd_elem_size db) (kd_plaintext_bits db))) tt.

(** bench.rs:29-56: the keyword branch; slot 0 of the per-rebuild randomness is not shared with
    the first build, which has its own. [keys[0]] panics when there is no element. *)
Definition bench_kv (sha256 : list Z -> list Z) (prg : list Z -> nat -> Z) (dbg : bool) (fe : fest)
    (rnd : nat -> nat -> Z) (fseed pseed : list Z) (rnds : nat -> nat -> nat -> Z) (fseeds pseeds : nat -> list Z)
    (kbytes bytes : nat -> nat -> list Z) (tape : list Z) (tapes : nat -> list Z) (k : nat -> nat)
    (m lwe_dim elem_size plaintext_bits : nat) (offline : bool) : res unit :=
  let kv_db_eles := generate_kv_db_elems kbytes bytes m ((elem_size + 7) / 8) in
  let keys := map fst kv_db_eles in
  let values := map snd kv_db_eles in
  let* sh := unwrap (kv_shard_from_base64_strings sha256 prg dbg fe rnd fseed pseed keys values
                       lwe_dim m elem_size plaintext_bits) in
  let* k0 := idx keys 0 in
  let* v0 := idx values 0 in
  let* _ := bench_client_kv_query sha256 prg dbg sh (k0, v0) tape tapes k in
  if offline then bench_kv_db_generation sha256 prg dbg fe sh keys values rnds fseeds pseeds k else Ok tt.

(** Everything random about a run. *)
Record bench_randomness := {
  br_prg : list Z -> nat -> Z; br_seed : list Z; br_seeds : nat -> list Z;
  br_rnd : nat -> nat -> Z; br_fseed : list Z; br_rnds : nat -> nat -> nat -> Z; br_fseeds : nat -> list Z;
  br_kbytes : nat -> nat -> list Z; br_bytes : nat -> nat -> list Z;
  br_tape : list Z; br_tapes : nat -> list Z }.

(** bench.rs:12-79 [criterion_benchmark]. *)
Definition bench_main (sha256 : list Z -> list Z) (dbg : bool) (fe : fest) (env : env_vars)
    (r : bench_randomness) (k : nat -> nat) : res unit :=
  let* f := parse_from_env dbg env in
  let m := Z.to_nat (cf_m f) in
  let dim := Z.to_nat (cf_lwe_dim f) in
  let es := Z.to_nat (cf_elem_size f) in
  let pb := Z.to_nat (cf_plaintext_bits f) in
  if cf_keyword f
  then bench_kv sha256 (br_prg r) dbg fe (br_rnd r) (br_fseed r) (br_seed r) (br_rnds r) (br_fseeds r) (br_seeds r)
         (br_kbytes r) (br_bytes r) (br_tape r) (br_tapes r) k m dim es pb (cf_offline f)
  else bench_index (br_prg r) dbg (br_seed r) (br_seeds r) (br_bytes r) (br_tape r) (br_tapes r) k
         m dim es pb (cf_offline f).
