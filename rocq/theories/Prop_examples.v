(** Property theorems; each restates a lemma proved in Claims_examples.v. *)
From Coq Require Import Permutation.
From Verif Require Import Base Spec Fmt Base64 Bincode Mat Lwe Hash Fuse3 Bfusep Db Api Json Files Zeroes SpecFilter Claims_filter Claims_index Claims_kv Claims_zeroes Claims_examples.
Local Open Scope Z_scope.

(** C14: example: a run with three elements of two 10-bit chunks, in both profiles: every
    hypothesis holds, and so does the noise condition in both columns. *)
Example C14_index_retrieval_example : is_ceil_div 16 10 2 /\ (16 mod 10 <> 0)%nat /\
  (forall i, (i < 3)%nat -> b64_decode (nth i (map b64_encode run_elems) []) = Ok (nth i run_elems [])) /\
  (forall c, (c < 2)%nat ->
     congruent_in (dot (firstn 3 (skipn 2 (draws run_tape))) (column run_elems 10 c))
                  (- 2 ^ (31 - Z.of_nat 10)) (2 ^ (31 - Z.of_nat 10))) /\
  forall dbg, exists sh qp rest qp' q bytes resp,
    shard_from_base64_strings run_prg dbg [] (map b64_encode run_elems) 2 3 16 10 = Ok sh /\
    generate_index_query_params (index_common_params run_prg (sh_params sh)) (sh_params sh) run_tape = Ok (qp, rest) /\
    index_generate_query dbg qp 1 = (qp', Ok q) /\
    shard_respond sh q = Ok bytes /\ bincode_de_vec_u32 bytes = Ok resp /\
    index_parse_resp_as_row dbg qp' resp = Ok (map (chunk [255; 128] 10) (seq 0 2)) /\
    index_parse_resp_as_base64 dbg qp' resp = Ok (b64_encode [255; 128]).
Proof. exact index_retrieval_example. Qed.

(** C18: example: the largest mask entry that still works and the smallest that does not. *)
Example C18_overflow_example : forall dbg,
  let qp := {| qp_lhs := [4278190079; 4278190080]; qp_rhs := []; qp_elem_size := 8; qp_plaintext_bits := 8;
               qp_extra := None; qp_used := false |} in
  2 ^ 32 - 2 ^ (32 - 8) = 4278190080 /\
  snd (index_generate_query dbg qp 0) = Ok [4294967295; 4278190080] /\
  snd (index_generate_query dbg qp 1) = Err EOverflownAdd.
Proof. exact overflow_example. Qed.

(** C20: example: a mask, and the query it gives: the asked entry is delta or more, the other is
    not, so a server knows which of the two rows was asked for. *)
Example C20_query_entry_example : forall dbg,
  let qp := {| qp_lhs := [7; 9]; qp_rhs := []; qp_elem_size := 8; qp_plaintext_bits := 8;
               qp_extra := None; qp_used := false |} in
  Forall is_u32 (qp_lhs qp) /\ snd (index_generate_query dbg qp 1) = Ok [7; 16777225] /\ 2 ^ (32 - 8) = 16777216.
Proof. exact query_entry_example. Qed.

(** C29: example: two different keys with the same words. *)
Example C29_permuted_example : Permutation [1; 2; 0; 0] [0; 2; 1; 0] /\ [1; 2; 0; 0] <> [0; 2; 1; 0].
Proof. exact permuted_example. Qed.

(** C32: example: three keys, one attempt and a hundred: the same filter. *)
Example C32_retries_example : forall dbg, exists f,
  bfusep_from_impl 1 dbg (est 3 12) rnd0 seed0 ex_keys [7; 8; 9] 1024 9 = Ok f /\
  bfusep_from_impl 100 dbg (est 3 12) rnd0 seed0 ex_keys [7; 8; 9] 1024 9 = Ok f.
Proof. exact retries_example. Qed.

(** C54: example: two parameter records that a client needs told apart, one file. *)
Example C54_params_file_example :
  let p := {| ip_dim := 2; ip_m := 3; ip_rhs := [[1]]; ip_public_seed := repeat 0 32; ip_elem_size := 16; ip_plaintext_bits := 10 |} in
  let p' := {| ip_dim := 5; ip_m := 1; ip_rhs := [[1]]; ip_public_seed := repeat 0 32; ip_elem_size := 8; ip_plaintext_bits := 9 |} in
  let sh q := {| sh_db := {| id_entries := [[3]]; id_m := 1; id_elem_size := 8; id_plaintext_bits := 9 |}; sh_params := q |} in
  p <> p' /\ shard_write_ops (sh p) [1] [2] = shard_write_ops (sh p') [1] [2] /\ shard_write_ops (sh p) [1] [2] <> [].
Proof. exact params_file_example. Qed.

(** C59: example: 2998 entries, from position 1000 on every second one zero: three lines, for the
    positions 2331, 2664 and 2997, each the number of zeroes among the 2000 entries ending there. *)
Example C59_zeroes_example : forall dbg,
  print_zeroes dbg (map (fun i => Z.of_nat i + 1) (seq 0 (Z.to_nat 1000)) ++ flat_map (fun _ => [1; 0]) (seq 0 (Z.to_nat 999)))
  = Ok [666; 832; 999].
Proof. exact zeroes_example. Qed.

(** C73: example: two databases of the same shape with different contents, seeds and dimensions; the
    client of the first reads the answer of the second as an ordinary row. *)
Example C73_mismatch_example : forall dbg, exists s1 s2 qp rest qp' q bytes resp row,
  shard_from_base64_strings run_prg dbg [1] (map b64_encode run_elems) 2 3 16 10 = Ok s1 /\
  shard_from_base64_strings run_prg dbg [2] (map b64_encode [[9; 9]; [8; 8]; [6; 6]]) 1 3 16 10 = Ok s2 /\
  generate_index_query_params (index_common_params run_prg (sh_params s1)) (sh_params s1) run_tape = Ok (qp, rest) /\
  index_generate_query dbg qp 1 = (qp', Ok q) /\
  shard_respond s2 q = Ok bytes /\ bincode_de_vec_u32 bytes = Ok resp /\
  index_parse_resp_as_row dbg qp' resp = Ok row /\ row <> map (chunk [255; 128] 10) (seq 0 2).
Proof. exact mismatch_example. Qed.
