(** Property theorems; each restates a lemma proved in Claims_bench.v. *)
From Coq Require Import Permutation.
From Verif Require Import Base Spec Fmt Base64 Bincode Mat Lwe Bfusep Db Api SpecFilter Cli SpecCli Bench Claims_format Claims_filter Claims_index Claims_kv Claims_cli Claims_prob Claims_bench.
Local Open Scope Z_scope.

(** C68: Index benchmark: its shard and its first query parameters always exist. With at most
    ten rows it panics; with more, it completes if the masked word of row 10 leaves room for
    delta, and panics otherwise: whatever the elements, the public matrix, the number of
    iterations of each measurement and the randomness of the later steps. *)
Theorem C68_index_bench_outcome : forall prg dbg seed seeds bytes tape tapes k m dim es pb offline,
  os_bytes bytes -> (1 <= pb <= 31)%nat -> (0 < m)%nat -> Z.of_nat es + 7 < 2 ^ 64 ->
  (dim + m <= length (draws tape))%nat ->
  (forall i, (i < k 0)%nat -> (dim + m <= length (draws (tapes i)))%nat) ->
  exists sh qp rest,
    shard_from_base64_strings prg dbg seed (generate_db_eles bytes m ((es + 7) / 8)) dim m es pb = Ok sh /\
    generate_index_query_params (index_common_params prg (sh_params sh)) (sh_params sh) tape = Ok (qp, rest) /\
    length (qp_lhs qp) = m /\
    bench_index prg dbg seed seeds bytes tape tapes k m dim es pb offline =
    if (10 <? m)%nat then (if nth 10 (qp_lhs qp) 0 + 2 ^ (32 - Z.of_nat pb) <? 2 ^ 32 then Ok tt else Panic) else Panic.
Proof. exact index_bench_outcome. Qed.
Print Assumptions C68_index_bench_outcome.

(** C68: Refuted: "the index benchmark completes for every accepted configuration": with
    PIR_NUMBER_OF_ELEMENTS_EXP at most 3 (at most 8 rows) it always panics, because it queries row
    10; the other settings are the Makefile's. *)
Theorem C68_small_index_bench_panics_refuted : forall sha dbg fe env r k fl,
  os_bytes (br_bytes r) -> parse_from_env dbg env = Ok fl -> cf_keyword fl = false ->
  1 <= cf_plaintext_bits fl <= 31 -> 0 < cf_m fl <= 10 -> cf_elem_size fl + 7 < 2 ^ 64 ->
  (Z.to_nat (cf_lwe_dim fl) + Z.to_nat (cf_m fl) <= length (draws (br_tape r)))%nat ->
  bench_main sha dbg fe env r k = Panic.
Proof. exact small_index_bench_panics_refuted. Qed.
Print Assumptions C68_small_index_bench_panics_refuted.

(** C68: Refuted: nor does it complete for every randomness when there are enough rows: two runs
    with the same 16 rows, one that completes and one that panics. *)
Theorem C68_index_bench_randomness_refuted :
  exists seed seeds bytes tape tapes k, os_bytes bytes /\
    (forall dbg offline, bench_index (fun _ _ => 7) dbg seed seeds bytes tape tapes k 16 1 16 10 offline = Ok tt) /\
    (forall dbg offline, bench_index (fun _ _ => 4294967290) dbg seed seeds bytes tape tapes k 16 1 16 10 offline = Panic).
Proof. exact index_bench_randomness_refuted. Qed.
Print Assumptions C68_index_bench_randomness_refuted.

(** C68: Keyword benchmark: it completes exactly when its shard and, with the offline part, each
    rebuild of it can be built (C63 says when that is); once a shard exists no step of the
    measured client and server runs can fail, whatever the randomness. The filter height that
    the program passes on as the number of elements makes no difference. *)
Theorem C68_kv_bench_outcome : forall sha prg dbg fe rnd fseed pseed rnds fseeds pseeds kbytes bytes tape tapes k m dim es pb offline,
  (1 <= pb <= 31)%nat -> (0 < m)%nat -> Z.of_nat es + 7 < 2 ^ 64 -> sane_estimates fe m ->
  (forall g, geometry dbg fe m = Ok g -> (dim + g_arrlen g <= length (draws tape))%nat /\
     forall i, (i < k 0)%nat -> (dim + g_arrlen g <= length (draws (tapes i)))%nat) ->
  let eles := generate_kv_db_elems kbytes bytes m ((es + 7) / 8) in
  let build rnd fseed pseed := kv_shard_from_base64_strings sha prg dbg fe rnd fseed pseed (map fst eles) (map snd eles) dim m es pb in
  bench_kv sha prg dbg fe rnd fseed pseed rnds fseeds pseeds kbytes bytes tape tapes k m dim es pb offline = Ok tt <->
  (exists sh, build rnd fseed pseed = Ok sh) /\
  (offline = true -> forall i, (i < k 5)%nat -> exists sh, build (rnds i) (fseeds i) (pseeds i) = Ok sh).
Proof. exact kv_bench_outcome. Qed.
Print Assumptions C68_kv_bench_outcome.

(** C68: example: one environment of two elements: the keyword benchmark completes, three
    iterations of everything, and the index benchmark panics. *)
Example C68_bench_example :
  bench_main (firstn 32) true (est 3 12) (ex_env true) ex_br (fun _ => 3%nat) = Ok tt /\
  bench_main (firstn 32) true (est 3 12) (ex_env false) ex_br (fun _ => 3%nat) = Panic /\
  sane_estimates (est 3 12) 2 /\
  (exists fl, parse_from_env true (ex_env false) = Ok fl /\ cf_keyword fl = false /\ cf_m fl = 2).
Proof. exact bench_example. Qed.
