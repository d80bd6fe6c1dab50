(** Property theorems; each restates a lemma proved in Claims_estimate.v. *)
From Coq Require Import Permutation.
From Verif Require Import Base Spec Fmt Mat Lwe Db Api Hash Fuse3 Bfusep Float64 Estimate SpecFilter Experiment SpecEst Claims_filter Claims_kv Claims_prob Claims_estimate.
Local Open Scope Z_scope.

(** C64: with binary64 arithmetic and a logarithm that is right to four digits, both size
    estimates are in the range the filter theorems (C25-C35, C44) ask for, for every number
    of keys up to 3.817 thousand million. *)
Theorem C64_estimates_sane : forall log n, reasonable_log log -> Z.of_nat n <= max_keys ->
  sane_estimates (f64_estimates log) n.
Proof. exact estimates_sane. Qed.
Print Assumptions C64_estimates_sane.

(** C64: for every such number of keys the size computation succeeds in both build profiles.
    There is room for at least 1.125 slots per key (up to rounding to whole slots), and from
    2^20 keys on at most 1.141: 9.13 bits per entry for 8-bit fingerprints, 18.26 for 16-bit
    and 36.51 for 32-bit ones, the documented "about 9 / 18 / 36 bits per entry". *)
Theorem C64_documented_size : forall log dbg n, reasonable_log log -> Z.of_nat n <= max_keys ->
  exists g, geometry dbg (f64_estimates log) n = Ok g /\
    ((2 <= n)%nat -> 9 * Z.of_nat n - 4 <= 8 * Z.of_nat (g_arrlen g)) /\
    (2 ^ 20 <= Z.of_nat n -> 1000 * (8 * Z.of_nat (g_arrlen g)) <= 9126 * Z.of_nat n).
Proof. exact documented_size. Qed.
Print Assumptions C64_documented_size.

(** C64: the bound is close to the largest possible: between 3.8176 thousand million and 2^32
    keys a debug build panics while computing the size, and a release build wraps around and
    allocates 786432 slots, whatever the number of keys. *)
Theorem C64_too_many_keys : forall log n, reasonable_log log -> 3817600000 <= Z.of_nat n < 2 ^ 32 ->
  geometry true (f64_estimates log) n = Panic /\
  exists g, geometry false (f64_estimates log) n = Ok g /\ Z.of_nat (g_arrlen g) = 786432.
Proof. exact too_many_keys. Qed.
Print Assumptions C64_too_many_keys.

(** C64: such a logarithm exists (a crude one is enough), and with it 1048576 keys get a filter
    of 1179648 slots, exactly 9 bits per 8-bit entry, in both build profiles. *)
Example C64_documented_size_example : reasonable_log crude_log /\
  (forall dbg, exists g, geometry dbg (f64_estimates crude_log) (Z.to_nat 1048576) = Ok g /\
    Z.of_nat (g_arrlen g) = 1179648) /\
  seglen_exp crude_log (Z.to_nat 1048576) = 13 /\ capacity_of crude_log (Z.to_nat 1048576) = 1179648.
Proof. exact documented_size_example. Qed.

(** C64: for the key counts of the Makefile's keyword configurations the number of slots is known
    exactly, in both build profiles. *)
Theorem C64_shipped_slots : forall log dbg k slots, reasonable_log log -> In (k, slots) shipped_sizes ->
  exists g, geometry dbg (f64_estimates log) (Z.to_nat (2 ^ k)) = Ok g /\ Z.of_nat (g_arrlen g) = slots.
Proof. exact shipped_slots. Qed.
Print Assumptions C64_shipped_slots.

(** C62: For the Makefile's keyword configurations, with the filter size as the code computes it:
    the probability that a stored key's value does not come back is below 2^-bits, whatever the
    keys, the values and the dimension. *)
Theorem C62_kv_failure_benchmarks : forall log prg dbg rnd fseed pseed kvs dim m es pb w sh i kv kz ez pz bits,
  reasonable_log log -> In (kz, ez, pz, bits) keyword_benchmarks ->
  Z.of_nat (length kvs) = 2 ^ kz -> Z.of_nat es = ez -> Z.of_nat pb = pz -> is_ceil_div es pb w ->
  Forall (fun kv => length (kv_value kv) = w) kvs ->
  kv_shard_new prg dbg (f64_estimates log) rnd fseed pseed kvs dim m es pb = Ok sh ->
  (dbg = true \/ exists slots,
     (forall key, get_hash_evals dbg (kd_filter_params (ks_db sh)) key = Ok (slots key)) /\
     forall j, (load slots (map kv_key kvs) j <= 63)%nat) ->
  nth_error kvs i = Some kv -> last_with_hash fseed (map kv_key kvs) i (kv_key kv) ->
  count_tapes (kv_run_wrong prg dbg sh (kv_key kv) (map (fun x => x mod 2 ^ Z.of_nat pb) (kv_value kv)))
      (dim + kp_m (ks_params sh)) * 2 ^ bits
  <= count_tapes (fun _ => true) (dim + kp_m (ks_params sh)).
Proof. exact kv_failure_benchmarks. Qed.
Print Assumptions C62_kv_failure_benchmarks.
