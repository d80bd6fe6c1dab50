(** Property theorems; each restates a lemma proved in Claims_cli.v. *)
From Coq Require Import Permutation.
From Verif Require Import Base Cli SpecCli Claims_cli.
Local Open Scope Z_scope.

(** C51: the decimal text of an exponent up to 31 yields that power of two. *)
Theorem C51_exp_in_range : forall dbg v e, decimal v e -> e <= 31 -> parse_exp_to_usize dbg v = Ok (2 ^ e).
Proof. exact exp_in_range. Qed.
Print Assumptions C51_exp_in_range.

(** C51: a larger exponent panics in debug builds and silently yields 0 in release builds. *)
Theorem C51_exp_too_large_refuted : forall v e, decimal v e -> 32 <= e -> e < 2 ^ 32 ->
  parse_exp_to_usize true v = Panic /\ parse_exp_to_usize false v = Ok 0.
Proof. exact exp_too_large_refuted. Qed.
Print Assumptions C51_exp_too_large_refuted.

(** C51: every other text panics. *)
Theorem C51_exp_invalid : forall dbg v, (forall e, decimal v e -> 2 ^ 32 <= e) -> parse_exp_to_usize dbg v = Panic.
Proof. exact exp_invalid. Qed.
Print Assumptions C51_exp_invalid.

(** C51: the environment is read completely and exactly: flags are produced precisely when
    all six variables hold valid texts, and then carry their values. *)
Theorem C51_env_flags_iff : forall dbg env fl,
  parse_from_env dbg env = Ok fl <->
  exists es ld pb ne dg kv n,
    PIR_ELEM_SIZE_BITS env = Some es /\ PIR_LWE_DIM env = Some ld /\ PIR_PLAINTEXT_BITS env = Some pb /\
    PIR_NUMBER_OF_ELEMENTS_EXP env = Some ne /\ BENCH_DB_GEN env = Some dg /\ BENCH_KV env = Some kv /\
    decimal es (cf_elem_size fl) /\ cf_elem_size fl < 2 ^ 64 /\
    decimal ld (cf_lwe_dim fl) /\ cf_lwe_dim fl < 2 ^ 64 /\
    decimal pb (cf_plaintext_bits fl) /\ cf_plaintext_bits fl < 2 ^ 64 /\
    decimal ne n /\ ((n <= 31 /\ cf_m fl = 2 ^ n) \/ (dbg = false /\ 32 <= n < 2 ^ 32 /\ cf_m fl = 0)) /\
    (* "true" / "false" *)
    dg = (if cf_offline fl then [116; 114; 117; 101] else [102; 97; 108; 115; 101]) /\
    kv = (if cf_keyword fl then [116; 114; 117; 101] else [102; 97; 108; 115; 101]).
Proof. exact env_flags_iff. Qed.
Print Assumptions C51_env_flags_iff.

(** C51: the command-line flags of the example program: the flags are accepted exactly when
    all four texts are decimal numbers in range. The database has 2^m rows and elements of
    2^e bits (release builds silently take 0 for an exponent from 32 up); the LWE dimension
    and the plaintext bits are taken as they are, and both switches are on. *)
Theorem C51_cli_flags_iff : forall dbg matrix_height ele_size plaintext_bits dim fl,
  parse_cli_flags dbg matrix_height ele_size plaintext_bits dim = Ok fl <->
  exists n k,
    decimal matrix_height n /\ ((n <= 31 /\ cf_m fl = 2 ^ n) \/ (dbg = false /\ 32 <= n < 2 ^ 32 /\ cf_m fl = 0)) /\
    decimal ele_size k /\
    ((k <= 31 /\ cf_elem_size fl = 2 ^ k) \/ (dbg = false /\ 32 <= k < 2 ^ 32 /\ cf_elem_size fl = 0)) /\
    decimal plaintext_bits (cf_plaintext_bits fl) /\ cf_plaintext_bits fl < 2 ^ 64 /\
    decimal dim (cf_lwe_dim fl) /\ cf_lwe_dim fl < 2 ^ 64 /\
    cf_offline fl = true /\ cf_keyword fl = true.
Proof. exact cli_flags_iff. Qed.
Print Assumptions C51_cli_flags_iff.

(** C51: the default flags: 16, 13, 10 and 2048 *)
Example C51_cli_default_example : forall dbg,
  parse_cli_flags dbg [49; 54] [49; 51] [49; 48] [50; 48; 52; 56] =
  Ok {| cf_m := 2 ^ 16; cf_lwe_dim := 2048; cf_elem_size := 2 ^ 13; cf_plaintext_bits := 10;
        cf_offline := true; cf_keyword := true |}.
Proof. exact cli_default_example. Qed.

(** C51: *)
Example C51_exp_example :
  parse_exp_to_usize true [49; 54] = Ok 65536 /\ parse_exp_to_usize true [43; 51; 49] = Ok 2147483648 /\
  parse_exp_to_usize true [51; 50] = Panic /\ parse_exp_to_usize false [51; 50] = Ok 0 /\
  parse_exp_to_usize false [45; 49] = Panic /\ decimal [51; 50] 32.
Proof. exact exp_example. Qed.
