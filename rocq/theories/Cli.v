(** * Cli: parameter parsing of pi-rs-cli-utils/src/lib.rs. *)
From Verif Require Export Base.
Local Open Scope Z_scope.

(** A Rust [String] is its list of UTF-8 bytes. *)

(** [str::parse::<u32>()] and [::<usize>()] (core::num::from_str_radix, radix 10): an
    optional leading '+', then one or more decimal digits; the value must be below [bound].
    Simplification: the error kind is not modelled. *)
Fixpoint parse_digits (bound acc : Z) (s : list Z) : option Z :=
  match s with
  | [] => Some acc
  | c :: s =>
      if (48 <=? c) && (c <=? 57) then
        let acc' := acc * 10 + (c - 48) in
        if acc' <? bound then parse_digits bound acc' s else None
      else None
  end.
Definition parse_unsigned (bound : Z) (s : list Z) : option Z :=
  match s with
  | [] => None
  | [43] => None
  | 43 :: s => parse_digits bound 0 s
  | s => parse_digits bound 0 s
  end.

(** u32 multiplication: checked in debug builds, wrapping in release builds. *)
Definition mul_u32 (dbg : bool) (x y : Z) : res Z :=
  if x * y <? two32 then Ok (x * y) else if dbg then Panic else Ok ((x * y) mod two32).

(** [u32::pow] (core::num, exponentiation by squaring): the loop runs while the remaining
    exponent exceeds 1. The exponent is given in binary. *)
Fixpoint pow_loop (dbg : bool) (acc base : Z) (exp : positive) : res Z :=
  match exp with
  | xH => mul_u32 dbg acc base
  | xO exp' => let* base' := mul_u32 dbg base base in pow_loop dbg acc base' exp'
  | xI exp' =>
      let* acc' := mul_u32 dbg acc base in
      let* base' := mul_u32 dbg base base in pow_loop dbg acc' base' exp'
  end.
Definition u32_pow (dbg : bool) (base exp : Z) : res Z :=
  match exp with Zpos p => pow_loop dbg 1 base p | _ => Ok 1 end.

(** lib.rs:93-97 [parse_exp_to_usize]. *)
Definition parse_exp_to_usize (dbg : bool) (v : list Z) : res Z :=
  match parse_unsigned two32 v with
  | None => Panic
  | Some e => u32_pow dbg 2 e
  end.

(** lib.rs:99-102 [parse_val_to_bool]: "true" or "false". *)
Definition parse_val_to_bool (v : list Z) : res bool :=
  if list_eq_dec Z.eq_dec v [116; 114; 117; 101] then Ok true
  else if list_eq_dec Z.eq_dec v [102; 97; 108; 115; 101] then Ok false
  else Panic.

(** lib.rs:4-11 [CLIFlags]. *)
Record cli_flags := { cf_m : Z; cf_lwe_dim : Z; cf_elem_size : Z; cf_plaintext_bits : Z;
                      cf_offline : bool; cf_keyword : bool }.

(** [v.parse::<usize>().unwrap()]. *)
Definition parse_usize (v : list Z) : res Z :=
  match parse_unsigned two64 v with Some n => Ok n | None => Panic end.

(** [env::var(name).unwrap()]: [env] maps the six variable names of lib.rs:75-82 to their
    values. *)
Record env_vars := { PIR_ELEM_SIZE_BITS : option (list Z); PIR_LWE_DIM : option (list Z);
                     PIR_PLAINTEXT_BITS : option (list Z);
                     PIR_NUMBER_OF_ELEMENTS_EXP : option (list Z);
                     BENCH_DB_GEN : option (list Z); BENCH_KV : option (list Z) }.
Definition env_var (v : option (list Z)) : res (list Z) :=
  match v with Some s => Ok s | None => Panic end.

(** lib.rs:74-91 [parse_from_env]. *)
Definition parse_from_env (dbg : bool) (env : env_vars) : res cli_flags :=
  let* s := env_var (PIR_ELEM_SIZE_BITS env) in let* elem_size := parse_usize s in
  let* s := env_var (PIR_LWE_DIM env) in let* lwe_dim := parse_usize s in
  let* s := env_var (PIR_PLAINTEXT_BITS env) in let* plaintext_bits := parse_usize s in
  let* s := env_var (PIR_NUMBER_OF_ELEMENTS_EXP env) in let* m := parse_exp_to_usize dbg s in
  let* s := env_var (BENCH_DB_GEN env) in let* offline := parse_val_to_bool s in
  let* s := env_var (BENCH_KV env) in let* keyword := parse_val_to_bool s in
  Ok {| cf_m := m; cf_lwe_dim := lwe_dim; cf_elem_size := elem_size;
        cf_plaintext_bits := plaintext_bits; cf_offline := offline; cf_keyword := keyword |}.

(** lib.rs:51-71 [parse_cli_flags], after clap has matched the four options (each has a
    default value, so a text is always present). clap itself is not modelled. *)
Definition parse_cli_flags (dbg : bool) (matrix_height ele_size plaintext_bits dim : list Z)
  : res cli_flags :=
  let* elem_size := parse_exp_to_usize dbg ele_size in
  let* lwe_dim := parse_usize dim in
  let* plaintext_bits := parse_usize plaintext_bits in
  let* m := parse_exp_to_usize dbg matrix_height in
  Ok {| cf_m := m; cf_lwe_dim := lwe_dim; cf_elem_size := elem_size;
        cf_plaintext_bits := plaintext_bits; cf_offline := true; cf_keyword := true |}.
