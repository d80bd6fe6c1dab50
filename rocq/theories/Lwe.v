(** * Lwe: src/utils.rs, module [lwe] (lines 5-24). *)
From Verif Require Export Base.
Local Open Scope Z_scope.

(** src/utils.rs:6 *)
Definition MODULUS : Z := two32.

(** src/utils.rs:21-23 [get_plaintext_size]: [2u32.pow(plaintext_bits as u32)]. *)
Definition get_plaintext_size (dbg : bool) (plaintext_bits : nat) : res Z :=
  chk dbg two32 (2 ^ (Z.of_nat plaintext_bits mod two32)).

(** src/utils.rs:10-12 [get_rounding_factor]. *)
Definition get_rounding_factor (dbg : bool) (plaintext_bits : nat) : res Z :=
  let* p := get_plaintext_size dbg plaintext_bits in
  let* q := divz MODULUS p in
  Ok (q mod two32).

(** src/utils.rs:16-18 [get_rounding_floor]. *)
Definition get_rounding_floor (dbg : bool) (plaintext_bits : nat) : res Z :=
  let* f := get_rounding_factor dbg plaintext_bits in
  Ok (f / 2).
