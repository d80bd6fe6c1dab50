(** * Float64: IEEE-754 binary64 (Rust [f64]) arithmetic, from the standard library's
    executable specification [Coq.Floats.SpecFloat] (precision 53, emax 1024,
    round to nearest even). No axioms are involved. *)
From Coq Require Import ZArith Floats.SpecFloat.
From Verif Require Import Base.
Local Open Scope Z_scope.

Definition f64 := spec_float.
(** [n as f64] for a usize. *)
Definition f64_of_usize (n : nat) : f64 := binary_normalize 53 1024 (Z.of_nat n) 0 false.
Definition f64_mul : f64 -> f64 -> f64 := SFmul 53 1024.
Definition f64_div : f64 -> f64 -> f64 := SFdiv 53 1024.
(** [x as usize]: truncation towards zero, saturating; NaN gives 0. *)
Definition f64_to_usize (x : f64) : nat :=
  match x with
  | S754_finite false m e => Z.to_nat (Z.min (two64 - 1) (Z.shiftl (Zpos m) e))
  | S754_infinity false => Z.to_nat (two64 - 1)
  | _ => 0%nat
  end.

(** The literals 1.23, 1.0 and 0.879 (nearest binary64 values). *)
Definition f_1_23 : f64 := S754_finite false 5539427541665710 (-52).
Definition f_1_0 : f64 := S754_finite false 4503599627370496 (-52).
Definition f_0_879 : f64 := S754_finite false 7917328144917332 (-53).
