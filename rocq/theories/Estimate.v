(** * Estimate: the floating-point size estimates of the binary fuse filters
    (bff-modp/src/prelude/bfuse.rs:7-29, called from bfuse.rs:79-85 and bfusep.rs:28-34).
    The only external function is libm's natural logarithm [log]; it is an argument here.
    Everything else is binary64 arithmetic. *)
From Coq Require Import ZArith Floats.SpecFloat.
From Verif Require Import Base Float64 Fuse3.
Local Open Scope Z_scope.

Definition f64_add : f64 -> f64 -> f64 := SFadd 53 1024.
(** libm [fmax]: the other operand when one is NaN. *)
Definition f64_max (x y : f64) : f64 :=
  match x, y with
  | S754_nan, _ => y
  | _, S754_nan => x
  | _, _ => if SFltb x y then y else x
  end.

(** [floor(x) as u32]: saturating; NaN and negative numbers give 0. *)
Definition f64_floor_u32 (x : f64) : Z :=
  match x with
  | S754_finite false m e => Z.min (two32 - 1) (Z.shiftl (Zpos m) e)
  | S754_infinity false => two32 - 1
  | _ => 0
  end.
(** [round(x) as u32]: half away from zero, then saturating. *)
Definition f64_round_u32 (x : f64) : Z :=
  match x with
  | S754_finite false m e => Z.min (two32 - 1) ((Z.shiftl (Zpos m) (e + 1) + 1) / 2)
  | S754_infinity false => two32 - 1
  | _ => 0
  end.

(** The literals 3.33, 2.25, 1.125, 0.875, 0.25 and 1000000 (nearest binary64 values). *)
Definition f_3_33 : f64 := S754_finite false 7498493379571876 (-51).
Definition f_2_25 : f64 := S754_finite false 5066549580791808 (-51).
Definition f_1_125 : f64 := S754_finite false 5066549580791808 (-52).
Definition f_0_875 : f64 := S754_finite false 7881299347898368 (-53).
Definition f_0_25 : f64 := S754_finite false 4503599627370496 (-54).
Definition f_1e6 : f64 := S754_finite false 8589934592000000 (-33).

(** bfuse.rs:13, exponent of the segment length: [floor(log(size as f64) / log(3.33) + 2.25) as u32]
    where [size] is already a u32 (the caller's [size as u32]). *)
Definition seglen_exp (log : f64 -> f64) (size : nat) : Z :=
  let s := Z.to_nat (Z.of_nat size mod two32) in
  f64_floor_u32 (f64_add (f64_div (log (f64_of_usize s)) (log f_3_33)) f_2_25).

(** bfuse.rs:20-25 [size_factor(3, size as u32)]; [0.25 * a / b] associates to the left. *)
Definition size_factor3 (log : f64 -> f64) (size : nat) : f64 :=
  let s := Z.to_nat (Z.of_nat size mod two32) in
  f64_max f_1_125
    (f64_add f_0_875 (f64_div (f64_mul f_0_25 (log f_1e6)) (log (f64_of_usize s)))).

(** bfusep.rs:32-33, bfuse.rs:83-84: [round(size as f64 * size_factor) as u32]. *)
Definition capacity_of (log : f64 -> f64) (size : nat) : Z :=
  f64_round_u32 (f64_mul (f64_of_usize size) (size_factor3 log size)).

(** The two estimates used by the constructors. *)
Definition f64_estimates (log : f64 -> f64) : fest :=
  {| fe_exp := seglen_exp log; fe_cap := capacity_of log |}.
