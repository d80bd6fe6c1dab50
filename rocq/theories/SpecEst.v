(** * SpecEst: what is assumed of libm's natural logarithm. *)
From Coq Require Import ZArith Floats.SpecFloat.
From Verif Require Import Base Float64 Estimate.
Local Open Scope Z_scope.

(** [x] is a positive normal double with lo/10000 <= x <= hi/10000. *)
Definition f64_between (lo hi : Z) (x : f64) : Prop :=
  exists m d, x = S754_finite false m (- d) /\ 2 ^ 52 <= Zpos m < 2 ^ 53 /\ 0 <= d /\
    lo * 2 ^ d <= 10000 * Zpos m <= hi * 2 ^ d.

(** [log] is right to about four digits where it is used: ln 1 = 0, ln 3.33 = 1.20297...,
    ln 10^6 = 13.81551..., and for 2^k <= n < 2^(k+1) the result lies between k ln 2 and
    (k + 1) ln 2 (ln 2 = 0.693147...), and at 2^k it is k ln 2, up to the fourth digit. *)
Definition reasonable_log (log : f64 -> f64) : Prop :=
  log (f64_of_usize 1) = S754_zero false /\
  f64_between 12029 12031 (log f_3_33) /\
  f64_between 138155 138156 (log f_1e6) /\
  forall n, (2 <= n)%nat -> Z.of_nat n < 2 ^ 32 ->
    let k := Z.log2 (Z.of_nat n) in
    f64_between (6931 * k) (6932 * (if Z.of_nat n =? 2 ^ k then k else k + 1)) (log (f64_of_usize n)).
