(** * SpecCli: decimal notation. *)
From Verif Require Import Base.
Local Open Scope Z_scope.

(** The number a list of ASCII digits denotes. *)
Inductive digits_denote : list Z -> Z -> Prop :=
| dd_one c : 48 <= c <= 57 -> digits_denote [c] (c - 48)
| dd_more s n c : digits_denote s n -> 48 <= c <= 57 -> digits_denote (s ++ [c]) (n * 10 + (c - 48)).

(** Decimal text as Rust accepts it for unsigned integers: digits, possibly after a '+'. *)
Definition decimal (s : list Z) (n : Z) : Prop :=
  digits_denote s n \/ exists t, s = 43 :: t /\ digits_denote t n.
