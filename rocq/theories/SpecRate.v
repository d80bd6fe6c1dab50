(** * SpecRate: how many keys does a filter accept? ([how_many] is in Spec.) *)
From Verif Require Export Base Spec.
Local Open Scope Z_scope.

(** The answer of a membership test, for tests that may fail. *)
Definition says_yes (r : res bool) : bool := match r with Ok true => true | _ => false end.

(** How many of the 2^64 keys are accepted although they are not in the set. *)
Definition false_positives (contains : Z -> res bool) (keys : list Z) : Z :=
  how_many (fun key => says_yes (contains key) && negb (existsb (Z.eqb key) keys)) (2 ^ 64).
