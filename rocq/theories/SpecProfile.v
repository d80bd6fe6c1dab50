(** * Specification for C86: agreement of the two build profiles.

    A call is given as a function of the build profile ([true] = cargo debug, with
    overflow checks and debug assertions, [false] = cargo --release).  It is
    profile-independent when every debug run that does not panic (it returns, or
    fails with an [Err], or never ends) has exactly the same outcome in release. *)
From Verif Require Import Base.

Definition release_agrees {A} (call : bool -> res A) : Prop :=
  call true <> Panic -> call false = call true.
