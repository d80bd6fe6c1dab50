(** Property theorems; each restates a lemma proved in Claims_zeroes.v. *)
From Coq Require Import Permutation.
From Verif Require Import Base Zeroes Claims_zeroes.
Local Open Scope Z_scope.

(** C59: the tool never underflows its counter in any build; it prints one line per multiple of
    333 above 2000, and the line for position i is the number of zeroes among the 2000 entries
    ending at position i, plus one if the very first entry of the table is zero. *)
Theorem C59_zeroes_printed : forall dbg fp,
  print_zeroes dbg fp
  = Ok (map (fun i => zeros_in fp (i - Z.to_nat 1999) (Z.to_nat 2000) + (if nth 0 fp 1 =? 0 then 1 else 0))
            (filter (fun i => (Z.to_nat 2000 <? i)%nat && (i mod 333 =? 0)%nat) (seq 0 (length fp)))).
Proof. exact zeroes_printed. Qed.
Print Assumptions C59_zeroes_printed.

(** C59: so the printed numbers are not always the number of zeroes in a window of 2000 entries:
    on a table of zeroes every printed line says 2001. *)
Theorem C59_zeroes_window_refuted : exists fp x rest, forall dbg,
  print_zeroes dbg fp = Ok (x :: rest) /\ (forall lo n, (n <= Z.to_nat 2000)%nat -> zeros_in fp lo n < x).
Proof. exact zeroes_window_refuted. Qed.
Print Assumptions C59_zeroes_window_refuted.
