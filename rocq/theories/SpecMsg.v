(** * SpecMsg: what the texts of errors should say. Independent of the model of the code;
    [txt] and [number] (decimal notation) are those of SpecWire. *)
From Coq Require Import String.
From Verif Require Export Base SpecWire.
Local Open Scope string_scope.
Local Open Scope Z_scope.
Local Open Scope list_scope.

Definition size_text (details : list Z) : list Z := txt "Unexpected input size error: " ++ details.
(** A row of [a] words was multiplied by a column of [b]. *)
Definition lengths_text (a b : nat) : list Z :=
  size_text (txt "row_len: " ++ count a ++ txt ", col_len:" ++ count b ++ txt ",").
(** A chunk of [n] bytes does not fit. *)
Definition wide_details (n : nat) : list Z := txt "bytes are too long to parse as u16, length: " ++ count n.
Definition wide_debug (n : nat) : list Z :=
  txt "ErrorUnexpectedInputSize { details: """ ++ wide_details n ++ txt """ }".
Definition counts_text (a b : nat) : list Z :=
  txt "Number of keys (" ++ count a ++ txt ") does not match number of values (" ++ count b ++ txt ")".
Definition pairs_text (inner : list Z) : list Z := txt "Error occurred constructing KVs: Some(" ++ inner ++ txt ")".
Definition reused_text : list Z := txt "Attempted to reuse query parameters that were used already".
Definition overflow_text : list Z := txt "Attempted to overflow addition".
Definition no_filter_text : list Z := txt "No filter parameters set for KV QueryParams".

(** A length of a Rust vector. *)
Definition is_length (n : nat) : Prop := Z.of_nat n < 2 ^ 64.
(** [c] is the first element of [l] with [P]. *)
Definition first_with {A} (P : A -> Prop) (l : list A) (c : A) : Prop :=
  exists a b, l = a ++ c :: b /\ P c /\ Forall (fun x => ~ P x) a.
