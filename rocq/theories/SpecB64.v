(** * SpecB64: what the errors of base64 decoding say. Independent of the model of the code. *)
From Coq Require Import String.
From Verif Require Export Base SpecWire.
Local Open Scope string_scope.
Local Open Scope Z_scope.
Local Open Scope list_scope.

(** RFC 4648, table 1. *)
Definition alphabet : list Z := txt "ABCDEFGHIJKLMNOPQRSTUVWXYZabcdefghijklmnopqrstuvwxyz0123456789+/".
Definition equals_sign : Z := 61.
(** Byte [i] of [s] is in the alphabet. *)
Definition symbol_at (s : list Z) (i : nat) : Prop := exists c, nth_error s i = Some c /\ In c alphabet.

(** The three texts, as shown, and inside another error. *)
Definition foreign_text (c : Z) (i : nat) : list Z := txt "Invalid byte " ++ number c ++ txt ", offset " ++ count i ++ txt ".".
Definition length_text : list Z := txt "Encoded text cannot have a 6-bit remainder.".
Definition spare_text (c : Z) (i : nat) : list Z := txt "Invalid last symbol " ++ number c ++ txt ", offset " ++ count i ++ txt ".".
Definition foreign_debug (c : Z) (i : nat) : list Z := txt "InvalidByte(" ++ count i ++ txt ", " ++ number c ++ txt ")".
Definition length_debug : list Z := txt "InvalidLength".
Definition spare_debug (c : Z) (i : nat) : list Z := txt "InvalidLastSymbol(" ++ count i ++ txt ", " ++ number c ++ txt ")".

(** What is wrong with [s]: byte [c] at [i] is not in the alphabet, and it is not the start of the
    padding of the last four characters; ... *)
Definition foreign (s : list Z) (c : Z) (i : nat) : Prop :=
  nth_error s i = Some c /\ ~ In c alphabet /\
  (c = equals_sign -> ~ ((i mod 4 = 3 /\ skipn i s = [equals_sign]) \/
                         (i mod 4 = 2 /\ (skipn i s = [equals_sign] \/ skipn i s = [equals_sign; equals_sign])))%nat).
(** ... or the last symbol [c], at [i], has bits that no byte takes up: symbols up to [i], padding
    after it, and another symbol in its place would do. *)
Definition spare (decodes : list Z -> Prop) (s : list Z) (c : Z) (i : nat) : Prop :=
  nth_error s i = Some c /\ (forall j, (j <= i)%nat -> symbol_at s j) /\
  Forall (fun x => x = equals_sign) (skipn (S i) s) /\
  exists c', In c' alphabet /\ c' <> c /\ decodes (firstn i s ++ [c'] ++ skipn (S i) s).
(** A text, and the one shown inside another error, that says what is wrong with [s]. *)
Definition says (decodes : list Z -> Prop) (s t : list Z) : Prop :=
  (exists c i, foreign s c i /\ t = foreign_text c i) \/
  ((length s mod 4 = 1)%nat /\ t = length_text) \/
  (exists c i, spare decodes s c i /\ t = spare_text c i).
Definition says_inside (decodes : list Z -> Prop) (s t : list Z) : Prop :=
  (exists c i, foreign s c i /\ t = foreign_debug c i) \/
  ((length s mod 4 = 1)%nat /\ t = length_debug) \/
  (exists c i, spare decodes s c i /\ t = spare_debug c i).
