(** * B64Msg: the errors of [base64::decode] (crate base64 0.13, called at src/db/index.rs:181 and
    src/db/kv.rs:252) and their texts. Not code of the repository: modelled from the crate's
    documentation and source (decode.rs: [DecodeError], [decode_helper]). Elsewhere in the model
    the texts are an argument; these are the ones the program shows. *)
From Coq Require Import String.
From Verif Require Import Base Base64 Fmt Mat Lwe Hash Bfusep Db Api Json Files Msg.
Local Open Scope Z_scope.
Local Open Scope list_scope.

Inductive b64_failure : Type :=
| InvalidByte (offset : nat) (byte : Z)
| InvalidLength
| InvalidLastSymbol (offset : nat) (byte : Z).

(** The number of symbols before the first byte that is none. *)
Fixpoint b64_run (s : list Z) : nat :=
  match s with
  | c :: t => match b64_val c with Some _ => S (b64_run t) | None => O end
  | [] => O
  end.
(** What follows them may be the padding that completes the last four characters, or less. *)
Definition b64_tail_ok (q : nat) (t : list Z) : bool :=
  match t with
  | [] => true
  | _ => forallb (fun c => c =? b64_pad) t && (2 <=? q)%nat && (q + length t <=? 4)%nat
  end.
Definition b64_value (c : Z) : Z := match b64_val c with Some v => v | None => 0 end.
(** Bits of the last symbol that no byte takes up. *)
Definition b64_spare (k : nat) : Z := if (k mod 4 =? 2)%nat then 16 else if (k mod 4 =? 3)%nat then 4 else 1.
Definition b64_error (s : list Z) : option b64_failure :=
  let n := length s in
  if (n mod 4 =? 1)%nat then
    let c := last s 0 in
    if negb (c =? b64_pad) && match b64_val c with Some _ => false | None => true end
    then Some (InvalidByte (n - 1) c)
    else Some InvalidLength
  else
    let k := b64_run s in
    if negb (b64_tail_ok (k mod 4) (skipn k s)) then Some (InvalidByte k (nth k s 0))
    else
      let c := nth (k - 1) s 0 in
      if b64_value c mod b64_spare k =? 0 then None else Some (InvalidLastSymbol (k - 1) c).

(** [Display] and the derived [Debug] of [DecodeError]. *)
Definition b64_display (e : b64_failure) : list Z :=
  match e with
  | InvalidByte i c => bytes_of "Invalid byte " ++ dec_of c ++ bytes_of ", offset " ++ show i ++ bytes_of "."
  | InvalidLength => bytes_of "Encoded text cannot have a 6-bit remainder."
  | InvalidLastSymbol i c => bytes_of "Invalid last symbol " ++ dec_of c ++ bytes_of ", offset " ++ show i ++ bytes_of "."
  end.
Definition b64_debug (e : b64_failure) : list Z :=
  match e with
  | InvalidByte i c => bytes_of "InvalidByte(" ++ show i ++ bytes_of ", " ++ dec_of c ++ bytes_of ")"
  | InvalidLength => bytes_of "InvalidLength"
  | InvalidLastSymbol i c => bytes_of "InvalidLastSymbol(" ++ show i ++ bytes_of ", " ++ dec_of c ++ bytes_of ")"
  end.
(** The argument of Msg. (A text that decodes has no error.) *)
Definition b64_texts (s : list Z) : list Z * list Z :=
  match b64_error s with Some e => (b64_display e, b64_debug e) | None => ([], []) end.
