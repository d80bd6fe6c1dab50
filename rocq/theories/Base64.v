(** * Base64: the external crate base64 0.13 with the default STANDARD configuration,
    as used by src/utils.rs:252, src/db/index.rs:181, src/db/kv.rs:252.
    Not code of the repository: modelled from the crate's documented behaviour
    (RFC 4648 alphabet, padding emitted; decoding accepts absent padding, rejects
    foreign symbols, misplaced '=', length 1 mod 4 and non-zero trailing bits).
    A Rust string is the list of its byte codes. *)
From Verif Require Export Base.
Local Open Scope Z_scope.

(** Symbol of a 6-bit value: A-Z a-z 0-9 + / *)
Definition b64_sym (v : Z) : Z :=
  if v <? 26 then 65 + v
  else if v <? 52 then 97 + (v - 26)
  else if v <? 62 then 48 + (v - 52)
  else if v =? 62 then 43 else 47.
Definition b64_val (c : Z) : option Z :=
  if (65 <=? c) && (c <=? 90) then Some (c - 65)
  else if (97 <=? c) && (c <=? 122) then Some (c - 97 + 26)
  else if (48 <=? c) && (c <=? 57) then Some (c - 48 + 52)
  else if c =? 43 then Some 62
  else if c =? 47 then Some 63
  else None.
Definition b64_pad : Z := 61.

(** base64::encode *)
Fixpoint b64_encode (l : list Z) : list Z :=
  match l with
  | [] => []
  | [a] => [b64_sym (a / 4); b64_sym (a mod 4 * 16); b64_pad; b64_pad]
  | [a; b] => [b64_sym (a / 4); b64_sym (a mod 4 * 16 + b / 16);
               b64_sym (b mod 16 * 4); b64_pad]
  | a :: b :: c :: t =>
      b64_sym (a / 4) :: b64_sym (a mod 4 * 16 + b / 16)
        :: b64_sym (b mod 16 * 4 + c / 64) :: b64_sym (c mod 64) :: b64_encode t
  end.

(** Values of the data symbols (before any '='), to bytes. *)
Fixpoint b64_quads (l : list Z) : option (list Z) :=
  match l with
  | [] => Some []
  | [_] => None
  | [p; q] => if q mod 16 =? 0 then Some [p * 4 + q / 16] else None
  | [p; q; r] => if r mod 4 =? 0 then Some [p * 4 + q / 16; q mod 16 * 16 + r / 4] else None
  | p :: q :: r :: s :: t =>
      match b64_quads t with
      | Some out => Some (p * 4 + q / 16 :: q mod 16 * 16 + r / 4 :: r mod 4 * 64 + s :: out)
      | None => None
      end
  end.

(** Split into data symbol values and padding; [pos] is the position modulo 4.
    '=' is only legal at positions 2 and 3 of a quad and only followed by '='. *)
Fixpoint b64_symbols (padding : bool) (pos : nat) (l : list Z) : option (list Z) :=
  match l with
  | [] => Some []
  | c :: t =>
      if c =? b64_pad then
        if (pos <? 2)%nat then None else b64_symbols true (S pos mod 4)%nat t
      else if padding then None
      else match b64_val c, b64_symbols false (S pos mod 4)%nat t with
           | Some v, Some vs => Some (v :: vs)
           | _, _ => None
           end
  end.

(** base64::decode *)
Definition b64_decode (s : list Z) : res (list Z) :=
  if (length s mod 4 =? 1)%nat then Err EBase64
  else match b64_symbols false 0 s with
       | None => Err EBase64
       | Some vs => match b64_quads vs with Some bs => Ok bs | None => Err EBase64 end
       end.
