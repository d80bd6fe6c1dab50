(** * Json: the external crate serde_json 1.0 as used by src/db/mod.rs:51-57,
    src/db/index.rs:40-49, 67-70, 144-147, src/db/kv.rs:196-199, src/api.rs:31-42, 150-170.
    Not code of the repository: modelled from the crate's documented behaviour (RFC 8259
    grammar; compact writer; derived struct decoders). Texts and Rust strings are lists of
    byte codes. Simplifications: a text is first parsed to a [json] tree and then decoded,
    where the crate does both at once (same accepted texts for the types used here, except
    that lone surrogate escapes inside values of unknown fields are rejected by the model);
    errors are not distinguished; non-negative integer literals keep their value, all other
    number literals are [JFloat]. *)
From Verif Require Export Base.
Local Open Scope Z_scope.

Inductive json : Type :=
| JNull
| JBool (b : bool)
| JInt (n : Z)                (* literal without sign, fraction, exponent *)
| JFloat                      (* any other number literal *)
| JStr (s : list Z)           (* decoded, UTF-8 bytes *)
| JArr (l : list json)
| JObj (l : list (list Z * json)).

(** ** Parser *)
Definition is_ws (c : Z) : bool := (c =? 32) || (c =? 9) || (c =? 10) || (c =? 13).
Definition is_digit (c : Z) : bool := (48 <=? c) && (c <=? 57).
Fixpoint skip_ws (s : list Z) : list Z :=
  match s with [] => [] | c :: t => if is_ws c then skip_ws t else s end.
Fixpoint strip (lit s : list Z) : option (list Z) :=
  match lit, s with
  | [], _ => Some s
  | a :: l, c :: t => if a =? c then strip l t else None
  | _ :: _, [] => None
  end.
Fixpoint take_digits (s : list Z) : list Z * list Z :=
  match s with
  | c :: t => if is_digit c then let (d, r) := take_digits t in (c :: d, r) else ([], s)
  | [] => ([], [])
  end.
Definition num_of (digits : list Z) : Z :=
  fold_left (fun acc c => acc * 10 + (c - 48)) digits 0.

(** Number literal; [int = 0 / [1-9][0-9]*], optional sign, fraction, exponent. *)
Definition parse_frac (s : list Z) : option (bool * list Z) :=
  match s with
  | c :: t => if c =? 46 then
                let (d, r) := take_digits t in
                match d with [] => None | _ => Some (true, r) end
              else Some (false, s)
  | [] => Some (false, [])
  end.
Definition parse_exp (s : list Z) : option (bool * list Z) :=
  match s with
  | c :: t => if (c =? 101) || (c =? 69) then
                let t := match t with
                         | x :: u => if (x =? 43) || (x =? 45) then u else t
                         | [] => t end in
                let (d, r) := take_digits t in
                match d with [] => None | _ => Some (true, r) end
              else Some (false, s)
  | [] => Some (false, [])
  end.
Definition parse_num (s : list Z) : option (json * list Z) :=
  let '(neg, s) := match s with
                   | c :: t => if c =? 45 then (true, t) else (false, s)
                   | [] => (false, s) end in
  let (d, r) := take_digits s in
  match d with
  | [] => None
  | d0 :: dt =>
      if (d0 =? 48) && negb (match dt with [] => true | _ => false end) then None
      else
        match parse_frac r with
        | None => None
        | Some (fr, r) =>
            match parse_exp r with
            | None => None
            | Some (ex, r) => Some (if neg || fr || ex then JFloat else JInt (num_of d), r)
            end
        end
  end.

(** String body after the opening quote. *)
Definition hex_val (c : Z) : option Z :=
  if is_digit c then Some (c - 48)
  else if (97 <=? c) && (c <=? 102) then Some (c - 87)
  else if (65 <=? c) && (c <=? 70) then Some (c - 55)
  else None.
Definition hex4 (s : list Z) : option (Z * list Z) :=
  match s with
  | a :: b :: c :: d :: t =>
      match hex_val a, hex_val b, hex_val c, hex_val d with
      | Some a, Some b, Some c, Some d => Some (((a * 16 + b) * 16 + c) * 16 + d, t)
      | _, _, _, _ => None
      end
  | _ => None
  end.
Definition utf8_of (n : Z) : list Z :=
  if n <? 128 then [n]
  else if n <? 2048 then [192 + n / 64; 128 + n mod 64]
  else if n <? 65536 then [224 + n / 4096; 128 + n / 64 mod 64; 128 + n mod 64]
  else [240 + n / 262144; 128 + n / 4096 mod 64; 128 + n / 64 mod 64; 128 + n mod 64].
(** [\uXXXX], with surrogate pairs; the four hex digits come next in [s]. *)
Definition unicode_escape (s : list Z) : option (list Z * list Z) :=
  match hex4 s with
  | None => None
  | Some (n, t) =>
      if (56320 <=? n) && (n <=? 57343) then None
      else if (55296 <=? n) && (n <=? 56319) then
        match strip [92; 117] t with
        | None => None
        | Some t =>
            match hex4 t with
            | None => None
            | Some (n2, t) =>
                if (56320 <=? n2) && (n2 <=? 57343)
                then Some (utf8_of ((n - 55296) * 1024 + (n2 - 56320) + 65536), t)
                else None
            end
        end
      else Some (utf8_of n, t)
  end.
Definition simple_escape (e : Z) : option Z :=
  if e =? 34 then Some 34 else if e =? 92 then Some 92 else if e =? 47 then Some 47
  else if e =? 98 then Some 8 else if e =? 102 then Some 12 else if e =? 110 then Some 10
  else if e =? 114 then Some 13 else if e =? 116 then Some 9 else None.
Fixpoint parse_str (fuel : nat) (s : list Z) : option (list Z * list Z) :=
  match fuel with
  | O => None
  | S f =>
      match s with
      | [] => None
      | c :: t =>
          if c =? 34 then Some ([], t)
          else if c =? 92 then
            match t with
            | [] => None
            | e :: u =>
                if e =? 117 then
                  match unicode_escape u with
                  | None => None
                  | Some (b, u) =>
                      match parse_str f u with
                      | Some (l, r) => Some (b ++ l, r)
                      | None => None
                      end
                  end
                else
                  match simple_escape e with
                  | None => None
                  | Some b => match parse_str f u with
                              | Some (l, r) => Some (b :: l, r)
                              | None => None
                              end
                  end
            end
          else if c <? 32 then None
          else match parse_str f t with
               | Some (l, r) => Some (c :: l, r)
               | None => None
               end
      end
  end.

Fixpoint parse_value (fuel : nat) (s : list Z) : option (json * list Z) :=
  match fuel with
  | O => None
  | S f =>
      match skip_ws s with
      | [] => None
      | c :: t =>
          if c =? 34 then
            match parse_str f t with Some (b, r) => Some (JStr b, r) | None => None end
          else if c =? 91 then
            match strip [93] (skip_ws t) with
            | Some r => Some (JArr [], r)
            | None => match parse_items f t with Some (l, r) => Some (JArr l, r) | None => None end
            end
          else if c =? 123 then
            match strip [125] (skip_ws t) with
            | Some r => Some (JObj [], r)
            | None => match parse_members f t with Some (l, r) => Some (JObj l, r) | None => None end
            end
          else if c =? 110 then
            match strip [117; 108; 108] t with Some r => Some (JNull, r) | None => None end
          else if c =? 116 then
            match strip [114; 117; 101] t with Some r => Some (JBool true, r) | None => None end
          else if c =? 102 then
            match strip [97; 108; 115; 101] t with Some r => Some (JBool false, r) | None => None end
          else parse_num (c :: t)
      end
  end
with parse_items (fuel : nat) (s : list Z) : option (list json * list Z) :=
  match fuel with
  | O => None
  | S f =>
      match parse_value f s with
      | None => None
      | Some (v, r) =>
          match skip_ws r with
          | [] => None
          | c :: t =>
              if c =? 44 then
                match parse_items f t with Some (l, r) => Some (v :: l, r) | None => None end
              else if c =? 93 then Some ([v], t)
              else None
          end
      end
  end
with parse_members (fuel : nat) (s : list Z) : option (list (list Z * json) * list Z) :=
  match fuel with
  | O => None
  | S f =>
      match strip [34] (skip_ws s) with
      | None => None
      | Some t =>
          match parse_str f t with
          | None => None
          | Some (k, r) =>
              match strip [58] (skip_ws r) with
              | None => None
              | Some t =>
                  match parse_value f t with
                  | None => None
                  | Some (v, r) =>
                      match skip_ws r with
                      | [] => None
                      | c :: t =>
                          if c =? 44 then
                            match parse_members f t with
                            | Some (l, r) => Some ((k, v) :: l, r)
                            | None => None
                            end
                          else if c =? 125 then Some ([(k, v)], t)
                          else None
                      end
                  end
              end
          end
      end
  end.

(** [serde_json::from_str] / [from_reader]: one value, then only whitespace. Each level of
    the parser consumes a byte before it recurses twice, so this fuel is never exhausted. *)
Definition parse_text (s : list Z) : option json :=
  match parse_value (2 * length s + 2) s with
  | Some (v, r) => match skip_ws r with [] => Some v | _ => None end
  | None => None
  end.

(** ** Compact writer ([serde_json::to_writer]) *)
Fixpoint dec_digits (fuel : nat) (n : Z) : list Z :=
  match fuel with
  | O => []
  | S f => if n <? 10 then [48 + n] else dec_digits f (n / 10) ++ [48 + n mod 10]
  end.
(** Decimal notation of a u64. *)
Definition dec_of (n : Z) : list Z := dec_digits 20 n.

Definition hex_digit (v : Z) : Z := if v <? 10 then 48 + v else 87 + v.
Definition escape_byte (c : Z) : list Z :=
  if c =? 34 then [92; 34] else if c =? 92 then [92; 92]
  else if c =? 8 then [92; 98] else if c =? 9 then [92; 116] else if c =? 10 then [92; 110]
  else if c =? 12 then [92; 102] else if c =? 13 then [92; 114]
  else if c <? 32 then [92; 117; 48; 48; hex_digit (c / 16); hex_digit (c mod 16)]
  else [c].
Definition write_str (s : list Z) : list Z := [34] ++ flat_map escape_byte s ++ [34].

Fixpoint join (sep : list Z) (l : list (list Z)) : list Z :=
  match l with
  | [] => []
  | [x] => x
  | x :: t => x ++ sep ++ join sep t
  end.
Fixpoint write_json (v : json) : list Z :=
  match v with
  | JNull => [110; 117; 108; 108]
  | JBool true => [116; 114; 117; 101]
  | JBool false => [102; 97; 108; 115; 101]
  | JInt n => dec_of n
  | JFloat => [48; 46; 48]
  | JStr s => write_str s
  | JArr l => [91] ++ join [44] (map write_json l) ++ [93]
  | JObj l => [123] ++ join [44] (map (fun kv => write_str (fst kv) ++ [58] ++ write_json (snd kv)) l)
                ++ [125]
  end.

(** ** Decoders ([serde::Deserialize]) *)
Fixpoint all_some {A B} (f : A -> option B) (l : list A) : option (list B) :=
  match l with
  | [] => Some []
  | x :: t => match f x, all_some f t with Some y, Some ys => Some (y :: ys) | _, _ => None end
  end.
Definition de_string (v : json) : option (list Z) := match v with JStr s => Some s | _ => None end.
(** An unsigned integer type of the given bound ([u8], [u32], [usize] = [u64]). *)
Definition de_uint (bound : Z) (v : json) : option Z :=
  match v with JInt n => if n <? bound then Some n else None | _ => None end.
Definition de_vec {A} (f : json -> option A) (v : json) : option (list A) :=
  match v with JArr l => all_some f l | _ => None end.
Definition de_usize (v : json) : option nat :=
  match de_uint two64 v with Some n => Some (Z.to_nat n) | None => None end.
(** [[u8; 32]]: a sequence of exactly 32. *)
Definition de_u8_32 (v : json) : option (list Z) :=
  match de_vec (de_uint two8) v with
  | Some l => if (length l =? 32)%nat then Some l else None
  | None => None
  end.

(** Derived struct decoder, finding the fields: an object (unknown fields ignored, a known
    field twice is an error, a missing one too) or a sequence of the field values in
    declaration order, of exactly that length. *)
Definition beq (a b : list Z) : bool := if list_eq_dec Z.eq_dec a b then true else false.
Definition lookups (k : list Z) (l : list (list Z * json)) : list json :=
  map snd (filter (fun kv => beq (fst kv) k) l).
Definition field (k : list Z) (l : list (list Z * json)) : option json :=
  match lookups k l with [v] => Some v | _ => None end.
Definition struct_fields (names : list (list Z)) (v : json) : option (list json) :=
  match v with
  | JObj l => all_some (fun k => field k l) names
  | JArr l => if (length l =? length names)%nat then Some l else None
  | _ => None
  end.

(** ** UTF-8 ([String::from_utf8] as done by [fs::read_to_string]) *)
Definition cont (c : Z) : bool := (128 <=? c) && (c <=? 191).
Fixpoint utf8_valid (fuel : nat) (s : list Z) : bool :=
  match fuel with
  | O => match s with [] => true | _ => false end
  | S f =>
      match s with
      | [] => true
      | a :: t =>
          if (0 <=? a) && (a <? 128) then utf8_valid f t
          else if (194 <=? a) && (a <=? 223) then
            match t with b :: t => cont b && utf8_valid f t | _ => false end
          else if (224 <=? a) && (a <=? 239) then
            match t with
            | b :: c :: t =>
                cont b && cont c && ((negb (a =? 224)) || (160 <=? b))
                  && ((negb (a =? 237)) || (b <=? 159)) && utf8_valid f t
            | _ => false
            end
          else if (240 <=? a) && (a <=? 244) then
            match t with
            | b :: c :: d :: t =>
                cont b && cont c && cont d && ((negb (a =? 240)) || (144 <=? b))
                  && ((negb (a =? 244)) || (b <=? 143)) && utf8_valid f t
            | _ => false
            end
          else false
      end
  end.
Definition is_utf8 (s : list Z) : bool := utf8_valid (length s) s.
