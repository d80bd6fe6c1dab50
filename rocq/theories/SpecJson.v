(** * SpecJson: what a JSON text is and what it denotes (RFC 8259, RFC 3629), as relations,
    independent of the parser in [Json]. Texts are lists of byte codes. Of [Json] only the type
    of values is used: a number without sign, fraction and exponent denotes [JInt], any other
    number [JFloat]; a string denotes its UTF-8 bytes. *)
From Coq Require Import String.
From Verif Require Import Base Db Api Json Files.
Local Open Scope Z_scope.

(** ** UTF-8 (RFC 3629): the code point and its bytes *)
Inductive utf8_char : Z -> list Z -> Prop :=
| u_1 n : 0 <= n < 128 -> utf8_char n [n]
| u_2 a b : 2 <= a < 32 -> 0 <= b < 64 -> utf8_char (64 * a + b) [192 + a; 128 + b]
| u_3 a b c : 0 <= a < 16 -> 0 <= b < 64 -> 0 <= c < 64 -> 2048 <= 4096 * a + 64 * b + c ->
    ~ (55296 <= 4096 * a + 64 * b + c <= 57343) ->
    utf8_char (4096 * a + 64 * b + c) [224 + a; 128 + b; 128 + c]
| u_4 a b c d : 0 <= a < 8 -> 0 <= b < 64 -> 0 <= c < 64 -> 0 <= d < 64 ->
    65536 <= 262144 * a + 4096 * b + 64 * c + d <= 1114111 ->
    utf8_char (262144 * a + 4096 * b + 64 * c + d) [240 + a; 128 + b; 128 + c; 128 + d].
Inductive utf8_text : list Z -> Prop :=
| ut_nil : utf8_text []
| ut_cons n bs t : utf8_char n bs -> utf8_text t -> utf8_text (bs ++ t).

(** ** Tokens *)
Definition blank (s : list Z) : Prop := Forall (fun c => c = 32 \/ c = 9 \/ c = 10 \/ c = 13) s.
Definition digits (s : list Z) : Prop := s <> [] /\ Forall (fun c => 48 <= c <= 57) s.
(** The number a list of decimal digits denotes. *)
Inductive decimal : list Z -> Z -> Prop :=
| dec_nil : decimal [] 0
| dec_snoc s n c : decimal s n -> 48 <= c <= 57 -> decimal (s ++ [c]) (10 * n + (c - 48)).
(** int = 0 / digit1-9 digits *)
Definition json_int (s : list Z) : Prop := s = [48] \/ exists c t, s = c :: t /\ 49 <= c <= 57 /\ Forall (fun c => 48 <= c <= 57) t.
Definition json_frac (s : list Z) : Prop := exists t, s = 46 :: t /\ digits t.
Definition json_exp (s : list Z) : Prop :=
  exists e sign t, s = e :: sign ++ t /\ (e = 101 \/ e = 69) /\ (sign = [] \/ sign = [43] \/ sign = [45]) /\ digits t.
Inductive json_number : list Z -> json -> Prop :=
| n_int s n : json_int s -> decimal s n -> json_number s (JInt n)
| n_other sign s fr ex : (sign = [] \/ sign = [45]) -> json_int s ->
    (fr = [] \/ json_frac fr) -> (ex = [] \/ json_exp ex) -> sign ++ fr ++ ex <> [] ->
    json_number (sign ++ s ++ fr ++ ex) JFloat.

Inductive hex_digit_value : Z -> Z -> Prop :=
| hx_09 v : 0 <= v <= 9 -> hex_digit_value (48 + v) v
| hx_af v : 10 <= v <= 15 -> hex_digit_value (97 + (v - 10)) v
| hx_AF v : 10 <= v <= 15 -> hex_digit_value (65 + (v - 10)) v.
Definition hex_quad (s : list Z) (n : Z) : Prop :=
  exists a b c d x y z w, s = [a; b; c; d] /\ hex_digit_value a x /\ hex_digit_value b y /\
    hex_digit_value c z /\ hex_digit_value d w /\ n = 4096 * x + 256 * y + 16 * z + w.
(** The two-character escapes: quote, backslash, slash, b, f, n, r, t. *)
Definition short_escapes : list (Z * Z) :=
  [(34, 34); (92, 92); (47, 47); (98, 8); (102, 12); (110, 10); (114, 13); (116, 9)].
(** The characters between the quotes and the string they denote. *)
Inductive json_chars : list Z -> list Z -> Prop :=
| c_nil : json_chars [] []
| c_plain c t d : 32 <= c -> c <> 34 -> c <> 92 -> json_chars t d -> json_chars (c :: t) (c :: d)
| c_short e b t d : In (e, b) short_escapes -> json_chars t d -> json_chars (92 :: e :: t) (b :: d)
| c_unicode h n bs t d : hex_quad h n -> utf8_char n bs -> json_chars t d ->
    json_chars (92 :: 117 :: h ++ t) (bs ++ d)
| c_pair h1 h2 n1 n2 bs t d : hex_quad h1 n1 -> hex_quad h2 n2 ->
    55296 <= n1 <= 56319 -> 56320 <= n2 <= 57343 ->
    utf8_char (65536 + 1024 * (n1 - 55296) + (n2 - 56320)) bs -> json_chars t d ->
    json_chars (92 :: 117 :: h1 ++ 92 :: 117 :: h2 ++ t) (bs ++ d).

(** ** Values *)
Inductive json_value : list Z -> json -> Prop :=
| v_null : json_value (bytes_of "null") JNull
| v_true : json_value (bytes_of "true") (JBool true)
| v_false : json_value (bytes_of "false") (JBool false)
| v_num s v : json_number s v -> json_value s v
| v_str s d : json_chars s d -> json_value (34 :: s ++ [34]) (JStr d)
| v_arr0 w : blank w -> json_value (91 :: w ++ [93]) (JArr [])
| v_arr s l : json_items s l -> json_value (91 :: s ++ [93]) (JArr l)
| v_obj0 w : blank w -> json_value (123 :: w ++ [125]) (JObj [])
| v_obj s l : json_members s l -> json_value (123 :: s ++ [125]) (JObj l)
with json_items : list Z -> list json -> Prop :=
| i_one w1 s w2 v : blank w1 -> json_value s v -> blank w2 -> json_items (w1 ++ s ++ w2) [v]
| i_more w1 s w2 v t l : blank w1 -> json_value s v -> blank w2 -> json_items t l ->
    json_items (w1 ++ s ++ w2 ++ 44 :: t) (v :: l)
with json_members : list Z -> list (list Z * json) -> Prop :=
| m_one w0 k d w1 w2 s w3 v : blank w0 -> json_chars k d -> blank w1 -> blank w2 -> json_value s v -> blank w3 ->
    json_members (w0 ++ (34 :: k ++ [34]) ++ w1 ++ 58 :: w2 ++ s ++ w3) [(d, v)]
| m_more w0 k d w1 w2 s w3 v t l : blank w0 -> json_chars k d -> blank w1 -> blank w2 -> json_value s v -> blank w3 ->
    json_members t l ->
    json_members (w0 ++ (34 :: k ++ [34]) ++ w1 ++ 58 :: w2 ++ s ++ w3 ++ 44 :: t) ((d, v) :: l).

(** A document: one value between blanks. *)
Definition json_document (s : list Z) (v : json) : Prop :=
  exists w1 t w2, s = w1 ++ t ++ w2 /\ blank w1 /\ json_value t v /\ blank w2.

(** ** Meaning of the input files *)
(** The file is a JSON array of the strings [strs], in any formatting. *)
Definition strings_file (c : list Z) (strs : list (list Z)) : Prop :=
  utf8_text c /\ json_document c (JArr (map JStr strs)).
(** In the members [l] of an object the name occurs exactly once, with the given value. *)
Definition member_is (l : list (list Z * json)) (name : list Z) (val : json) : Prop :=
  (forall x, In (name, x) l -> x = val) /\
  count_occ (list_eq_dec Z.eq_dec) (map fst l) name = 1%nat.
(** A record with the given fields: an object in which each field occurs exactly once (any
    other members are ignored), or the array of the field values in order. *)
Definition record_is (names : list (list Z)) (vals : list json) (v : json) : Prop :=
  (v = JArr vals /\ length vals = length names) \/
  exists l, v = JObj l /\ Forall2 (member_is l) names vals.
(** One entry of a key-value file. *)
Definition kv_entry (v : json) (kv : list Z * list Z) : Prop :=
  record_is [bytes_of "key"; bytes_of "value"] [JStr (fst kv); JStr (snd kv)] v.
Definition kvs_file (c : list Z) (kvs : list (list Z * list Z)) : Prop :=
  utf8_text c /\ exists vs, json_document c (JArr vs) /\ Forall2 kv_entry vs kvs.

(** A file of serialized index parameters. *)
Definition params_file (c : list Z) (q : index_params) : Prop :=
  (exists v, json_document c v /\
    record_is [bytes_of "dim"; bytes_of "m"; bytes_of "public_seed"; bytes_of "rhs";
               bytes_of "elem_size"; bytes_of "plaintext_bits"]
      [JInt (Z.of_nat (ip_dim q)); JInt (Z.of_nat (ip_m q)); JArr (map JInt (ip_public_seed q));
       JArr (map (fun r => JArr (map JInt r)) (ip_rhs q));
       JInt (Z.of_nat (ip_elem_size q)); JInt (Z.of_nat (ip_plaintext_bits q))] v) /\
  Z.of_nat (ip_dim q) < 2 ^ 64 /\ Z.of_nat (ip_m q) < 2 ^ 64 /\
  Z.of_nat (ip_elem_size q) < 2 ^ 64 /\ Z.of_nat (ip_plaintext_bits q) < 2 ^ 64 /\
  length (ip_public_seed q) = 32%nat /\ Forall (fun b => 0 <= b < 256) (ip_public_seed q) /\
  Forall (Forall (fun x => 0 <= x < 2 ^ 32)) (ip_rhs q).
