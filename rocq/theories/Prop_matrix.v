(** Property theorems; each restates a lemma proved in Claims_matrix.v. *)
From Coq Require Import Permutation.
From Verif Require Import Base Spec Mat Lwe Db Api Claims_matrix.
Local Open Scope Z_scope.

(** C08: The vector product is the inner product modulo 2^32. *)
Theorem C08_inner_product :
  forall row col : list Z,
    length row = length col -> vec_mult_u32_u32 row col = Ok (dot row col mod 2 ^ 32).
Proof. exact inner_product. Qed.
Print Assumptions C08_inner_product.

(** C08: Vectors of different lengths give the input-size error. *)
Theorem C08_inner_product_mismatch :
  forall row col : list Z,
    length row <> length col -> vec_mult_u32_u32 row col = Err EInputSize.
Proof. exact inner_product_mismatch. Qed.
Print Assumptions C08_inner_product_mismatch.

(** C08: example with wrap-around, and a mismatch. *)
Example C08_inner_product_example :
  vec_mult_u32_u32 [4294967295; 2; 65536] [3; 5; 65536] = Ok 7 /\
  vec_mult_u32_u32 [1; 2] [3] = Err EInputSize.
Proof. exact inner_product_example. Qed.

(** C09: The format switch of a rectangular matrix is its transpose. *)
Theorem C09_format_switch_transposes :
  forall (M : list (list Z)) (h w : nat),
    shape M h w -> (0 < h)%nat ->
    exists T, swap_matrix_fmt M = Ok T /\ is_transpose M T h w.
Proof. exact format_switch_transposes. Qed.
Print Assumptions C09_format_switch_transposes.

(** C09: Switching twice gives the matrix back. *)
Theorem C09_format_switch_twice :
  forall (M : list (list Z)) (h w : nat),
    shape M h w -> (0 < h)%nat -> (0 < w)%nat ->
    exists T, swap_matrix_fmt M = Ok T /\ swap_matrix_fmt T = Ok M.
Proof. exact format_switch_twice. Qed.
Print Assumptions C09_format_switch_twice.

(** C09: It panics exactly on the empty matrix and on a row shorter than the first one; in
    every other case it succeeds. *)
Theorem C09_format_switch_panics_iff :
  forall M : list (list Z),
    (swap_matrix_fmt M = Panic <->
     M = [] \/ exists r, In r M /\ (length r < length (nth 0 M []))%nat) /\
    (swap_matrix_fmt M <> Panic -> exists T, swap_matrix_fmt M = Ok T).
Proof. exact format_switch_panics_iff. Qed.
Print Assumptions C09_format_switch_panics_iff.

(** C09: At the database level: the format switch of either database applied twice is the
    identity on databases with a rectangular non-empty matrix. *)
Theorem C09_database_switch_twice :
  (forall (db : index_db) (h w : nat),
     shape (id_entries db) h w -> (0 < h)%nat -> (0 < w)%nat ->
     exists t, index_switch_fmt db = Ok t /\ index_switch_fmt t = Ok db) /\
  (forall (db : kv_db) (h w : nat),
     shape (kd_entries db) h w -> (0 < h)%nat -> (0 < w)%nat ->
     exists t, kv_switch_fmt db = Ok t /\ kv_switch_fmt t = Ok db).
Proof. exact database_switch_twice. Qed.
Print Assumptions C09_database_switch_twice.

(** C09: examples: a 2x3 matrix, a ragged one, a matrix with a longer second row (cut). *)
Example C09_format_switch_example :
  shape [[1; 2; 3]; [4; 5; 6]] 2 3 /\
  swap_matrix_fmt [[1; 2; 3]; [4; 5; 6]] = Ok [[1; 4]; [2; 5]; [3; 6]] /\
  swap_matrix_fmt [[1; 2]; [3]] = Panic /\
  swap_matrix_fmt [[1]; [2; 3]] = Ok [[1; 2]].
Proof. exact format_switch_example. Qed.

(** C10: Decoding one response word. If word i of the response is
    right_i + delta*D + E modulo 2^32, with right the client's own vector and
    delta = 2^32 / 2^plaintext_bits, then entry i of the parsed row is
    (D + ceil((E - delta/2) / delta)) mod 2^plaintext_bits; it is D exactly when E is
    congruent to a number in (-delta/2, delta/2]. *)
Theorem C10_rounding_recovers :
  forall (dbg : bool) (qp : query_params) (resp : list Z) (pb w i : nat) (D E : Z),
    qp_plaintext_bits qp = pb -> (1 <= pb <= 31)%nat -> is_ceil_div (qp_elem_size qp) pb w ->
    (w <= length (qp_rhs qp))%nat -> (w <= length resp)%nat -> (i < w)%nat ->
    0 <= D < 2 ^ Z.of_nat pb ->
    nth i resp 0 mod 2 ^ 32 =
      (nth i (qp_rhs qp) 0 + 2 ^ (32 - Z.of_nat pb) * D + E) mod 2 ^ 32 ->
    exists row,
      index_parse_resp_as_row dbg qp resp = Ok row /\ length row = w /\
      nth i row 0 =
        (D + cdiv (E - 2 ^ (31 - Z.of_nat pb)) (2 ^ (32 - Z.of_nat pb))) mod 2 ^ Z.of_nat pb /\
      (nth i row 0 = D <->
       congruent_in E (- 2 ^ (31 - Z.of_nat pb)) (2 ^ (31 - Z.of_nat pb))).
Proof. exact rounding_recovers. Qed.
Print Assumptions C10_rounding_recovers.

(** C10: example: 10-bit plaintexts (delta = 2^22): noise exactly delta/2 still rounds to D,
    noise delta/2 + 1 does not, noise -delta/2 does not, -delta/2 + 1 does. *)
Example C10_rounding_example :
  let qp := {| qp_lhs := []; qp_rhs := [123456789]; qp_elem_size := 8; qp_plaintext_bits := 10;
               qp_extra := None; qp_used := true |} in
  let word E := (123456789 + 4194304 * 77 + E) mod 2 ^ 32 in
  is_ceil_div 8 10 1 /\
  index_parse_resp_as_row true qp [word 2097152] = Ok [77] /\
  index_parse_resp_as_row true qp [word 2097153] = Ok [78] /\
  index_parse_resp_as_row true qp [word (-2097151)] = Ok [77] /\
  index_parse_resp_as_row true qp [word (-2097152)] = Ok [76].
Proof. exact rounding_example. Qed.

(** C11: One draw, word by word: the three largest words are skipped, every other word is
    consumed and gives 0, 1 or 2^32-1 according to three consecutive ranges. *)
Theorem C11_ternary_draw :
  forall (v : Z) (rest : list Z),
    0 <= v < 2 ^ 32 ->
    random_ternary (v :: rest) =
      if v <? 1431655765 then Ok (0, rest)
      else if v <? 2863311529 then Ok (1, rest)
      else if v <? 2 ^ 32 - 3 then Ok (2 ^ 32 - 1, rest)
      else random_ternary rest.
Proof. exact ternary_draw. Qed.
Print Assumptions C11_ternary_draw.

(** C11: Exact distribution over one u32 word: of the 2^32 words, 1431655765 give 0,
    1431655764 give 1, 1431655764 give -1 (as 2^32-1) and 3 are rejected. *)
Theorem C11_ternary_distribution :
  let gives t v := match random_ternary [v] with Ok (x, _) => x =? t | _ => false end in
  let rejected v := match random_ternary [v] with Ok _ => false | _ => true end in
  how_many (gives 0) (2 ^ 32) = 1431655765 /\
  how_many (gives 1) (2 ^ 32) = 1431655764 /\
  how_many (gives (2 ^ 32 - 1)) (2 ^ 32) = 1431655764 /\
  how_many rejected (2 ^ 32) = 3.
Proof. exact ternary_distribution. Qed.
Print Assumptions C11_ternary_distribution.

(** C11: A vector of n ternary draws, on any tape: it has n entries, each 0, 1 or 2^32-1,
    they are the classes of the first n accepted words in order and nothing else is
    consumed; it never ends iff fewer than n words are acceptable. *)
Theorem C11_ternary_vector :
  forall (n : nat) (tape : list Z),
    ((n <= length (draws tape))%nat ->
     exists v rest,
       random_ternary_vector n tape = Ok (v, rest) /\ length v = n /\
       Forall (fun x => x = 0 \/ x = 1 \/ x = 2 ^ 32 - 1) v /\
       map signed32 v = firstn n (draws tape) /\ draws rest = skipn n (draws tape)) /\
    ((length (draws tape) < n)%nat -> random_ternary_vector n tape = Hang).
Proof. exact ternary_vector. Qed.
Print Assumptions C11_ternary_vector.

(** C11: example: a tape with rejected words in it. *)
Example C11_ternary_example :
  random_ternary_vector 3 [0; 4294967293; 2863311528; 4294967295; 2863311529; 5]
  = Ok ([0; 1; 4294967295], [5]).
Proof. exact ternary_example. Qed.

(** C12: Refuted: the accepted words are not spread evenly; 0 is hit once more than 1. *)
Theorem C12_ternary_uniform_refuted :
  let gives t v := match random_ternary [v] with Ok (x, _) => x =? t | _ => false end in
  how_many (gives 0) (2 ^ 32) <> how_many (gives 1) (2 ^ 32).
Proof. exact ternary_uniform_refuted. Qed.
Print Assumptions C12_ternary_uniform_refuted.

(** C13: Index: for a database whose columns all have m entries, the params right-hand side
    applied to a secret s is, column by column, the product of s*A with that column, A being
    the matrix the client derives from the same params. *)
Theorem C13_index_matrix_agreement :
  forall (prg : list Z -> nat -> Z) (db : index_db) (dim : nat) (seed : list Z)
         (p : index_params) (w : nat) (s : list Z),
    shape (id_entries db) w (id_m db) -> (0 < id_m db)%nat -> (1 <= id_plaintext_bits db)%nat ->
    is_ceil_div (id_elem_size db) (id_plaintext_bits db) w ->
    index_params_new prg db dim seed = Ok p -> length s = dim ->
    exists v, mult_right (ip_rhs p) s = Ok v /\ length v = w /\
      forall c, (c < w)%nat ->
        nth c v 0 = dot (map (dot s) (index_common_params prg p)) (nth c (id_entries db) []) mod 2 ^ 32.
Proof. exact index_matrix_agreement. Qed.
Print Assumptions C13_index_matrix_agreement.

(** C13: Key-value: the same for a KV database (h = number of filter slots). *)
Theorem C13_kv_matrix_agreement :
  forall (prg : list Z -> nat -> Z) (db : kv_db) (dim : nat) (seed : list Z)
         (fp : filter_params) (p : kv_params) (n h w : nat) (s : list Z),
    shape (kd_entries db) n h -> (0 < h)%nat -> (0 < n)%nat -> (1 <= kd_plaintext_bits db)%nat ->
    is_ceil_div (kd_elem_size db) (kd_plaintext_bits db) w -> (w <= n)%nat ->
    kv_params_new prg db dim seed fp = Ok p -> length s = dim ->
    exists v, mult_right (kp_rhs p) s = Ok v /\ length v = w /\
      forall c, (c < w)%nat ->
        nth c v 0 = dot (map (dot s) (kv_common_params prg p)) (nth c (kd_entries db) []) mod 2 ^ 32.
Proof. exact kv_matrix_agreement. Qed.
Print Assumptions C13_kv_matrix_agreement.

(** C13: example: a concrete generator, database and secret. *)
Example C13_matrix_agreement_example :
  let prg := fun (s : list Z) (k : nat) => (Z.of_nat k * 2654435761 + 12345) mod 2 ^ 32 in
  let db := {| id_entries := [[3; 1; 4]; [1; 5; 9]]; id_m := 3; id_elem_size := 16;
               id_plaintext_bits := 8 |} in
  exists p, index_params_new prg db 2 [] = Ok p /\ shape (id_entries db) 2 3 /\
    is_ceil_div 16 8 2 /\
    mult_right (ip_rhs p) [1; 4294967295] =
      Ok (map (fun c => dot (map (dot [1; 4294967295]) (index_common_params prg p)) c mod 2 ^ 32)
              (id_entries db)).
Proof. exact matrix_agreement_example. Qed.
