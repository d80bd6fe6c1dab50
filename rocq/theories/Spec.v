(** * Spec: small independent specifications used in the property theorems.
    Nothing here refers to the model of the code. *)
From Coq Require Export List ZArith Lia Bool Arith.
Export ListNotations.
Local Open Scope Z_scope.

(** ** Bits *)

(** Sum of 2^i over the positions i of the set bits (bit 0 first). *)
Fixpoint bits_value (bits : list bool) : Z :=
  match bits with [] => 0 | b :: t => Z.b2z b + 2 * bits_value t end.

(** The n low bits of x, bit 0 first. *)
Definition low_bits (x : Z) (n : nat) : list bool :=
  map (fun i => Z.testbit x (Z.of_nat i)) (seq 0 n).

(** Bit i of a byte string: bit (i mod 8) of byte (i / 8). *)
Definition byte_string_bit (bytes : list Z) (i : nat) : bool :=
  Z.testbit (nth (i / 8) bytes 0) (Z.of_nat (i mod 8)).
Definition byte_string_bits (bytes : list Z) : list bool :=
  map (byte_string_bit bytes) (seq 0 (8 * length bytes)).

(** Exactly n bits: cut, or zero-extended. *)
Definition fit (n : nat) (bits : list bool) : list bool :=
  firstn n (bits ++ repeat false n).

(** Least w with w * d >= n. *)
Definition is_ceil_div (n d w : nat) : Prop :=
  (n <= w * d)%nat /\ forall w', (n <= w' * d)%nat -> (w <= w')%nat.

(** ** Vectors and matrices over Z *)
Fixpoint dot (a b : list Z) : Z :=
  match a, b with x :: a', y :: b' => x * y + dot a' b' | _, _ => 0 end.

(** [mat_at M i j]: entry at position j of the i-th vector of M. *)
Definition mat_at (M : list (list Z)) (i j : nat) : Z := nth j (nth i M []) 0.
(** M consists of h vectors of length w. *)
Definition shape (M : list (list Z)) (h w : nat) : Prop :=
  length M = h /\ Forall (fun r => length r = w) M.
Definition is_transpose (M T : list (list Z)) (h w : nat) : Prop :=
  shape T w h /\ forall i j, (i < h)%nat -> (j < w)%nat -> mat_at T j i = mat_at M i j.

(** ** Arithmetic *)

(** E is congruent modulo 2^32 to a value in the half-open interval (lo, hi]. *)
Definition congruent_in (E lo hi : Z) : Prop :=
  exists e k, E = e + k * 2 ^ 32 /\ lo < e <= hi.

(** Signed reading of a u32 word (two's complement). *)
Definition signed32 (x : Z) : Z := if x <? 2 ^ 31 then x else x - 2 ^ 32.


(** ** Randomness *)

(** The accepted words of a random tape, in order, as ternary values: words above
    4294967292 are skipped, the others are split in three consecutive ranges. *)
Definition accepted_word (v : Z) : bool := v <=? 4294967292.
Definition ternary_class (v : Z) : Z :=
  if v <=? 1431655764 then 0 else if v <=? 2863311528 then 1 else -1.
Definition draws (tape : list Z) : list Z :=
  map ternary_class (filter accepted_word tape).

(** ** Stored elements *)

(** c-th plaintext chunk (pb bits wide) of an element given by its bytes. *)
Definition chunk (bytes : list Z) (pb c : nat) : Z :=
  bits_value (firstn pb (skipn (c * pb) (byte_string_bits bytes))).

(** Column c of the database: chunk c of every element. *)
Definition column (elems : list (list Z)) (pb c : nat) : list Z :=
  map (fun b => chunk b pb c) elems.

(** Quotient rounded up. *)
Definition cdiv (a b : Z) : Z := - ((- a) / b).

(** How many of the numbers 0, 1, ..., n-1 satisfy P. *)
Definition how_many (P : Z -> bool) (n : Z) : Z :=
  Z.of_nat (length (filter P (map Z.of_nat (seq 0 (Z.to_nat n))))).
