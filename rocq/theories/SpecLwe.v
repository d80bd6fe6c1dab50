(** * SpecLwe: the decision problem behind the privacy of queries, stated by counting.
    Nothing here refers to the model of the code. Probabilities are over uniformly chosen
    elements of finite lists, so an advantage is a difference of counts, scaled by the sizes of
    the two lists. *)
From Verif Require Export Spec.
Local Open Scope Z_scope.

(** All sequences of [n] elements of [l]. *)
Fixpoint sequences {A} (l : list A) (n : nat) : list (list A) :=
  match n with
  | O => [[]]
  | S n => flat_map (fun x => map (cons x) (sequences l n)) l
  end.
(** How many elements of [l] satisfy [P]. *)
Definition count {A} (P : A -> bool) (l : list A) : Z := Z.of_nat (length (filter P l)).
Definition size {A} (l : list A) : Z := Z.of_nat (length l).

Definition numbers_below (n : Z) : list Z := map Z.of_nat (seq 0 (Z.to_nat n)).
Definition u32_words : list Z := numbers_below (2 ^ 32).
(** Random tapes of [n] words that a ternary draw accepts; uniform vectors of [m] words. *)
Definition random_tapes (n : nat) : list (list Z) := sequences (filter accepted_word u32_words) n.
Definition uniform_vectors (m : nat) : list (list Z) := sequences u32_words m.

(** The learning-with-errors vector for the public matrix [A] (given by its columns, each of
    [dim] words): s * A + e modulo 2^32, where s is made of the first [dim] ternary draws of the
    tape and e of the following ones. *)
Definition lwe_vector (A : list (list Z)) (dim : nat) (tape : list Z) : list Z :=
  let s := firstn dim (draws tape) in
  let e := skipn dim (draws tape) in
  map (fun i => (dot s (nth i A []) + nth i e 0) mod 2 ^ 32) (seq 0 (length A)).

(** How well [D] tells [n] independent such vectors from [n] uniform ones:
    |Pr[D accepts LWE] - Pr[D accepts uniform]|, times the numbers of tapes and of vectors. *)
Definition lwe_tapes (A : list (list Z)) (dim n : nat) := sequences (random_tapes (dim + length A)) n.
Definition lwe_uniform (A : list (list Z)) (n : nat) := sequences (uniform_vectors (length A)) n.
Definition lwe_advantage (A : list (list Z)) (dim n : nat) (D : list (list Z) -> bool) : Z :=
  let T := lwe_tapes A dim n in
  let U := lwe_uniform A n in
  Z.abs (count (fun tapes => D (map (lwe_vector A dim) tapes)) T * size U - count D U * size T).

(** Add [d] to a vector at the positions [js] (as often as a position is listed). *)
Definition plant (d : Z) (js : list nat) (v : list Z) : list Z :=
  map (fun i => (nth i v 0 + d * Z.of_nat (count_occ Nat.eq_dec js i)) mod 2 ^ 32) (seq 0 (length v)).

(** Pairwise. *)
Fixpoint map2 {A B C} (f : A -> B -> C) (l : list A) (r : list B) : list C :=
  match l, r with x :: l, y :: r => f x y :: map2 f l r | _, _ => [] end.
