(** * GenDb: data/generate_db.py and the Makefile target [gen-db]. *)
From Coq Require Import String.
From Verif Require Export Base Base64 Json Files.
Local Open Scope Z_scope.

(** The environment variables the script reads (generate_db.py:14-16, 26). *)
Record gen_env := { DB_ALL_ONES : option (list Z); DB_NUM_ENTRIES_EXP : option (list Z);
                    DB_ELEMENT_SIZE_EXP : option (list Z); DB_OUTPUT_PATH : option (list Z) }.

(** Python's [int(s)]. Simplification: only decimal digits (Python also takes a sign, blanks
    around and underscores); [None] is the exception. *)
Definition py_int (s : list Z) : option nat :=
  match s with
  | [] => None
  | _ => if forallb (fun c => (48 <=? c) && (c <=? 57)) s
         then Some (Z.to_nat (fold_left (fun n c => 10 * n + (c - 48)) s 0)) else None
  end.
(** generate_db.py:15-16 [int(os.getenv(x) or d)]: unset and empty give the default. *)
Definition getenv_or (v : option (list Z)) (d : nat) : option nat :=
  match v with None => Some d | Some [] => Some d | Some s => py_int s end.

(** generate_db.py:5-11 [get_random], [get_all_ones]: the urandom bytes are an argument. *)
Definition get_random (urandom : nat -> list Z) (n : nat) : list Z := b64_encode (urandom n).
Definition get_all_ones (n : nat) : list Z := b64_encode (repeat 255 n).

(** [json.dump(out, f, ensure_ascii=False)] of a list of base64 strings (generate_db.py:31):
    default separators comma-blank, no string needs an escape. *)
Fixpoint join_comma (l : list (list Z)) : list Z :=
  match l with
  | [] => []
  | [s] => 34 :: s ++ [34]
  | s :: t => (34 :: s ++ [34]) ++ 44 :: 32 :: join_comma t
  end.
Definition py_json_dump (l : list (list Z)) : list Z := 91 :: join_comma l ++ [93].

(** generate_db.py:13-31: the path and the text written; [urandom i] is the i-th call. [None]
    is an exception, raised before the file is opened. *)
Definition generate_db (env : gen_env) (urandom : nat -> nat -> list Z) : option (list Z * list Z) :=
  match getenv_or (DB_NUM_ENTRIES_EXP env) 16, getenv_or (DB_ELEMENT_SIZE_EXP env) 13 with
  | Some v, Some s =>
      let random := match DB_ALL_ONES env with
                    | Some t => if list_eq_dec Z.eq_dec t (bytes_of "0") then true else false
                    | None => false end in
      let out := map (fun i => if random then get_random (urandom i) (2 ^ s)%nat
                               else get_all_ones (2 ^ s)%nat) (seq 0 (2 ^ v)%nat) in
      let file_name := match DB_OUTPUT_PATH env with
                       | None => bytes_of "rand_db.json" | Some [] => bytes_of "rand_db.json"
                       | Some p => p end in
      Some (file_name, py_json_dump out)
  | _, _ => None
  end.

(** Makefile:8-28, 41-43 [make gen-db]: the environment the script gets for given values of
    NUMBER_OF_ELEMENTS_EXP, ELEMENT_SIZE_BITS and DB_ALL_ONES. The target exports the element size as
    DB_ELEMENT_SIZE_BITS, which the script does not read; DB_ELEMENT_SIZE_EXP is whatever
    the caller's environment has ([inherited]). *)
Definition make_gen_db_env (number_of_elements_exp element_size_bits db_all_ones : list Z)
    (inherited : option (list Z)) : gen_env :=
  {| DB_ALL_ONES := Some db_all_ones; DB_NUM_ENTRIES_EXP := Some number_of_elements_exp;
     DB_ELEMENT_SIZE_EXP := inherited; DB_OUTPUT_PATH := Some (bytes_of "data/rand_db.json") |}.
