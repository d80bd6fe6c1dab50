(** * Base: outcomes, machine words, checked array access.

    Conventions of the whole model (see DESIGN.md):
    - a Rust [Vec<T>] / [Box<[T]>] / slice is a [list];
    - [usize] values (lengths, indices, bit counts) are [nat]; the model does not
      wrap [usize] (the code only forms [usize] values bounded by allocated memory);
    - [u8], [u32], [u64] values are [Z]; every wrapping operation is written out;
    - [dbg : bool] is the build profile: [true] = overflow checks and debug
      assertions on (cargo debug), [false] = both off (cargo --release). *)
From Coq Require Export List ZArith Lia Bool Arith.
Export ListNotations.
Local Open Scope Z_scope.

(** Error values that reach the caller as [Err(..)]: src/errors.rs:10-57 and the
    literal error strings of src/api.rs, src/db/kv.rs, bff-modp/src/bfusep32.rs.
    Simplification: messages are not modelled, only which error it is. *)
Inductive error : Set :=
| EInputSize        (* errors.rs:10 ErrorUnexpectedInputSize *)
| EParamsReused     (* errors.rs:36 ErrorQueryParamsReused *)
| EOverflownAdd     (* errors.rs:50 ErrorOverflownAdd *)
| EBase64           (* base64::DecodeError, propagated by [?] *)
| ENoFilterParams   (* api.rs:357,379 *)
| EKeyValueCount    (* kv.rs:152 *)
| EConstructKV      (* kv.rs:174 *)
| EDataLen          (* bfusep32.rs:79 *)
| EFilterFail       (* bfusep.rs:194 / bfuse.rs:246 *)
| EFuseFail         (* fuse.rs:156 *)
| EDeserialize      (* bincode / serde_json error *)
| EIo.              (* std::io::Error *)

(** Outcome of a Rust call: normal value, [Err], panic, or divergence. *)
Inductive res (A : Type) : Type :=
| Ok (a : A)
| Err (e : error)
| Panic
| Hang.
Arguments Ok {A} a. Arguments Err {A} e. Arguments Panic {A}. Arguments Hang {A}.

Definition bind {A B} (r : res A) (k : A -> res B) : res B :=
  match r with Ok a => k a | Err e => Err e | Panic => Panic | Hang => Hang end.
Notation "'let*' x ':=' e 'in' k" := (bind e (fun x => k))
  (at level 200, x pattern, e at level 100, k at level 200, right associativity).

(** Rust's [Result::unwrap]: an [Err] becomes a panic. *)
Definition unwrap {A} (r : res A) : res A :=
  match r with Err _ => Panic | r => r end.

(** Sequential evaluation of [iter.map(f).collect::<Result<Vec<_>,_>>()] and of
    [for] loops that push one value per element: stops at the first failure. *)
Fixpoint mapM {A B} (f : A -> res B) (l : list A) : res (list B) :=
  match l with
  | [] => Ok []
  | x :: xs => let* y := f x in let* ys := mapM f xs in Ok (y :: ys)
  end.

(** Sequential [for] loop threading a state. *)
Fixpoint foldM {A S} (f : S -> A -> res S) (l : list A) (s : S) : res S :=
  match l with
  | [] => Ok s
  | x :: xs => let* s' := f s x in foldM f xs s'
  end.

(** Checked indexing [v[i]] and [v[i] = x]: out of bounds panics. *)
Definition idx {A} (l : list A) (i : nat) : res A :=
  match nth_error l i with Some x => Ok x | None => Panic end.

Fixpoint upd {A} (l : list A) (i : nat) (x : A) : list A :=
  match l, i with
  | [], _ => []
  | _ :: t, O => x :: t
  | h :: t, S j => h :: upd t j x
  end.

Definition set {A} (l : list A) (i : nat) (x : A) : res (list A) :=
  if (i <? length l)%nat then Ok (upd l i x) else Panic.

(** ** Machine words *)
Definition two8  : Z := 256.
Definition two32 : Z := 4294967296.
Definition two64 : Z := 18446744073709551616.

Definition is_u8  (x : Z) : Prop := 0 <= x < two8.
Definition is_u32 (x : Z) : Prop := 0 <= x < two32.
Definition is_u64 (x : Z) : Prop := 0 <= x < two64.

Definition wadd32 (a b : Z) : Z := (a + b) mod two32.   (* u32::wrapping_add *)
Definition wsub32 (a b : Z) : Z := (a - b) mod two32.   (* u32::wrapping_sub *)
Definition wmul32 (a b : Z) : Z := (a * b) mod two32.   (* u32::wrapping_mul *)
Definition wadd64 (a b : Z) : Z := (a + b) mod two64.   (* u64::overflowing_add(..).0 *)
Definition wmul64 (a b : Z) : Z := (a * b) mod two64.   (* u64::overflowing_mul(..).0 *)

(** Plain [+ - *] on a fixed-width type: panics in debug, wraps in release. *)
Definition chk (dbg : bool) (m v : Z) : res Z :=
  if (0 <=? v) && (v <? m) then Ok v else if dbg then Panic else Ok (v mod m).
Definition add8 (dbg : bool) (a b : Z) : res Z := chk dbg two8 (a + b).
Definition sub8 (dbg : bool) (a b : Z) : res Z := chk dbg two8 (a - b).
Definition add32 (dbg : bool) (a b : Z) : res Z := chk dbg two32 (a + b).
Definition sub32 (dbg : bool) (a b : Z) : res Z := chk dbg two32 (a - b).
Definition mul32 (dbg : bool) (a b : Z) : res Z := chk dbg two32 (a * b).

(** Integer division and remainder: a zero divisor panics in both profiles. *)
Definition divz (a b : Z) : res Z := if b =? 0 then Panic else Ok (a / b).
Definition remz (a b : Z) : res Z := if b =? 0 then Panic else Ok (a mod b).
Definition divn (a b : nat) : res nat := if (b =? 0)%nat then Panic else Ok (a / b)%nat.
Definition remn (a b : nat) : res nat := if (b =? 0)%nat then Panic else Ok (a mod b)%nat.

(** Little-endian bytes of a word: [to_le_bytes] / [from_le_bytes]. *)
Fixpoint le_bytes (n : nat) (x : Z) : list Z :=
  match n with O => [] | S k => x mod 256 :: le_bytes k (x / 256) end.
Fixpoint of_le_bytes (l : list Z) : Z :=
  match l with [] => 0 | b :: t => b + 256 * of_le_bytes t end.
