(** * Zeroes: bff-modp/analysis/src/zeroes.rs. *)
From Verif Require Export Base.
Local Open Scope Z_scope.

(** zeroes.rs:25 *)
Definition window_size : nat := Z.to_nat 2000.

(** zeroes.rs:27-37: body of the loop at index [i]; the state is the counter and the lines
    printed so far (last first). [zeroes -= 1] on 0 overflows: panic in debug builds, wrap
    modulo 2^64 in release builds. *)
Definition zeroes_step (dbg : bool) (fp : list Z) (s : Z * list Z) (i : nat) : res (Z * list Z) :=
  let (zeroes, out) := s in
  let* t := idx fp i in
  let zeroes := if t =? 0 then zeroes + 1 else zeroes in
  let* zeroes :=
    (if (window_size <? i)%nat then
       let* x := idx fp (i - window_size) in
       if x =? 0 then
         if zeroes =? 0 then (if dbg then Panic else Ok (two64 - 1)) else Ok (zeroes - 1)
       else Ok zeroes
     else Ok zeroes) in
  let out := if (window_size <? i)%nat && (i mod 333 =? 0)%nat then zeroes :: out else out in
  Ok (zeroes, out).

(** zeroes.rs:24-38: the lines printed for the fingerprints [fp] of a filter. *)
Definition print_zeroes (dbg : bool) (fp : list Z) : res (list Z) :=
  let* s := foldM (zeroes_step dbg fp) (seq 0 (length fp)) (0, []) in
  Ok (rev (snd s)).
