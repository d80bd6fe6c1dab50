(** * Analysis: bff-modp/analysis/src/zeroes.rs (the whole program), bff-modp/analysis/plot_zeroes and
    the filter benchmarks bff-modp/benches/{xor8,xor16,fuse8,fuse16}.rs. *)
From Coq Require Import String.
From Verif Require Export Zeroes Bfuse Xor Fuse Tests.
Local Open Scope Z_scope.

(** zeroes.rs:13 *)
Definition SIZE : nat := Z.to_nat 1000000.

(** zeroes.rs:15-39: one use of the macro [print_zeroes!]: [build] is [$filter::try_from], [fps] the
    public field [fingerprints]; [keys] are the [SIZE] numbers drawn in lines 19-22. The result is
    the list of printed lines. *)
Definition run_zeroes {F} (dbg : bool) (build : list Z -> res F) (fps : F -> list Z) (keys : list Z)
  : res (list Z) :=
  let* f := unwrap (build keys) in
  print_zeroes dbg (fps f).

(** zeroes.rs:42-60 [main]. [args] is the whole command line, program name first; [pop] takes its
    last element and [expect] panics when there is none. [Xor8]/[Xor16] are built by [From], whose
    [try_from] never returns an error; [tries] bounds the attempts of that unbounded loop, as in
    [Xor.xor_from]. [draw i] is the i-th key drawn from [thread_rng], [rnd i] the i-th fill. *)
Definition analysis_main (dbg : bool) (fe : fest) (tries : nat) (rnd draw : nat -> Z) (args : list string)
  : res (list Z) :=
  match rev args with
  | [] => Panic
  | filter_str :: _ =>
      let keys := map draw (seq 0 SIZE) in
      if String.eqb filter_str "BinaryFuse8" then run_zeroes dbg (bfuse_try_from 8 dbg fe rnd) bf_fingerprints keys
      else if String.eqb filter_str "BinaryFuse16" then run_zeroes dbg (bfuse_try_from 16 dbg fe rnd) bf_fingerprints keys
      else if String.eqb filter_str "Fuse8" then run_zeroes dbg (fuse_try_from 8 dbg rnd) ff_fingerprints keys
      else if String.eqb filter_str "Fuse16" then run_zeroes dbg (fuse_try_from 16 dbg rnd) ff_fingerprints keys
      else if String.eqb filter_str "Xor8" then run_zeroes dbg (xor_from tries 8 dbg) xf_fingerprints keys
      else if String.eqb filter_str "Xor16" then run_zeroes dbg (xor_from tries 16 dbg) xf_fingerprints keys
      else Panic
  end.

(** What the shell script leaves behind. *)
Inductive plot_outcome :=
| PExit1                 (* "Invalid filter", exit status 1 *)
| PPlot (points : list Z) (* plot_zeroes.py draws these points *)
| PWaits.                (* the program does not end *)

(** plot_zeroes:10-21. [args] are the script's arguments ([$1] is empty when there is none). The
    program is run as [zeroes zeroes -- $FILTER] (cargo passes the words after [zeroes] on; only the
    last one matters). The script has no [set -e] and no test of the status: after a panic, which
    happens before anything is printed, the plot is drawn from an empty file.
    plot_zeroes.py:5-6 reads one integer per line. *)
Definition plot_zeroes (dbg : bool) (fe : fest) (tries : nat) (rnd draw : nat -> Z) (args : list string)
  : plot_outcome :=
  let filter_str := match args with [] => EmptyString | a :: _ => a end in
  if existsb (String.eqb filter_str)
       ["BinaryFuse8"; "BinaryFuse16"; "Xor8"; "Xor16"; "Fuse8"; "Fuse16"]%string then
    match analysis_main dbg fe tries rnd draw ["zeroes"; "zeroes"; "--"; filter_str]%string with
    | Ok lines => PPlot lines
    | Panic | Err _ => PPlot []
    | Hang => PWaits
    end
  else PExit1.

(** benches/fuse8.rs:12 (the same constant in the other three). *)
Definition BENCH_SAMPLE : nat := Z.to_nat 500000.

(** benches/xor8.rs:12-22, fuse8.rs:14-24: [from] builds the filter [iters] times from the same
    keys. Criterion's timing and number of iterations are not modelled. *)
Definition bench_from {F} (build : list Z -> res F) (iters : nat) (keys : list Z) : res unit :=
  for_each (seq 0 iters) (fun _ => let* _ := unwrap (build keys) in Ok tt).
(** benches/xor8.rs:24-35, fuse8.rs:26-37: [contains] builds it once and looks one drawn key up
    [iters] times. *)
Definition bench_contains {F} (build : list Z -> res F) (contains : F -> Z -> res bool) (iters : nat)
    (keys : list Z) (key : Z) : res unit :=
  let* f := unwrap (build keys) in
  for_each (seq 0 iters) (fun _ => let* _ := contains f key in Ok tt).
