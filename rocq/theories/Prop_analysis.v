(** Property theorems; each restates a lemma proved in Claims_analysis.v. *)
From Coq Require Import String Permutation.
From Verif Require Import Base Hash Xorf Float64 Estimate Zeroes Bfuse Xor Fuse Tests XorfTests Analysis SpecFilter SpecXorf SpecXor SpecEst Claims_zeroes Claims_xorftests Claims_anysize Claims_xor Claims_fuse Claims_filter Claims_tests Claims_estimate Claims_analysis.
Local Open Scope Z_scope.

(** C80: the analysis program panics, whatever numbers it draws, unless the last word of its command
    line is one of the six names; the words before it do not matter. *)
Theorem C80_analysis_arguments : forall dbg fe tries rnd draw args,
  ((forall pre name, args = (pre ++ [name])%list -> ~ In name filter_names) -> analysis_main dbg fe tries rnd draw args = Panic) /\
  (forall args' name, analysis_main dbg fe tries rnd draw (args ++ [name]) = analysis_main dbg fe tries rnd draw (args' ++ [name])).
Proof. exact analysis_arguments. Qed.
Print Assumptions C80_analysis_arguments.

(** C80: what it prints: one number per multiple of 333 above 2000 and below the length of the table
    of the named filter, of the named fingerprint width, built from the drawn keys: the number of
    zeroes among the 2000 entries that end there, plus one if the first entry of the table is zero. *)
Theorem C80_analysis_output : forall dbg fe tries rnd draw pre name w,
  let keys := drawn SIZE draw in
  let lines fp := map (fun i => zeros_in fp (i - Z.to_nat 1999) (Z.to_nat 2000) + (if nth 0 fp 1 =? 0 then 1 else 0))
            (filter (fun i => (Z.to_nat 2000 <? i)%nat && (i mod 333 =? 0)%nat) (seq 0 (List.length fp))) in
  (forall f, In (name, w) fuse_names -> fuse_try_from w dbg rnd keys = Ok f ->
     analysis_main dbg fe tries rnd draw (pre ++ [name]) = Ok (lines (ff_fingerprints f))) /\
  (forall f, In (name, w) bfuse_names -> bfuse_try_from w dbg fe rnd keys = Ok f ->
     analysis_main dbg fe tries rnd draw (pre ++ [name]) = Ok (lines (bf_fingerprints f))) /\
  (forall f, In (name, w) xor_names -> xor_from tries w dbg keys = Ok f ->
     analysis_main dbg fe tries rnd draw (pre ++ [name]) = Ok (lines (xf_fingerprints f))).
Proof. exact analysis_output. Qed.
Print Assumptions C80_analysis_output.

(** C80: whenever it does not panic it prints a number of lines that depends on the filter family
    only (3388 for BinaryFuse, 3410 for Fuse, 3687 for Xor), whatever keys and fills were drawn, and
    every printed number is between 0 and 2001. *)
Theorem C80_analysis_lines : forall log dbg tries rnd draw pre name w out, reasonable_log log ->
  analysis_main dbg (f64_estimates log) tries rnd draw (pre ++ [name]) = Ok out ->
  (In (name, w) bfuse_names -> Z.of_nat (List.length out) = 3388) /\
  (In (name, w) fuse_names -> Z.of_nat (List.length out) = 3410) /\
  (In (name, w) xor_names -> Z.of_nat (List.length out) = 3687) /\
  Forall (fun x => 0 <= x <= 2001) out.
Proof. exact analysis_lines. Qed.
Print Assumptions C80_analysis_lines.

(** C80: when it prints: asked for a Fuse filter, exactly when the million drawn keys are distinct
    and one of the thousand seeds makes them peelable, and it panics otherwise; asked for an Xor
    filter, exactly when they are distinct and some u64 seed makes them peelable; asked for a
    BinaryFuse filter, for distinct keys without an overloaded slot, exactly when one of the
    thousand seeds makes them peelable. Printing itself never fails. *)
Theorem C80_analysis_prints_iff : forall dbg rnd draw pre name w, let keys := drawn SIZE draw in
  (forall fe tries probes, In (name, w) fuse_names ->
     (forall i, fuse_probes dbg (fuse_segment_length (List.length keys)) (retry_seed i) (probes i)) ->
     let prints := NoDup keys /\ exists i, (i < Z.to_nat 1000)%nat /\ peelable (probes i) keys in
     ((exists out, analysis_main dbg fe tries rnd draw (pre ++ [name]) = Ok out) <-> prints) /\
     (analysis_main dbg fe tries rnd draw (pre ++ [name]) = Panic <-> ~ prints)) /\
  (forall fe, In (name, w) xor_names ->
     ((exists tries out, analysis_main dbg fe tries rnd draw (pre ++ [name]) = Ok out) <->
      NoDup keys /\ exists seed slots, is_u64 seed /\ xor_probes dbg (xor_block_length (List.length keys)) seed slots /\ peelable slots keys)) /\
  (forall fe tries g probes, In (name, w) bfuse_names ->
     sane_estimates fe (List.length keys) -> geometry dbg fe (List.length keys) = Ok g ->
     (forall i, bf_probes dbg g (retry_seed i) (probes i)) -> Forall is_u64 keys -> NoDup keys ->
     (forall i j, (i < Z.to_nat 1000)%nat -> (load (probes i) keys j <= 63)%nat) ->
     ((exists out, analysis_main dbg fe tries rnd draw (pre ++ [name]) = Ok out) <->
      exists i, (i < Z.to_nat 1000)%nat /\ peelable (probes i) keys)).
Proof. exact analysis_prints_iff. Qed.
Print Assumptions C80_analysis_prints_iff.

(** C80: the plotting script looks at its first argument only: it exits with status 1 exactly when
    that argument is not one of the six names, and otherwise runs the program on it, so the program
    never sees an unknown name. *)
Theorem C80_plot_arguments : forall dbg fe tries rnd draw args,
  (plot_zeroes dbg fe tries rnd draw args = PExit1 <-> ~ exists name rest, args = name :: rest /\ In name filter_names) /\
  (forall name rest, args = name :: rest -> In name filter_names ->
     plot_zeroes dbg fe tries rnd draw args =
     match analysis_main dbg fe tries rnd draw [name] with Ok lines => PPlot lines | Panic | Err _ => PPlot [] | Hang => PWaits end).
Proof. exact plot_arguments. Qed.
Print Assumptions C80_plot_arguments.

(** C80: refuted: a plot is not evidence that a filter was built: when the drawn keys contain a
    repetition the program panics and the script draws a plot without points, for both Fuse filters
    and in both profiles. *)
Theorem C80_plot_failure_refuted : forall dbg fe tries rnd draw name w rest, In (name, w) fuse_names ->
  ~ NoDup (drawn SIZE draw) ->
  analysis_main dbg fe tries rnd draw [name] = Panic /\ plot_zeroes dbg fe tries rnd draw (name :: rest) = PPlot [].
Proof. exact plot_failure_refuted. Qed.
Print Assumptions C80_plot_failure_refuted.

(** C80: the four benchmarks of the filter crate run to the end, whatever keys they draw and
    however often they repeat the measured call, exactly when the filter of the half million drawn
    keys can be built: the measured lookups never panic, for any looked-up key. *)
Theorem C80_filter_benchmarks : forall w dbg draw key iters, (0 < iters)%nat -> let keys := drawn BENCH_SAMPLE draw in
  (forall tries,
     (bench_from (xor_from tries w dbg) iters keys = Ok tt <-> exists f, xor_from tries w dbg keys = Ok f) /\
     (bench_contains (xor_from tries w dbg) (xor_contains w dbg) iters keys key = Ok tt <-> exists f, xor_from tries w dbg keys = Ok f)) /\
  (forall rnd probes, (forall i, fuse_probes dbg (fuse_segment_length (List.length keys)) (retry_seed i) (probes i)) ->
     let built := NoDup keys /\ exists i, (i < Z.to_nat 1000)%nat /\ peelable (probes i) keys in
     (bench_from (fuse_try_from w dbg rnd) iters keys = Ok tt <-> built) /\
     (bench_contains (fuse_try_from w dbg rnd) (fuse_contains w dbg) iters keys key = Ok tt <-> built)).
Proof. exact filter_benchmarks. Qed.
Print Assumptions C80_filter_benchmarks.

(** C80: none of this is vacuous: for each of the six names there are draws of a million distinct
    u64 keys on which the program prints, in both profiles and with every random fill. *)
Theorem C80_analysis_can_print : forall log name, reasonable_log log -> In name filter_names ->
  exists draw, NoDup (drawn SIZE draw) /\ Forall is_u64 (drawn SIZE draw) /\
    forall dbg rnd, exists out, analysis_main dbg (f64_estimates log) 1 rnd draw [name] = Ok out.
Proof. exact analysis_can_print. Qed.
Print Assumptions C80_analysis_can_print.

(** C80: concrete runs: unknown names and a missing argument; a plot from equal draws. *)
Example C80_analysis_example : forall dbg fe tries rnd draw,
  analysis_main dbg fe tries rnd draw ["zeroes"; "Xor8"; "BinaryFuse32"]%string = Panic /\
  analysis_main dbg fe tries rnd draw ["zeroes"]%string = Panic /\ analysis_main dbg fe tries rnd draw [] = Panic /\
  plot_zeroes dbg fe tries rnd draw ["Xor32"]%string = PExit1 /\ plot_zeroes dbg fe tries rnd draw [] = PExit1 /\
  plot_zeroes dbg fe tries rnd (fun _ => 7) ["Fuse16"; "ignored"]%string = PPlot [].
Proof. exact analysis_example. Qed.
