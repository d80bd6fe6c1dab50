(** C80: the filter crate's analysis program, its plotting script and its benchmarks. *)
From Coq Require Import String.
From Verif Require Import Base Hash Xorf Float64 Estimate Zeroes Bfuse Xor Fuse Tests XorfTests Analysis SpecFilter SpecXorf SpecXor SpecEst Claims_zeroes Claims_xorftests Claims_anysize Base_facts Float_facts Estimate_facts Xor_facts Fuse_facts Bfuse_facts Geom_facts Claims_xor Claims_fuse Claims_filter Claims_tests Claims_estimate.
Import String.
Local Open Scope Z_scope.

(** The filters the tools know. *)
Definition fuse_names : list (string * nat) := [("Fuse8", 8); ("Fuse16", 16)]%string%nat.
Definition bfuse_names : list (string * nat) := [("BinaryFuse8", 8); ("BinaryFuse16", 16)]%string%nat.
Definition xor_names : list (string * nat) := [("Xor8", 8); ("Xor16", 16)]%string%nat.
Definition filter_names : list string := map fst (bfuse_names ++ fuse_names ++ xor_names).

(** The drawn keys. *)
Definition drawn (n : nat) (draw : nat -> Z) : list Z := map draw (seq 0 n).

(** ** The program *)
Lemma main_last dbg fe tries rnd draw pre name :
  analysis_main dbg fe tries rnd draw (pre ++ [name]) = analysis_main dbg fe tries rnd draw [name].
Proof. unfold analysis_main. rewrite rev_app_distr. reflexivity. Qed.

Lemma main_fuse dbg fe tries rnd draw pre name w : In (name, w) fuse_names ->
  analysis_main dbg fe tries rnd draw (pre ++ [name]) = run_zeroes dbg (fuse_try_from w dbg rnd) ff_fingerprints (drawn SIZE draw).
Proof. rewrite main_last. intros [H|[H|[]]]; inversion H; subst; reflexivity. Qed.
Lemma main_bfuse dbg fe tries rnd draw pre name w : In (name, w) bfuse_names ->
  analysis_main dbg fe tries rnd draw (pre ++ [name]) = run_zeroes dbg (bfuse_try_from w dbg fe rnd) bf_fingerprints (drawn SIZE draw).
Proof. rewrite main_last. intros [H|[H|[]]]; inversion H; subst; reflexivity. Qed.
Lemma main_xor dbg fe tries rnd draw pre name w : In (name, w) xor_names ->
  analysis_main dbg fe tries rnd draw (pre ++ [name]) = run_zeroes dbg (xor_from tries w dbg) xf_fingerprints (drawn SIZE draw).
Proof. rewrite main_last. intros [H|[H|[]]]; inversion H; subst; reflexivity. Qed.

Lemma drawn_length n draw : List.length (drawn n draw) = n.
Proof. unfold drawn. now rewrite map_length, seq_length. Qed.

(** @C80 the analysis program panics, whatever numbers it draws, unless the last word of its command
    line is one of the six names; the words before it do not matter. *)
Lemma analysis_arguments : forall dbg fe tries rnd draw args,
  ((forall pre name, args = (pre ++ [name])%list -> ~ In name filter_names) -> analysis_main dbg fe tries rnd draw args = Panic) /\
  (forall args' name, analysis_main dbg fe tries rnd draw (args ++ [name]) = analysis_main dbg fe tries rnd draw (args' ++ [name])).
Proof.
  intros dbg fe tries rnd draw args. split.
  - intros H. destruct (rev args) as [|name pre] eqn:E.
    + unfold analysis_main. now rewrite E.
    + assert (EA : args = (rev pre ++ [name])%list) by (rewrite <- (rev_involutive args), E; reflexivity).
      specialize (H _ _ EA). rewrite EA, main_last. unfold analysis_main. cbn [rev app].
      assert (N : forall s, In s filter_names -> String.eqb name s = false).
      { intros s Hs. apply String.eqb_neq. congruence. }
      rewrite !N by (vm_compute; tauto). reflexivity.
  - intros args' name. now rewrite (main_last _ _ _ _ _ args), (main_last _ _ _ _ _ args').
Qed.

Lemma run_ok {F} dbg (build : list Z -> res F) fps keys f : build keys = Ok f ->
  run_zeroes dbg build fps keys = print_zeroes dbg (fps f).
Proof. intros E. unfold run_zeroes. now rewrite E. Qed.
Lemma run_iff {F} dbg (build : list Z -> res F) fps keys :
  (exists out, run_zeroes dbg build fps keys = Ok out) <-> exists f, build keys = Ok f.
Proof.
  split.
  - intros (out & E). unfold run_zeroes in E. apply bind_Ok in E as (f & E & _). exists f. destruct (build keys); cbn [unwrap] in E; congruence.
  - intros (f & E). rewrite (run_ok _ _ _ _ _ E), zeroes_printed. eauto.
Qed.

(** @C80 what it prints: one number per multiple of 333 above 2000 and below the length of the table
    of the named filter, of the named fingerprint width, built from the drawn keys: the number of
    zeroes among the 2000 entries that end there, plus one if the first entry of the table is zero. *)
Lemma analysis_output : forall dbg fe tries rnd draw pre name w,
  let keys := drawn SIZE draw in
  let lines fp := map (fun i => zeros_in fp (i - Z.to_nat 1999) (Z.to_nat 2000) + (if nth 0 fp 1 =? 0 then 1 else 0))
            (filter (fun i => (Z.to_nat 2000 <? i)%nat && (i mod 333 =? 0)%nat) (seq 0 (List.length fp))) in
  (forall f, In (name, w) fuse_names -> fuse_try_from w dbg rnd keys = Ok f ->
     analysis_main dbg fe tries rnd draw (pre ++ [name]) = Ok (lines (ff_fingerprints f))) /\
  (forall f, In (name, w) bfuse_names -> bfuse_try_from w dbg fe rnd keys = Ok f ->
     analysis_main dbg fe tries rnd draw (pre ++ [name]) = Ok (lines (bf_fingerprints f))) /\
  (forall f, In (name, w) xor_names -> xor_from tries w dbg keys = Ok f ->
     analysis_main dbg fe tries rnd draw (pre ++ [name]) = Ok (lines (xf_fingerprints f))).
Proof.
  intros dbg fe tries rnd draw pre name w keys lines. split; [|split]; intros f H E.
  - rewrite (main_fuse _ _ _ _ _ _ _ _ H), (run_ok _ _ _ _ _ E). apply zeroes_printed.
  - rewrite (main_bfuse _ _ _ _ _ _ _ _ H), (run_ok _ _ _ _ _ E). apply zeroes_printed.
  - rewrite (main_xor _ _ _ _ _ _ _ _ H), (run_ok _ _ _ _ _ E). apply zeroes_printed.
Qed.

(** Number of printed lines. *)
Lemma multiples n : List.length (filter (fun i => (Z.to_nat 2000 <? i)%nat && (i mod 333 =? 0)%nat) (seq 0 n)) =
  ((n + 332) / 333 - 7)%nat.
Proof.
  remember (Z.to_nat 2000) as W eqn:HW. assert (HW' : Z.of_nat W = 2000) by lia. clear HW.
  induction n as [|n IH]; [reflexivity|].
  rewrite seq_S, filter_app, app_length, IH. cbn [Nat.add filter].
  assert (D : (n = 333 * (n / 333) + n mod 333)%nat) by (apply Nat.div_mod; discriminate).
  pose proof (Nat.mod_upper_bound n 333 ltac:(discriminate)) as M.
  remember (n / 333)%nat as q eqn:Eq. remember (n mod 333)%nat as r eqn:Er. clear Eq Er IH.
  assert (Q1 : ((n + 332) / 333 = q + (if r =? 0 then 0 else 1))%nat).
  { symmetry. destruct (Nat.eqb_spec r 0) as [R|R].
    - apply (Nat.div_unique _ _ _ 332); lia.
    - apply (Nat.div_unique _ _ _ (r - 1)); lia. }
  assert (Q2 : (S (n + 332) / 333 = S q)%nat).
  { symmetry. apply (Nat.div_unique _ _ _ r); lia. }
  rewrite Q1, Q2. destruct (Nat.eqb_spec r 0) as [R|R], (Nat.ltb_spec W n) as [L|L]; cbn [andb List.length]; lia.
Qed.

Lemma zeros_bound fp lo n : zeros_in fp lo n <= Z.of_nat n.
Proof.
  unfold zeros_in. apply inj_le.
  assert (B : forall l : list Z, (List.length (filter (fun t => (t =? 0)%Z) l) <= List.length l)%nat).
  { induction l as [|a l IH]; [reflexivity|]. cbn [filter]. destruct (a =? 0); cbn [List.length]; lia. }
  specialize (B (firstn n (skipn lo fp))). rewrite firstn_length in B. lia.
Qed.

Lemma line_bound fp lo : 0 <= zeros_in fp lo (Z.to_nat 2000) + (if nth 0 fp 1 =? 0 then 1 else 0) <= 2001.
Proof.
  pose proof (zeros_nonneg fp lo (Z.to_nat 2000)). pose proof (zeros_bound fp lo (Z.to_nat 2000)).
  destruct (nth 0 fp 1 =? 0); lia.
Qed.

Lemma run_lines {F} dbg (build : list Z -> res F) fps keys out :
  run_zeroes dbg build fps keys = Ok out -> exists f, build keys = Ok f /\
    List.length out = ((List.length (fps f) + 332) / 333 - 7)%nat /\ Forall (fun x => 0 <= x <= 2001) out.
Proof.
  intros E. assert (X : exists out, run_zeroes dbg build fps keys = Ok out) by eauto. apply run_iff in X as (f & Ef).
  exists f. split; [exact Ef|]. rewrite (run_ok _ _ _ _ _ Ef), zeroes_printed in E. injection E as <-.
  rewrite map_length, multiples. split; [reflexivity|]. apply Forall_forall. intros x Hx. apply in_map_iff in Hx as (i & <- & _).
  exact (line_bound (fps f) _).
Qed.

Lemma div_lines L k : Z.of_nat L = k -> Z.of_nat ((L + 332) / 333 - 7)%nat = Z.max 0 ((k + 332) / 333 - 7).
Proof.
  intros <-. assert (X : Z.of_nat ((L + 332) / 333) = (Z.of_nat L + 332) / 333) by (rewrite Nat2Z.inj_div; f_equal; lia).
  rewrite <- X. generalize ((L + 332) / 333)%nat. clear. intros q. lia.
Qed.

(** @C80 whenever it does not panic it prints a number of lines that depends on the filter family
    only (3388 for BinaryFuse, 3410 for Fuse, 3687 for Xor), whatever keys and fills were drawn, and
    every printed number is between 0 and 2001. *)
Lemma analysis_lines : forall log dbg tries rnd draw pre name w out, reasonable_log log ->
  analysis_main dbg (f64_estimates log) tries rnd draw (pre ++ [name]) = Ok out ->
  (In (name, w) bfuse_names -> Z.of_nat (List.length out) = 3388) /\
  (In (name, w) fuse_names -> Z.of_nat (List.length out) = 3410) /\
  (In (name, w) xor_names -> Z.of_nat (List.length out) = 3687) /\
  Forall (fun x => 0 <= x <= 2001) out.
Proof.
  intros log dbg tries rnd draw pre name w out HL E.
  pose proof (million _ (drawn_length SIZE draw)) as HN.
  assert (H32 : Z.of_nat (List.length (drawn SIZE draw)) < 2 ^ 32) by (rewrite HN; reflexivity).
  assert (H90 : (90 <= List.length (drawn SIZE draw))%nat).
  { clear - HN. generalize dependent (List.length (drawn SIZE draw)). intros. lia. }
  assert (A : In (name, w) bfuse_names -> Z.of_nat (List.length out) = 3388).
  { intros H. rewrite (main_bfuse _ _ _ _ _ _ _ _ H) in E. apply run_lines in E as (f & Ef & Lo & _). rewrite Lo.
    unfold bfuse_try_from in Ef. destruct (bfuse_length _ _ _ _ _ _ _ Ef) as (g & Eg & Lg). unfold bfuse_len in Lg.
    destruct (million_slots log dbg _ HL (drawn_length SIZE draw)) as (g' & Eg' & Lg').
    assert (g' = g) by congruence. subst g'. rewrite <- Lg in Lg'. now rewrite (div_lines _ _ Lg'). }
  assert (B : In (name, w) fuse_names -> Z.of_nat (List.length out) = 3410).
  { intros H. rewrite (main_fuse _ _ _ _ _ _ _ _ H) in E. apply run_lines in E as (f & Ef & Lo & _). rewrite Lo.
    destruct (fuse_size _ w dbg rnd _ f H32 H90 Ef) as [X D]. rewrite HN in X.
    assert (Z.of_nat (List.length (ff_fingerprints f)) = 1137606) as Y by (clear - X D; lia). now rewrite (div_lines _ _ Y). }
  assert (C : In (name, w) xor_names -> Z.of_nat (List.length out) = 3687).
  { intros H. rewrite (main_xor _ _ _ _ _ _ _ _ H) in E. apply run_lines in E as (f & Ef & Lo & _). rewrite Lo.
    destruct (xor_size w dbg _ f H32 (ex_intro _ tries Ef)) as [X D]. rewrite HN in X.
    assert (Z.of_nat (List.length (xf_fingerprints f)) = 1230030) as Y by (clear - X D; lia). now rewrite (div_lines _ _ Y). }
  split; [exact A|]. split; [exact B|]. split; [exact C|].
  destruct (in_dec String.string_dec name filter_names) as [I|I].
  - unfold filter_names in I. apply in_map_iff in I as ((n' & w') & EN & I). cbn [fst] in EN. subst n'.
    apply in_app_or in I as [I|I]; [|apply in_app_or in I as [I|I]].
    + rewrite (main_bfuse _ _ _ _ _ _ _ _ I) in E. now apply run_lines in E as (? & _ & _ & ?).
    + rewrite (main_fuse _ _ _ _ _ _ _ _ I) in E. now apply run_lines in E as (? & _ & _ & ?).
    + rewrite (main_xor _ _ _ _ _ _ _ _ I) in E. now apply run_lines in E as (? & _ & _ & ?).
  - exfalso. destruct (analysis_arguments dbg (f64_estimates log) tries rnd draw (pre ++ [name])) as [P _].
    assert (NI : forall pre' name', (pre ++ [name])%list = (pre' ++ [name'])%list -> ~ In name' filter_names).
    { intros pre' name' EQ. apply app_inj_tail in EQ as [_ <-]. exact I. }
    specialize (P NI). pose proof (eq_trans (eq_sym E) P) as X. discriminate X.
Qed.

(** @C80 when it prints: asked for a Fuse filter, exactly when the million drawn keys are distinct
    and one of the thousand seeds makes them peelable, and it panics otherwise; asked for an Xor
    filter, exactly when they are distinct and some u64 seed makes them peelable; asked for a
    BinaryFuse filter, for distinct keys without an overloaded slot, exactly when one of the
    thousand seeds makes them peelable. Printing itself never fails. *)
Lemma analysis_prints_iff : forall dbg rnd draw pre name w, let keys := drawn SIZE draw in
  (forall fe tries probes, In (name, w) fuse_names ->
     (forall i, fuse_probes dbg (fuse_segment_length (List.length keys)) (retry_seed i) (probes i)) ->
     let prints := NoDup keys /\ exists i, (i < Z.to_nat 1000)%nat /\ peelable (probes i) keys in
     ((exists out, analysis_main dbg fe tries rnd draw (pre ++ [name]) = Ok out) <-> prints) /\
     (analysis_main dbg fe tries rnd draw (pre ++ [name]) = Panic <-> ~ prints)) /\
  (forall fe, In (name, w) xor_names ->
     ((exists tries out, analysis_main dbg fe tries rnd draw (pre ++ [name]) = Ok out) <->
      NoDup keys /\ exists seed slots, is_u64 seed /\ xor_probes dbg (xor_block_length (List.length keys)) seed slots /\ peelable slots keys)) /\
  (forall fe tries g probes, In (name, w) bfuse_names ->
     sane_estimates fe (List.length keys) -> geometry dbg fe (List.length keys) = Ok g ->
     (forall i, bf_probes dbg g (retry_seed i) (probes i)) -> Forall is_u64 keys -> NoDup keys ->
     (forall i j, (i < Z.to_nat 1000)%nat -> (load (probes i) keys j <= 63)%nat) ->
     ((exists out, analysis_main dbg fe tries rnd draw (pre ++ [name]) = Ok out) <->
      exists i, (i < Z.to_nat 1000)%nat /\ peelable (probes i) keys)).
Proof.
  intros dbg rnd draw pre name w keys. pose proof (million _ (drawn_length SIZE draw)) as HN. fold keys in HN.
  assert (H32 : Z.of_nat (List.length keys) < 2 ^ 32) by (rewrite HN; reflexivity).
  assert (H90 : (90 <= List.length keys)%nat).
  { clear - HN. generalize dependent (List.length keys). intros. lia. }
  split; [|split].
  - intros fe tries probes H Hp prints.
    assert (EQ : (exists out, analysis_main dbg fe tries rnd draw (pre ++ [name]) = Ok out) <-> prints).
    { rewrite (main_fuse _ _ _ _ _ _ _ _ H), run_iff. apply fuse_ok_iff; [exact H32|exact H90|exact Hp]. }
    split; [exact EQ|]. split.
    + intros P X. apply EQ in X as (out & X). congruence.
    + intros N. rewrite (main_fuse _ _ _ _ _ _ _ _ H) in *. fold keys in EQ |- *.
      assert (K : (exists f, fuse_try_from w dbg rnd keys = Ok f) \/ unwrap (fuse_try_from w dbg rnd keys) = Panic).
      { unfold fuse_try_from. pose proof (fuse_sl_small (List.length keys) H32) as Hsl. pose proof (fuse_sl_bounds (List.length keys) H32) as B.
        assert (Hsl0 : (0 < fuse_segment_length (List.length keys))%nat) by (clear - B H90; lia).
        destruct (dbg && negb (all_distinct64 keys)) eqn:D.
        - right. unfold fuse_from_impl. rewrite D. reflexivity.
        - destruct (fuse_construct dbg keys Hsl0 Hsl H32 (Z.to_nat 1000) w rnd) as [(i & fps & _ & _ & _ & _ & _ & EE)|[EE _]].
          + intros ->. cbn [andb] in D. apply all_distinct64_nodup. now destruct (all_distinct64 keys).
          + left. rewrite EE. eauto.
          + right. rewrite EE. reflexivity. }
      destruct K as [K|K].
      * exfalso. apply N, EQ, run_iff, K.
      * unfold run_zeroes. rewrite K. reflexivity.
  - intros fe H.
    assert (Q : (exists tries out, analysis_main dbg fe tries rnd draw (pre ++ [name]) = Ok out) <->
                exists tries, init_test (xor_from tries w dbg) (xor_contains w dbg) keys = Ok tt).
    { assert (G : forall tries, (exists out, analysis_main dbg fe tries rnd draw (pre ++ [name]) = Ok out) <->
                   init_test (xor_from tries w dbg) (xor_contains w dbg) keys = Ok tt).
      { intros tries. rewrite (main_xor _ _ _ _ _ _ _ _ H), run_iff. symmetry. apply init_test_ok.
        intros f key E Hk. apply (xor_no_false_negatives w dbg keys f H32); [now exists tries|exact Hk]. }
      split; intros (t & X); exists t; apply G; exact X. }
    rewrite Q. apply xor_init_test_iff. exact H32.
  - intros fe tries g probes H Hs Eg Hp HU ND Hl.
    rewrite (main_bfuse _ _ _ _ _ _ _ _ H), run_iff. fold keys.
    rewrite <- (bfuse_init_test_iff w dbg fe rnd keys g probes Hs Eg Hp HU ND Hl).
    symmetry. apply init_test_ok. intros f key E Hk.
    assert (L : light dbg fe keys).
    { right. intros g' i slots j Eg' Hi Hpr. assert (g' = g) by congruence. subst g'.
      assert (SAME : load slots keys j = load (probes i) keys j).
      { unfold load. f_equal. apply filter_ext. intros key'. destruct (Hpr key') as (a & b & c & E1 & ->).
        destruct (Hp i key') as (a' & b' & c' & E2 & ->).
        rewrite E1 in E2. inversion E2. reflexivity. }
      rewrite SAME. auto. }
    destruct (bfuse_ok_shape w dbg fe rnd keys f Hs L E) as (_ & _ & _ & _ & Y). auto.
Qed.

(** ** The script *)
(** @C80 the plotting script looks at its first argument only: it exits with status 1 exactly when
    that argument is not one of the six names, and otherwise runs the program on it, so the program
    never sees an unknown name. *)
Lemma plot_arguments : forall dbg fe tries rnd draw args,
  (plot_zeroes dbg fe tries rnd draw args = PExit1 <-> ~ exists name rest, args = name :: rest /\ In name filter_names) /\
  (forall name rest, args = name :: rest -> In name filter_names ->
     plot_zeroes dbg fe tries rnd draw args =
     match analysis_main dbg fe tries rnd draw [name] with Ok lines => PPlot lines | Panic | Err _ => PPlot [] | Hang => PWaits end).
Proof.
  intros dbg fe tries rnd draw args.
  assert (B : forall name, existsb (String.eqb name) ["BinaryFuse8"; "BinaryFuse16"; "Xor8"; "Xor16"; "Fuse8"; "Fuse16"]%string = true <-> In name filter_names).
  { intros name. rewrite existsb_exists. split.
    - intros (x & Hx & E). apply String.eqb_eq in E. subst x. revert Hx. vm_compute. tauto.
    - intros H. exists name. split; [|apply String.eqb_refl]. revert H. vm_compute. tauto. }
  assert (V : forall name rest, args = name :: rest -> In name filter_names ->
     plot_zeroes dbg fe tries rnd draw args =
     match analysis_main dbg fe tries rnd draw [name] with Ok lines => PPlot lines | Panic | Err _ => PPlot [] | Hang => PWaits end).
  { intros name rest -> H. apply B in H. unfold plot_zeroes. rewrite H.
    change ["zeroes"; "zeroes"; "--"; name]%string with (["zeroes"; "zeroes"; "--"]%string ++ [name])%list. now rewrite main_last. }
  split; [|exact V]. split.
  - intros E (name & rest & EA & H). rewrite (V _ _ EA H) in E. destruct (analysis_main _ _ _ _ _ _); discriminate.
  - intros N. unfold plot_zeroes. destruct args as [|name rest]; [reflexivity|].
    destruct (existsb _ _) eqn:X; [|reflexivity]. exfalso. apply N. exists name, rest. split; [reflexivity|]. now apply B.
Qed.

Lemma drawn_const n x : (2 <= n)%nat -> ~ NoDup (drawn n (fun _ => x)).
Proof. intros Hn H. unfold drawn in H. destruct n as [|[|n]]; [lia|lia|]. cbn [seq map] in H. inversion H as [|? ? N]. apply N. now left. Qed.

(** @C80 refuted: a plot is not evidence that a filter was built: when the drawn keys contain a
    repetition the program panics and the script draws a plot without points, for both Fuse filters
    and in both profiles. *)
Lemma plot_failure_refuted : forall dbg fe tries rnd draw name w rest, In (name, w) fuse_names ->
  ~ NoDup (drawn SIZE draw) ->
  analysis_main dbg fe tries rnd draw [name] = Panic /\ plot_zeroes dbg fe tries rnd draw (name :: rest) = PPlot [].
Proof.
  intros dbg fe tries rnd draw name w rest H ND.
  pose proof (million _ (drawn_length SIZE draw)) as HN.
  assert (H32 : Z.of_nat (List.length (drawn SIZE draw)) < 2 ^ 32) by (rewrite HN; reflexivity).
  destruct (plot_arguments dbg fe tries rnd draw (name :: rest)) as [_ V].
  assert (IN : In name filter_names).
  { unfold filter_names. apply in_map_iff. exists (name, w). split; [reflexivity|]. apply in_or_app. right. apply in_or_app. now left. }
  assert (P : analysis_main dbg fe tries rnd draw [name] = Panic).
  { pose proof (fuse_sl_small (List.length (drawn SIZE draw)) H32) as Hsl.
    destruct (analysis_prints_iff dbg rnd draw [] name w) as [A _].
    set (sl := fuse_segment_length (List.length (drawn SIZE draw))) in *.
    specialize (A fe tries (fun i key => let h := mix key (retry_seed i) in [fs1 sl h; fs2 sl h; fs3 sl h]) H).
    destruct A as [_ A]; [|apply A; tauto].
    intros i. apply fs_probes. exact Hsl. }
  split; [exact P|]. rewrite (V name rest eq_refl IN), P. reflexivity.
Qed.

(** ** The benchmarks *)
Lemma bench_from_iff {F} (build : list Z -> res F) iters keys : (0 < iters)%nat ->
  (bench_from build iters keys = Ok tt <-> exists f, build keys = Ok f).
Proof.
  intros Hi. unfold bench_from. split.
  - destruct iters as [|k]; [lia|]. cbn [seq]. unfold for_each. cbn [foldM]. intros E.
    destruct (build keys) as [f| | |]; [eauto|discriminate E|discriminate E|discriminate E].
  - intros (f & E). apply for_each_ok. intros x _. rewrite E. reflexivity.
Qed.
Lemma bench_contains_iff {F} (build : list Z -> res F) contains iters keys key :
  (forall f, build keys = Ok f -> exists b, contains f key = Ok b) ->
  (bench_contains build contains iters keys key = Ok tt <-> exists f, build keys = Ok f).
Proof.
  intros T. unfold bench_contains. split.
  - intros E. apply bind_Ok in E as (f & E & _). exists f. destruct (build keys); cbn [unwrap] in E; congruence.
  - intros (f & E). rewrite E. cbn [unwrap bind]. apply for_each_ok. intros x _. destruct (T f E) as (b & ->). reflexivity.
Qed.

(** @C80 the four benchmarks of the filter crate run to the end, whatever keys they draw and
    however often they repeat the measured call, exactly when the filter of the half million drawn
    keys can be built: the measured lookups never panic, for any looked-up key. *)
Lemma filter_benchmarks : forall w dbg draw key iters, (0 < iters)%nat -> let keys := drawn BENCH_SAMPLE draw in
  (forall tries,
     (bench_from (xor_from tries w dbg) iters keys = Ok tt <-> exists f, xor_from tries w dbg keys = Ok f) /\
     (bench_contains (xor_from tries w dbg) (xor_contains w dbg) iters keys key = Ok tt <-> exists f, xor_from tries w dbg keys = Ok f)) /\
  (forall rnd probes, (forall i, fuse_probes dbg (fuse_segment_length (List.length keys)) (retry_seed i) (probes i)) ->
     let built := NoDup keys /\ exists i, (i < Z.to_nat 1000)%nat /\ peelable (probes i) keys in
     (bench_from (fuse_try_from w dbg rnd) iters keys = Ok tt <-> built) /\
     (bench_contains (fuse_try_from w dbg rnd) (fuse_contains w dbg) iters keys key = Ok tt <-> built)).
Proof.
  intros w dbg draw key iters Hi keys.
  assert (HN : Z.of_nat (List.length keys) = 500000).
  { unfold keys. rewrite drawn_length. unfold BENCH_SAMPLE. apply Z2Nat.id. discriminate. }
  assert (H32 : Z.of_nat (List.length keys) < 2 ^ 32) by (rewrite HN; reflexivity).
  assert (H90 : (90 <= List.length keys)%nat).
  { clear - HN. generalize dependent (List.length keys). intros. lia. }
  clearbody keys. split.
  - intros tries. split; [now apply bench_from_iff|]. apply bench_contains_iff. intros f E. exact (xor_total _ _ _ _ _ H32 E key).
  - intros rnd probes Hp built. unfold built. rewrite <- (fuse_ok_iff w dbg rnd keys probes H32 H90 Hp).
    split; [now apply bench_from_iff|]. apply bench_contains_iff. intros f E. exact (fuse_total _ _ _ _ _ H32 H90 E key).
Qed.

Lemma drawn_all keys n : List.length keys = n -> drawn n (fun i => nth i keys 0) = keys.
Proof. intros <-. apply map_nth_seq. Qed.

(** @C80 none of this is vacuous: for each of the six names there are draws of a million distinct
    u64 keys on which the program prints, in both profiles and with every random fill. *)
Lemma analysis_can_print : forall log name, reasonable_log log -> In name filter_names ->
  exists draw, NoDup (drawn SIZE draw) /\ Forall is_u64 (drawn SIZE draw) /\
    forall dbg rnd, exists out, analysis_main dbg (f64_estimates log) 1 rnd draw [name] = Ok out.
Proof.
  intros log name HL I. assert (HN : Z.of_nat SIZE = 1000000) by (apply million; reflexivity).
  assert (H32 : Z.of_nat SIZE < 2 ^ 32) by (rewrite HN; reflexivity).
  assert (HM : Z.of_nat SIZE <= max_keys) by (rewrite HN; discriminate).
  assert (HF : fuse_size_possible (Z.of_nat SIZE)) by (rewrite HN; apply fuse_size_example).
  unfold filter_names in I. apply in_map_iff in I as ((n' & w) & EN & I). cbn [fst] in EN. subst n'.
  apply in_app_or in I as [I|I]; [|apply in_app_or in I as [I|I]].
  - destruct (bfuse_size_built log SIZE HL HM) as (keys & L & ND & HU & K). exists (fun i => nth i keys 0).
    rewrite (drawn_all _ _ L). split; [exact ND|]. split; [exact HU|]. intros dbg rnd.
    rewrite <- (app_nil_l [name]), (main_bfuse _ _ _ _ _ _ _ _ I), run_iff, (drawn_all _ _ L).
    apply (K (Z.to_nat 1000) w dbg rnd). clear. lia.
  - destruct (fuse_size_built SIZE H32 HF) as (keys & L & ND & HU & K). exists (fun i => nth i keys 0).
    rewrite (drawn_all _ _ L). split; [exact ND|]. split; [exact HU|]. intros dbg rnd.
    rewrite <- (app_nil_l [name]), (main_fuse _ _ _ _ _ _ _ _ I), run_iff, (drawn_all _ _ L). apply K.
  - destruct (xor_size_built SIZE H32) as (keys & L & ND & HU & K). exists (fun i => nth i keys 0).
    rewrite (drawn_all _ _ L). split; [exact ND|]. split; [exact HU|]. intros dbg rnd.
    rewrite <- (app_nil_l [name]), (main_xor _ _ _ _ _ _ _ _ I), run_iff, (drawn_all _ _ L). apply K.
Qed.

(** @C80 concrete runs: unknown names and a missing argument; a plot from equal draws. *)
Example analysis_example : forall dbg fe tries rnd draw,
  analysis_main dbg fe tries rnd draw ["zeroes"; "Xor8"; "BinaryFuse32"]%string = Panic /\
  analysis_main dbg fe tries rnd draw ["zeroes"]%string = Panic /\ analysis_main dbg fe tries rnd draw [] = Panic /\
  plot_zeroes dbg fe tries rnd draw ["Xor32"]%string = PExit1 /\ plot_zeroes dbg fe tries rnd draw [] = PExit1 /\
  plot_zeroes dbg fe tries rnd (fun _ => 7) ["Fuse16"; "ignored"]%string = PPlot [].
Proof.
  intros dbg fe tries rnd draw. repeat (split; [reflexivity|]).
  apply (plot_failure_refuted dbg fe tries rnd (fun _ => 7) "Fuse16"%string 16%nat ["ignored"]%string); [right; left; reflexivity|].
  apply drawn_const. unfold SIZE. clear. lia.
Qed.
