(** Claims about Xor8/16/32: membership, construction, duplicates, size. *)
From Coq Require Import Permutation.
From Verif Require Import Base Hash Xorf Float64 Xor Fuse SpecFilter SpecXorf SpecXor Base_facts HashInj_facts
  Peel_facts KeyPeel_facts HSet_facts Bfuse_facts Xor_facts Float_facts.
Local Open Scope Z_scope.

Lemma xor_bl_bounds n : Z.of_nat n < 2 ^ 32 ->
  123 * Z.of_nat n + 2900 <= 300 * Z.of_nat (xor_block_length n) <= 123 * Z.of_nat n + 3200.
Proof.
  intros Hn. pose proof (trunc_1_23 n Hn) as T. cbv zeta in T.
  unfold xor_block_length, xor_capacity. rewrite Nat.div_mul by lia.
  set (v := f64_to_usize (f64_mul f_1_23 (f64_of_usize n))) in *. clearbody v.
  pose proof (Nat.div_mod_eq (v + 32) 3) as D. pose proof (Nat.mod_upper_bound (v + 32) 3 ltac:(lia)) as M.
  lia.
Qed.
Lemma xor_bl_small n : Z.of_nat n < 2 ^ 32 -> Z.of_nat (xor_block_length n) < two32.
Proof. intros Hn. pose proof (xor_bl_bounds n Hn). unfold two32. lia. Qed.

Lemma xor_hset_xpos dbg bl h : Z.of_nat bl < two32 ->
  xor_hset dbg h bl = Ok [xpos bl 0 h; xpos bl 1 h; xpos bl 2 h].
Proof. intros H. unfold xor_hset. cbn [seq mapM]. rewrite !xor_h_eq by auto. reflexivity. Qed.
Lemma xfl0 bl h : xfl bl 0 h = xpos bl 0 h. Proof. unfold xfl. lia. Qed.
Lemma xfl1 bl h : xfl bl 1 h = (xpos bl 1 h + bl)%nat. Proof. unfold xfl. lia. Qed.
Lemma xfl2 bl h : xfl bl 2 h = (xpos bl 2 h + 2 * bl)%nat. Proof. unfold xfl. lia. Qed.
Lemma xor_probes_slots dbg bl seed slots : Z.of_nat bl < two32 -> xor_probes dbg bl seed slots ->
  forall key, slots key = [xfl bl 0 (mix key seed); xfl bl 1 (mix key seed); xfl bl 2 (mix key seed)].
Proof.
  intros H P key. destruct (P key) as (a & b & c & E & ->). rewrite xor_hset_xpos in E by auto.
  injection E as <- <- <-. rewrite xfl0, xfl1, xfl2. reflexivity.
Qed.
Lemma xfl_probes dbg bl seed : Z.of_nat bl < two32 -> xor_probes dbg bl seed
  (fun key => [xfl bl 0 (mix key seed); xfl bl 1 (mix key seed); xfl bl 2 (mix key seed)]).
Proof.
  intros H key. do 3 eexists. split; [apply xor_hset_xpos; auto|]. rewrite xfl0, xfl1, xfl2. reflexivity.
Qed.
Lemma xor_dbg_distinct tries w keys f : xor_from tries w true keys = Ok f -> NoDup keys.
Proof.
  unfold xor_from. destruct (all_distinct64 keys) eqn:E; [|discriminate]. intros _. now apply all_distinct64_nodup.
Qed.
Lemma xor_link dbg bl seed slots keys : Z.of_nat bl < two32 -> xor_probes dbg bl seed slots ->
  peelable slots keys <-> peels (xfl bl 0) (xfl bl 1) (xfl bl 2) (xhs keys seed).
Proof.
  intros H P. apply (link_peelable (xfl bl 0) (xfl bl 1) (xfl bl 2) Z (fun key => mix key seed)).
  apply (xor_probes_slots dbg); auto.
Qed.

(** ** C45 *)

(** @C45 every key given to a construction that returns is reported as contained, for every
    fingerprint width and in both build profiles (also when the filter is built in one
    profile and queried in the other). *)
Lemma xor_no_false_negatives : forall w dbg keys f, Z.of_nat (length keys) < 2 ^ 32 ->
  xor_returns w dbg keys f ->
  forall dbg' key, In key keys -> xor_contains w dbg' f key = Ok true.
Proof.
  intros w dbg keys f Hn [mi E] dbg' key Hk. pose proof (xor_bl_small _ Hn) as Hbl.
  assert (HD : dbg = true -> NoDup keys) by (intros ->; eapply xor_dbg_distinct; eauto).
  destruct (xor_construct dbg keys Hbl Hn mi w HD) as [(i & fps & Hi & L & P & S & _ & EE)|[EE _]];
    rewrite EE in E; [|discriminate E].
  injection E as <-. rewrite xor_contains_x3; auto; [|apply xor_bl_pos0].
  f_equal. apply Z.eqb_eq. symmetry. auto.
Qed.

(** @C45 with distinct keys the outcome after any number of attempts is determined: the
    filter uses the first seed of the sequence under which the keys are peelable, or the
    construction is still running because none of the seeds tried so far is. It never
    panics and never returns an error. *)
Lemma xor_construct_iff : forall tries w dbg keys probes, Z.of_nat (length keys) < 2 ^ 32 -> NoDup keys ->
  (forall i, xor_probes dbg (xor_block_length (length keys)) (retry_seed i) (probes i)) ->
  (exists i f, (i < tries)%nat /\ xor_from tries w dbg keys = Ok f /\ xf_seed f = retry_seed i /\
     peelable (probes i) keys /\ forall j, (j < i)%nat -> ~ peelable (probes j) keys) \/
  (xor_from tries w dbg keys = Hang /\ forall i, (i < tries)%nat -> ~ peelable (probes i) keys).
Proof.
  intros mi w dbg keys probes Hn ND Hpr. pose proof (xor_bl_small _ Hn) as Hbl.
  assert (LK := fun i => xor_link dbg _ _ (probes i) keys Hbl (Hpr i)).
  destruct (xor_construct dbg keys Hbl Hn mi w (fun _ => ND)) as [(i & fps & Hi & L & P & S & NP & EE)|[EE NP]].
  - left. exists i. eexists. split; [exact Hi|]. split; [exact EE|]. split; [reflexivity|].
    split; [apply LK, P|]. intros j Hj. rewrite LK. auto.
  - right. split; [exact EE|]. intros i Hi. rewrite LK. auto.
Qed.

(** @C45 construction from distinct keys returns exactly when some u64 seed makes the keys
    peelable; otherwise it never returns. *)
Lemma xor_terminates_iff : forall w dbg keys, Z.of_nat (length keys) < 2 ^ 32 -> NoDup keys ->
  ((exists f, xor_returns w dbg keys f) <->
   exists seed slots, is_u64 seed /\ xor_probes dbg (xor_block_length (length keys)) seed slots /\ peelable slots keys) /\
  (~ (exists f, xor_returns w dbg keys f) -> xor_never_returns w dbg keys).
Proof.
  intros w dbg keys Hn ND. pose proof (xor_bl_small _ Hn) as Hbl.
  set (pr := fun seed key => [xfl (xor_block_length (length keys)) 0 (mix key seed); xfl (xor_block_length (length keys)) 1 (mix key seed); xfl (xor_block_length (length keys)) 2 (mix key seed)]).
  assert (Hpr : forall seed, xor_probes dbg (xor_block_length (length keys)) seed (pr seed)) by (intros; apply xfl_probes; auto).
  assert (C := fun tries => xor_construct_iff tries w dbg keys (fun i => pr (retry_seed i)) Hn ND (fun i => Hpr (retry_seed i))).
  split.
  - split.
    + intros (f & tries & E). destruct (C tries) as [(i & f' & Hi & E' & _ & P & _)|[E' _]]; [|congruence].
      exists (retry_seed i), (pr (retry_seed i)). split; [|auto].
      apply seed_from_u64.
    + intros (seed & slots & Hu & P & Pe).
      destruct (seed_from_surj 1 seed Hu) as (i & _ & Ei).
      destruct (C (S i)) as [(i' & f' & Hi & E' & _ & P' & _)|[E' NP]]; [exists f', (S i); exact E'|].
      exfalso. apply (NP i); [lia|]. cbv beta. unfold retry_seed. rewrite Ei.
      apply (xor_link dbg _ seed _ keys Hbl (Hpr seed)). apply (xor_link dbg _ seed slots keys Hbl P). exact Pe.
  - intros N tries. destruct (C tries) as [(i & f & _ & E & _)|[E _]]; [|exact E].
    exfalso. apply N. exists f, tries. exact E.
Qed.

(** @C45 more attempts never change a result that was already obtained. *)
Lemma xor_result_stable : forall w dbg keys f f', xor_returns w dbg keys f -> xor_returns w dbg keys f' -> f = f'.
Proof.
  assert (ML : forall dbg keys t t' rng seed x, (t <= t')%nat -> xor_loop t dbg keys rng seed = Ok x -> xor_loop t' dbg keys rng seed = Ok x).
  { intros dbg keys t. induction t as [|t IH]; intros t' rng seed x Hle E; [discriminate E|].
    destruct t' as [|t']; [lia|]. cbn [xor_loop] in *. destruct (xor_attempt dbg keys seed) as [st| | |]; cbn [bind] in *; try discriminate E.
    destruct (length st =? length keys)%nat; [exact E|]. destruct (splitmix64 rng). apply IH; [lia|exact E]. }
  assert (MF : forall w dbg keys t t' f, (t <= t')%nat -> xor_from t w dbg keys = Ok f -> xor_from t' w dbg keys = Ok f).
  { intros w dbg keys t t' f Hle. unfold xor_from. destruct (dbg && negb (all_distinct64 keys)); [auto|].
    destruct (splitmix64 1) as [rng seed]. destruct (xor_loop t dbg keys rng seed) as [x| | |] eqn:E; cbn [bind]; try discriminate.
    rewrite (ML _ _ _ _ _ _ _ Hle E). auto. }
  intros w dbg keys f f' [t E] [t' E']. destruct (Nat.le_ge_cases t t') as [L|L].
  - pose proof (MF _ _ _ _ _ _ L E). congruence.
  - pose proof (MF _ _ _ _ _ _ L E'). congruence.
Qed.

(** @C45 a single key is always stored by the very first attempt. *)
Lemma xor_single_key : forall w dbg key, exists f, xor_from 1 w dbg [key] = Ok f /\ xf_seed f = retry_seed 0.
Proof.
  intros w dbg key. assert (Hn : Z.of_nat (length [key]) < 2 ^ 32) by reflexivity. pose proof (xor_bl_small _ Hn) as Hbl.
  assert (ND : NoDup [key]) by (constructor; [intros []|constructor]).
  destruct (xor_construct_iff 1 w dbg [key] (fun i key => [xfl (xor_block_length 1) 0 (mix key (retry_seed i)); xfl (xor_block_length 1) 1 (mix key (retry_seed i)); xfl (xor_block_length 1) 2 (mix key (retry_seed i))]) Hn ND (fun i => xfl_probes dbg _ _ Hbl)) as
    [(i & f & Hi & E & S & _)|[_ N]].
  - exists f. split; [exact E|]. assert (i = 0%nat) as -> by lia. exact S.
  - exfalso. apply (N 0%nat); [lia|]. eapply peelable_take; [apply Permutation_refl|left; reflexivity|intros k' []|constructor].
Qed.

(** @C45 *)
Example xor_example : exists f,
  xor_from 3 8 true [1; 2; 3; 4; 5; 6] = Ok f /\ xor_from 3 8 false [1; 2; 3; 4; 5; 6] = Ok f /\
  NoDup [1; 2; 3; 4; 5; 6] /\ length (xf_fingerprints f) = 39%nat /\
  xor_contains 8 true f 3 = Ok true /\ xor_contains 8 true f 7 = Ok false.
Proof.
  assert (exists f, xor_from 3 8 true [1; 2; 3; 4; 5; 6] = Ok f) as [f E] by (eexists; vm_compute; reflexivity).
  exists f. split; [exact E|]. vm_compute in E. injection E as <-.
  split; [vm_compute; reflexivity|]. split; [repeat constructor; cbn [In]; lia|].
  split; [reflexivity|]. split; vm_compute; reflexivity.
Qed.

(** ** C46 *)

(** @C46 a repeated key makes a release-mode construction run for ever, and a debug-mode
    construction panic. *)
Lemma xor_duplicates : forall w keys, Z.of_nat (length keys) < 2 ^ 32 -> ~ NoDup keys ->
  xor_never_returns w false keys /\ forall tries, xor_from tries w true keys = Panic.
Proof.
  intros w keys Hn ND. pose proof (xor_bl_small _ Hn) as Hbl. split.
  - intros mi. destruct (xor_construct false keys Hbl Hn mi w) as [(i & fps & Hi & L & P & _)|[EE _]]; [discriminate| |exact EE].
    exfalso. apply ND. apply apeels_nodup in P. unfold xhs in P. now apply NoDup_map_inv in P.
  - intros mi. unfold xor_from. destruct (all_distinct64 keys) eqn:E; [|reflexivity].
    exfalso. now apply ND, all_distinct64_nodup.
Qed.

(** @C46 *)
Example xor_duplicates_example : ~ NoDup [1; 2; 1] /\ xor_from 20 8 false [1; 2; 1] = Hang /\
  exists f, xor_from 20 8 false [1; 2; 3] = Ok f.
Proof.
  split; [intros N; inversion N; cbn [In] in *; tauto|]. split; [vm_compute; reflexivity|].
  eexists. vm_compute. reflexivity.
Qed.

(** ** C56 *)

(** @C56 the number of fingerprints is a multiple of three, at most 1.23 n + 32 and at
    least 1.23 n + 29, for every key count n below 2^32 (the capacity is computed with
    rounded binary64 arithmetic). *)
Lemma xor_size : forall w dbg keys f, Z.of_nat (length keys) < 2 ^ 32 -> xor_returns w dbg keys f ->
  let n := Z.of_nat (length keys) in let len := Z.of_nat (length (xf_fingerprints f)) in
  123 * n + 2900 <= 100 * len <= 123 * n + 3200 /\ len = 3 * Z.of_nat (xf_block_length f).
Proof.
  intros w dbg keys f Hn [mi E]. cbv zeta. pose proof (xor_bl_small _ Hn) as Hbl. pose proof (xor_bl_bounds _ Hn) as B.
  assert (HD : dbg = true -> NoDup keys) by (intros ->; eapply xor_dbg_distinct; eauto).
  destruct (xor_construct dbg keys Hbl Hn mi w HD) as [(i & fps & Hi & L & P & S & _ & EE)|[EE _]];
    rewrite EE in E; [|discriminate E].
  injection E as <-. cbn [xf_fingerprints xf_block_length]. rewrite L. lia.
Qed.

(** @C56 with 1600 keys or more an XorN filter uses less than 1.25 N bits per key, which is
    the documented 10, 20 and 40 bits per entry of Xor8, Xor16 and Xor32. *)
Lemma xor_bits_per_entry : forall (w : nat) dbg keys f, Z.of_nat (length keys) < 2 ^ 32 -> (1600 < length keys)%nat ->
  (0 < w)%nat -> xor_returns w dbg keys f ->
  (4 * (w * length (xf_fingerprints f)) < 5 * (w * length keys))%nat.
Proof.
  intros w dbg keys f Hn H1600 Hw R. destruct (xor_size w dbg keys f Hn R) as [B _].
  assert (4 * length (xf_fingerprints f) < 5 * length keys)%nat by lia. nia.
Qed.

(** @C56 the documented bound does not hold for small sets: with 1 to 1000 keys an Xor8
    filter always takes more than 10 bits per key. *)
Lemma xor_small_sets_refuted : forall w dbg keys f, (1 <= length keys <= 1000)%nat -> (0 < w)%nat ->
  xor_returns w dbg keys f ->
  (5 * (w * length keys) < 4 * (w * length (xf_fingerprints f)))%nat.
Proof.
  intros w dbg keys f H1000 Hw R. destruct (xor_size w dbg keys f) as [B _]; auto; [lia|].
  assert (5 * length keys < 4 * length (xf_fingerprints f))%nat by lia. nia.
Qed.
