(** C76: the filter crate's own tests. *)
From Coq Require Import Floats.SpecFloat.
From Verif Require Import Base Hash Xorf Float64 Estimate Fuse3 Bfusep Bfuse Xor Fuse HashProxy Tests XorfTests SpecFilter SpecXorf SpecXor SpecEst Claims_fuse Claims_fusebig Base_facts HashInj_facts Float_facts Estimate_facts KeyPeel_facts Xor_facts Fuse_facts Bfuse_facts Geom_facts FilterTop_facts Claims_xor Claims_xorf Claims_filter Claims_tests Claims_estimate.
Local Open Scope Z_scope.

(** ** Generic outcomes *)
Lemma init_test_ok {F} (build : list Z -> res F) contains keys :
  (forall f key, build keys = Ok f -> In key keys -> contains f key = Ok true) ->
  (init_test build contains keys = Ok tt <-> exists f, build keys = Ok f).
Proof.
  intros H. unfold init_test. split.
  - intros E. apply bind_Ok in E as (f & E & _). exists f. destruct (build keys); cbn [unwrap] in E; congruence.
  - intros (f & E). rewrite E. cbn [unwrap bind]. apply for_each_ok. intros key Hk. rewrite (H f key E Hk). reflexivity.
Qed.

Lemma bpe_test_ok {F} (build : list Z -> res F) len width bound keys :
  (forall f, build keys = Ok f -> SFltb (bits_per_entry (len f) width (length keys)) bound = true) ->
  (bpe_test build len width bound keys = Ok tt <-> exists f, build keys = Ok f).
Proof.
  intros H. unfold bpe_test. split.
  - intros E. apply bind_Ok in E as (f & E & _). exists f. destruct (build keys); cbn [unwrap] in E; congruence.
  - intros (f & E). rewrite E. cbn [unwrap bind]. rewrite (H f E). reflexivity.
Qed.

(** The bounds of the three tests, by fingerprint width. *)
Definition xor_bounds : list (nat * f64) := [(8, f_10); (16, f_20); (32, f_40)]%nat.
Definition fuse_bounds : list (nat * f64) := [(8, f_9_101); (16, f_18_202); (32, f_36_404)]%nat.
Definition bfuse_bounds : list (nat * f64) := [(8, f_9_1); (16, f_18_1); (32, f_36_2)]%nat.

Lemma bpe_at (len : nat) (n : nat) L bounds : Z.of_nat len = L -> n = Z.to_nat 1000000 ->
  forallb (fun '(w, b) => SFltb (f64_div (f64_mul (binary_normalize 53 1024 L 0 false) (f64_of_usize w))
                                        (binary_normalize 53 1024 1000000 0 false)) b) bounds = true ->
  forall w b, In (w, b) bounds -> SFltb (bits_per_entry len w n) b = true.
Proof.
  intros HL Hn H w b Hin. rewrite forallb_forall in H. specialize (H _ Hin). cbv beta iota in H.
  unfold bits_per_entry. unfold f64_of_usize at 1 3. rewrite HL, Hn, Z2Nat.id by lia. exact H.
Qed.

Lemma million n : n = Z.to_nat 1000000 -> Z.of_nat n = 1000000.
Proof. intros ->. rewrite Z2Nat.id; lia. Qed.

(** ** Xor *)
(** @C76 [test_initialization] of [Xor8], [Xor16] and [Xor32], whatever keys were drawn: it passes
    exactly when the keys are distinct and some u64 seed makes them peelable. It never fails
    because a key is missing. *)
Lemma xor_init_test_iff : forall w dbg keys, Z.of_nat (length keys) < 2 ^ 32 ->
  ((exists tries, init_test (xor_from tries w dbg) (xor_contains w dbg) keys = Ok tt) <->
   NoDup keys /\ exists seed slots, is_u64 seed /\ xor_probes dbg (xor_block_length (length keys)) seed slots /\ peelable slots keys).
Proof.
  intros w dbg keys Hn.
  assert (K : (exists tries, init_test (xor_from tries w dbg) (xor_contains w dbg) keys = Ok tt) <-> exists f, xor_returns w dbg keys f).
  { assert (G : forall tries, init_test (xor_from tries w dbg) (xor_contains w dbg) keys = Ok tt <-> exists f, xor_from tries w dbg keys = Ok f).
    { intros tries. apply init_test_ok. intros f key E Hk. apply (xor_no_false_negatives w dbg keys f Hn); [now exists tries|exact Hk]. }
    split.
    - intros (t & E). apply G in E as (f & E). exists f, t. exact E.
    - intros (f & t & E). exists t. apply G. now exists f. }
  rewrite K. split.
  - intros (f & t & E). assert (ND : NoDup keys).
    { destruct (all_distinct64 keys) eqn:D; [now apply all_distinct64_nodup|exfalso].
      assert (~ NoDup keys) by (intros X; apply all_distinct64_nodup in X; congruence).
      destruct (xor_duplicates w keys Hn H) as [A B]. destruct dbg; [rewrite B in E|rewrite A in E]; discriminate. }
    split; [exact ND|]. apply (xor_terminates_iff w dbg keys Hn ND). now exists f, t.
  - intros [ND X]. apply (xor_terminates_iff w dbg keys Hn ND). exact X.
Qed.

(** @C76 [test_bits_per_entry] of the three Xor filters passes whenever the construction returns. *)
Lemma xor_bpe_test_iff : forall w bound tries dbg keys, In (w, bound) xor_bounds -> length keys = SAMPLE_SIZE ->
  (bpe_test (xor_from tries w dbg) (fun f => length (xf_fingerprints f)) w bound keys = Ok tt <->
   exists f, xor_from tries w dbg keys = Ok f).
Proof.
  intros w bound tries dbg keys Hw Hn. apply bpe_test_ok. intros f E. pose proof (million _ Hn) as Hz.
  destruct (xor_size w dbg keys f ltac:(lia) (ex_intro _ tries E)) as [B D]. rewrite Hz in B.
  apply (bpe_at _ _ 1230030 xor_bounds); [lia|exact Hn|vm_compute; reflexivity|exact Hw].
Qed.

(** ** Fuse *)
Lemma fuse_ok_iff : forall w dbg rnd keys probes, Z.of_nat (length keys) < 2 ^ 32 -> (90 <= length keys)%nat ->
  (forall i, fuse_probes dbg (fuse_segment_length (length keys)) (retry_seed i) (probes i)) ->
  ((exists f, fuse_try_from w dbg rnd keys = Ok f) <->
   NoDup keys /\ exists i, (i < Z.to_nat 1000)%nat /\ peelable (probes i) keys).
Proof.
  intros w dbg rnd keys probes Hn H90 Hp. unfold fuse_try_from. split.
  - intros (f & E).
    assert (ND : NoDup keys).
    { destruct dbg; [eapply fuse_dbg_distinct; eauto|].
      pose proof (fuse_sl_small _ Hn) as Hsl. pose proof (fuse_sl_bounds _ Hn) as B.
      assert (Hsl0 : (0 < fuse_segment_length (length keys))%nat) by lia.
      destruct (fuse_construct false keys Hsl0 Hsl Hn (Z.to_nat 1000) w rnd) as [(i & fps & _ & _ & P & _)|[EE _]]; [discriminate| |rewrite EE in E; discriminate].
      apply apeels_nodup in P. unfold fhs in P. now apply NoDup_map_inv in P. }
    split; [exact ND|].
    destruct (fuse_construct_iff (Z.to_nat 1000) w dbg rnd keys probes Hn H90 ND Hp) as [(i & f' & Hi & _ & _ & P & _)|[EE _]]; [eauto|congruence].
  - intros (ND & i & Hi & P).
    destruct (fuse_construct_iff (Z.to_nat 1000) w dbg rnd keys probes Hn H90 ND Hp) as [(i' & f & _ & E & _)|[_ N]]; [eauto|].
    exfalso. exact (N i Hi P).
Qed.

(** @C76 [test_initialization] of [Fuse8], [Fuse16] and [Fuse32] passes exactly when the keys
    are distinct and one of the thousand seeds makes them peelable. *)
Lemma fuse_init_test_iff : forall w dbg rnd keys probes, Z.of_nat (length keys) < 2 ^ 32 -> (90 <= length keys)%nat ->
  (forall i, fuse_probes dbg (fuse_segment_length (length keys)) (retry_seed i) (probes i)) ->
  (init_test (fuse_try_from w dbg rnd) (fuse_contains w dbg) keys = Ok tt <->
   NoDup keys /\ exists i, (i < Z.to_nat 1000)%nat /\ peelable (probes i) keys).
Proof.
  intros w dbg rnd keys probes Hn H90 Hp. rewrite init_test_ok; [now apply fuse_ok_iff|].
  intros f key E Hk. exact (fuse_no_false_negatives _ w dbg rnd keys f Hn E dbg key Hk).
Qed.

(** @C76 [test_bits_per_entry] of the three Fuse filters passes whenever the construction
    succeeds: a million keys get 1137606 slots, 9.100848 bits per 8-bit entry. *)
Lemma fuse_bpe_test_iff : forall w bound dbg rnd keys, In (w, bound) fuse_bounds -> length keys = SAMPLE_SIZE ->
  (bpe_test (fuse_try_from w dbg rnd) (fun f => length (ff_fingerprints f)) w bound keys = Ok tt <->
   exists f, fuse_try_from w dbg rnd keys = Ok f).
Proof.
  intros w bound dbg rnd keys Hw Hn. apply bpe_test_ok. intros f E. pose proof (million _ Hn) as Hz.
  destruct (fuse_size _ w dbg rnd keys f ltac:(lia) ltac:(lia) E) as [B D]. rewrite Hz in B.
  apply (bpe_at _ _ 1137606 fuse_bounds); [lia|exact Hn|vm_compute; reflexivity|exact Hw].
Qed.

(** @C76 [test_fail_construction] of the three Fuse filters passes exactly when the construction
    of a filter from the drawn keys fails on all thousand seeds. *)
Lemma fuse_fail_test_iff : forall w dbg rnd keys probes, Z.of_nat (length keys) < 2 ^ 32 -> (90 <= length keys)%nat ->
  (forall i, fuse_probes dbg (fuse_segment_length (length keys)) (retry_seed i) (probes i)) -> NoDup keys ->
  (fail_test (fuse_try_from w dbg rnd) keys = Ok tt <->
   forall i, (i < Z.to_nat 1000)%nat -> ~ peelable (probes i) keys).
Proof.
  intros w dbg rnd keys probes Hn H90 Hp ND. unfold fail_test, fuse_try_from.
  destruct (fuse_construct_iff (Z.to_nat 1000) w dbg rnd keys probes Hn H90 ND Hp) as [(i & f & Hi & E & _ & P & _)|[E N]]; rewrite E.
  - split; [discriminate|]. intros X. exfalso. exact (X i Hi P).
  - split; auto.
Qed.

(** ** A thousand keys that fit *)
Definition fit_hash (i : Z) : Z := (i / 11 * 20972 + 1) * 2048 + i mod 11 * 187.
Definition fit_keys : list Z := map (fun i => unmix (fit_hash (Z.of_nat i)) (retry_seed 0)) (seq 0 (Z.to_nat 1000)).

Fixpoint fit_check (fuel : nat) (i : Z) : bool :=
  match fuel with
  | O => true
  | S f => (fs1z 11 (fit_hash i) =? i) && fit_check f (i + 1)
  end.
Lemma fit_check_ok : forall fuel i, fit_check fuel i = true ->
  forall j, i <= j < i + Z.of_nat fuel -> fs1z 11 (fit_hash j) = j.
Proof.
  induction fuel as [|f IH]; intros i H j Hj; [lia|]. cbn [fit_check] in H. apply andb_prop in H. destruct H as [H1 H2].
  destruct (Z.eq_dec j i) as [->|Hne]; [now apply Z.eqb_eq|]. apply (IH (i + 1) H2). lia.
Qed.
Lemma fit_checked : fit_check (Z.to_nat 1000) 0 = true.
Proof. vm_compute. reflexivity. Qed.
Lemma fit_hash_u64 : forall i, 0 <= i < 1000 -> is_u64 (fit_hash i).
Proof.
  intros i Hi. unfold fit_hash, is_u64, two64.
  assert (0 <= i / 11 < 91) by (split; [apply Z.div_pos; lia|apply Z.div_lt_upper_bound; lia]).
  pose proof (Z.mod_pos_bound i 11 ltac:(lia)). lia.
Qed.
Lemma fit_hashes : fhs fit_keys (retry_seed 0) = map (fun i => fit_hash (Z.of_nat i)) (seq 0 (Z.to_nat 1000)).
Proof.
  unfold fhs, fit_keys. rewrite map_map. apply map_ext_in. intros i Hi. apply in_seq in Hi.
  apply mix_unmix. apply fit_hash_u64. lia.
Qed.
Lemma fit_peels : forall sl, sl = 11%nat -> Peel_facts.peels (fs1 sl) (fs2 sl) (fs3 sl) (fhs fit_keys (retry_seed 0)).
Proof.
  intros sl ->. rewrite fit_hashes. apply (ascending_peels 11 (fun i => fit_hash (Z.of_nat i))); [lia|].
  intros i Hi. rewrite fs1_z. change (Z.of_nat 11) with 11. rewrite (fit_check_ok _ _ fit_checked) by lia. apply Nat2Z.id.
Qed.
Lemma fit_length : length fit_keys = Z.to_nat 1000.
Proof. unfold fit_keys. now rewrite map_length, seq_length. Qed.
Lemma fit_nodup : NoDup fit_keys.
Proof. pose proof (apeels_nodup _ _ _ _ (fit_peels 11%nat eq_refl)) as P. unfold fhs in P. now apply NoDup_map_inv in P. Qed.
Lemma unmix_u64 h seed : is_u64 (unmix h seed).
Proof. unfold unmix. apply Z.mod_pos_bound. reflexivity. Qed.

(** @C76 refuted: that test is not safe, since it draws its keys at random: there are a thousand
    distinct u64 keys for which a filter is built in both profiles, with every fingerprint width
    and random fill, and the test fails. *)
Lemma fuse_fail_test_refuted : exists keys, length keys = Z.to_nat 1000 /\ NoDup keys /\ Forall is_u64 keys /\
  forall w dbg rnd, fail_test (fuse_try_from w dbg rnd) keys = Panic.
Proof.
  exists fit_keys. split; [exact fit_length|]. split; [exact fit_nodup|]. split.
  - apply Forall_forall. intros k Hk. unfold fit_keys in Hk. apply in_map_iff in Hk as (i & <- & _). apply unmix_u64.
  - intros w dbg rnd. unfold fail_test, fuse_try_from.
    assert (Hn : Z.of_nat (length fit_keys) < 2 ^ 32) by (rewrite fit_length; lia).
    assert (SL : fuse_segment_length (length fit_keys) = 11%nat) by (rewrite fit_length; vm_compute; reflexivity).
    pose proof (fuse_sl_small _ Hn) as Hsl. assert (Hsl0 : (0 < fuse_segment_length (length fit_keys))%nat) by lia.
    destruct (fuse_construct dbg fit_keys Hsl0 Hsl Hn (Z.to_nat 1000) w rnd (fun _ => fit_nodup)) as [(i & fps & _ & _ & _ & _ & _ & EE)|[_ N]].
    + rewrite EE. reflexivity.
    + exfalso. apply (N 0%nat); [lia|]. apply fit_peels. exact SL.
Qed.

(** ** False positives *)
(** The numbers of hits at which the three false-positive tests start to fail. *)
Definition fp_limits : list (nat * (f64 * nat)) :=
  [(8, (f_0_406, Z.to_nat 4060)); (16, (f_0_0025, 25)); (32, (f_1em16, 1))]%nat.

Lemma fin_large x v (b : positive) (e : Z) : fin x v -> e < -60 -> SFltb x (S754_finite false b e) = false.
Proof.
  intros (m & e' & -> & _ & He & _) Hb. unfold SFltb, SFcompare.
  destruct (Z.compare_spec e' e); [lia|lia|reflexivity].
Qed.

Definition fp_small (bound : f64) (lim : Z) : bool :=
  forallb (fun h => Bool.eqb (SFltb (f64_div (f64_of_usize (h * 100)) (binary_normalize 53 1024 1000000 0 false)) bound)
                        (Z.of_nat h <? lim)) (seq 0 200).
Lemma fp_small_ok : forallb (fun '(_, (b, l)) => fp_small b (Z.of_nat l)) fp_limits = true.
Proof. vm_compute. reflexivity. Qed.

Lemma fp_limit w bound lim hits n : In (w, (bound, lim)) fp_limits -> n = Z.to_nat 1000000 -> (hits <= n)%nat ->
  SFltb (fp_rate hits n) bound = (hits <? lim)%nat.
Proof.
  intros Hin Hn Hh. pose proof (million _ Hn) as Hz.
  assert (E1 : f64_of_usize n = binary_normalize 53 1024 1000000 0 false) by (unfold f64_of_usize; now rewrite Hz).
  unfold fp_rate. rewrite E1.
  assert (E2 : (hits <? lim)%nat = (Z.of_nat hits <? Z.of_nat lim)).
  { destruct (Nat.ltb_spec hits lim), (Z.ltb_spec (Z.of_nat hits) (Z.of_nat lim)); try reflexivity; lia. }
  rewrite E2. clear E2.
  destruct (Nat.lt_ge_cases hits 200) as [S|S].
  - pose proof fp_small_ok as K. rewrite forallb_forall in K. specialize (K _ Hin). cbv beta iota in K.
    unfold fp_small in K. rewrite forallb_forall in K. specialize (K hits). cbv beta in K.
    apply Bool.eqb_prop. apply K. apply in_seq. lia.
  - assert (Fh : fin (f64_of_usize (hits * 100)) (Z.of_nat (hits * 100) * 2 ^ 200)) by (apply usize_fin; lia).
    assert (Fn : fin (binary_normalize 53 1024 1000000 0 false) (1000000 * 2 ^ 200)).
    { rewrite <- E1. replace 1000000 with (Z.of_nat n). apply usize_fin; lia. }
    assert (H1 : 20000 <= Z.of_nat (hits * 100) <= 100000000) by lia.
    assert (H2 : Z.of_nat (hits * 100) = 100 * Z.of_nat hits) by lia.
    destruct (Nat.eq_dec hits (Z.to_nat 4060)) as [Eq|Ne].
    { clear - Hin Eq. cbn [In fp_limits] in Hin. unfold f64_of_usize.
      replace (Z.of_nat (hits * 100)) with 406000 by (rewrite Eq; lia). replace (Z.of_nat hits) with 4060 by (rewrite Eq; lia).
      destruct Hin as [H|[H|[H|[]]]]; pose proof (f_equal (fun x => fst (snd x)) H) as Hb; pose proof (f_equal (fun x => snd (snd x)) H) as Hl;
        cbn [fst snd] in Hb, Hl; rewrite <- Hb, <- Hl; vm_compute; reflexivity. }
    destruct (div_fin _ _ _ _ Fh Fn) as (z & Fz & Bz); [clear - H1; lia|clear - H1; lia|].
    cbn [In fp_limits] in Hin. destruct Hin as [H|[H|[H|[]]]]; pose proof (f_equal (fun x => fst (snd x)) H) as Hb; pose proof (f_equal (fun x => snd (snd x)) H) as Hl;
      cbn [fst snd] in Hb, Hl; rewrite <- Hb, <- Hl; clear Hb Hl H.
    + assert (Fb : fin f_0_406 (7313845794849686 * 2 ^ 146)).
      { exists 7313845794849686%positive, (-54). split; [reflexivity|]. split; [lia|]. split; [lia|reflexivity]. }
      rewrite (lt_fin _ _ _ _ Fz Fb).
      assert (N4 : Z.of_nat hits <> 4060) by lia. rewrite Z2Nat.id by lia.
      set (h := Z.of_nat hits) in *. rewrite H2 in Bz. clearbody h. clear - Bz N4.
      destruct (Z.ltb_spec h 4060) as [L|L].
      * apply Z.ltb_lt. lia.
      * apply Z.ltb_ge. lia.
    + unfold f_0_0025. rewrite (fin_large _ z _ _ Fz) by lia. symmetry. apply Z.ltb_ge. lia.
    + unfold f_1em16. rewrite (fin_large _ z _ _ Fz) by lia. symmetry. apply Z.ltb_ge. lia.
Qed.

(** Whether a lookup answers yes. *)
Definition yes (r : res bool) : bool := match r with Ok true => true | _ => false end.

Lemma fp_test_value {F} (build : list Z -> res F) contains w bound lim keys draws f :
  In (w, (bound, lim)) fp_limits -> length keys = SAMPLE_SIZE -> length draws = SAMPLE_SIZE ->
  build keys = Ok f -> (forall d, exists b, contains f d = Ok b) ->
  fp_test build contains bound keys draws =
  if (length (filter (fun d => yes (contains f d)) draws) <? lim)%nat then Ok tt else Panic.
Proof.
  intros Hin Hk Hd E T. unfold fp_test. rewrite E. cbn [unwrap bind].
  rewrite (mapM_Ok _ (fun d => yes (contains f d))).
  - cbn [bind].
    assert (X : length (filter (fun b => b) (map (fun d => yes (contains f d)) draws)) =
                length (filter (fun d => yes (contains f d)) draws)).
    { clear. induction draws as [|d l IH]; [reflexivity|]. cbn [map filter]. destruct (yes (contains f d)); cbn [length]; congruence. }
    rewrite X. rewrite (fp_limit w bound lim); [reflexivity|exact Hin|exact Hk|].
    rewrite Hk, <- Hd. clear. induction draws as [|d l IH]; [apply le_n|]. cbn [filter length]. destruct (yes (contains f d)); cbn [length]; lia.
  - intros d _. destruct (T d) as (b & ->). now destruct b.
Qed.

Lemma xor_total w dbg tries keys f : Z.of_nat (length keys) < 2 ^ 32 -> xor_from tries w dbg keys = Ok f ->
  forall d, exists b, xor_contains w dbg f d = Ok b.
Proof.
  intros Hn E d. pose proof (xor_bl_small _ Hn) as Hbl.
  assert (HD : dbg = true -> NoDup keys) by (intros ->; eapply xor_dbg_distinct; eauto).
  destruct (xor_construct dbg keys Hbl Hn tries w HD) as [(i & fps & Hi & L & P & S & _ & EE)|[EE _]];
    rewrite EE in E; [|discriminate E].
  injection E as <-. rewrite xor_contains_x3; [eauto|apply xor_bl_pos0|exact Hbl|exact L].
Qed.

Lemma fuse_total w dbg rnd keys f : Z.of_nat (length keys) < 2 ^ 32 -> (90 <= length keys)%nat ->
  fuse_try_from w dbg rnd keys = Ok f -> forall d, exists b, fuse_contains w dbg f d = Ok b.
Proof.
  intros Hn H90 E d. unfold fuse_try_from in E. pose proof (fuse_sl_small _ Hn) as Hsl. pose proof (fuse_sl_bounds _ Hn) as B.
  assert (Hsl0 : (0 < fuse_segment_length (length keys))%nat) by lia.
  assert (HD : dbg = true -> NoDup keys) by (intros ->; eapply fuse_dbg_distinct; eauto).
  destruct (fuse_construct dbg keys Hsl0 Hsl Hn (Z.to_nat 1000) w rnd HD) as [(i & fps & Hi & L & P & S & _ & EE)|[EE _]];
    rewrite EE in E; [|discriminate E].
  injection E as <-. rewrite fuse_contains_x3; eauto.
Qed.

(** What a release build needs of the keys (no slot is shared by more than 63 of them, under any of
    the thousand seeds); a debug build panics instead. *)
Definition light (dbg : bool) (fe : fest) (keys : list Z) : Prop :=
  dbg = true \/ forall g i slots j, geometry dbg fe (length keys) = Ok g -> (i < Z.to_nat 1000)%nat ->
    bf_probes dbg g (retry_seed i) slots -> (load slots keys j <= 63)%nat.

Lemma bfuse_ok_shape w dbg fe rnd keys f : sane_estimates fe (length keys) -> light dbg fe keys ->
  bfuse_try_from w dbg fe rnd keys = Ok f ->
  exists g, geometry dbg fe (length keys) = Ok g /\ bfuse_len f = g_arrlen g /\
    (forall d, exists b, bfuse_contains w dbg f d = Ok b) /\ forall key, In key keys -> bfuse_contains w dbg f key = Ok true.
Proof.
  intros Hs Hl E. destruct (geometry_shape dbg fe (length keys) Hs) as (g & _ & Eg & _).
  assert (Hl' : dbg = true \/ forall i slots, (i < Z.to_nat 1000)%nat -> bf_probes dbg g (retry_seed i) slots ->
                   forall j, (load slots keys j <= 63)%nat).
  { destruct Hl as [D|Hl]; [now left|right]. intros i slots Hi Hp j. exact (Hl g i slots j Eg Hi Hp). }
  exists g. split; [exact Eg|]. unfold bfuse_try_from in E.
  assert (NF := bfuse_no_false_negatives _ w dbg fe rnd keys g f Hs Eg Hl' E).
  destruct (geometry_valid _ _ _ _ Hs Eg) as [Hg _].
  assert (HD : dbg = true -> NoDup keys) by (intros ->; eapply bfuse_dbg_distinct; eauto).
  destruct (bfuse_construct (Z.to_nat 1000) w dbg fe rnd keys g Eg Hs HD) as
    [(i & fps & Hi & L & P & S & _ & _ & EE)|[(EE & _)|(i & Hi & HH & _ & HP)]].
  - rewrite EE in E. injection E as <-. split; [exact L|]. split; [|intros key Hk; now apply NF].
    intros d. rewrite x3_contains by auto. eauto.
  - rewrite EE in E. discriminate E.
  - exfalso. destruct dbg.
    + rewrite (HP eq_refl) in E. discriminate E.
    + destruct Hl' as [D|Hl']; [discriminate D|].
      set (slots := fun key => [sl1 g (mix key (retry_seed i)); sl2 g (mix key (retry_seed i)); sl3 g (mix key (retry_seed i))]).
      destruct (heavy_link g (retry_seed i) slots keys Hg (fun _ => eq_refl) HH) as [j Hj].
      assert (PR : bf_probes false g (retry_seed i) slots) by (apply sl_bf_probes; auto).
      specialize (Hl' i slots Hi PR j). lia.
Qed.

(** @C76 [test_false_positives] of the nine filters, whatever keys and numbers were drawn: once
    the filter is built, the test passes exactly when fewer than 4060 (8 bits), 25 (16 bits) or 1
    (32 bits) of the million numbers are found; the comparison of rounded percentages is exact. *)
Lemma fp_tests_count : forall w bound lim keys draws, In (w, (bound, lim)) fp_limits ->
  length keys = SAMPLE_SIZE -> length draws = SAMPLE_SIZE ->
  (forall tries dbg f, xor_from tries w dbg keys = Ok f ->
     fp_test (xor_from tries w dbg) (xor_contains w dbg) bound keys draws =
     if (length (filter (fun d => yes (xor_contains w dbg f d)) draws) <? lim)%nat then Ok tt else Panic) /\
  (forall dbg rnd f, fuse_try_from w dbg rnd keys = Ok f ->
     fp_test (fuse_try_from w dbg rnd) (fuse_contains w dbg) bound keys draws =
     if (length (filter (fun d => yes (fuse_contains w dbg f d)) draws) <? lim)%nat then Ok tt else Panic) /\
  (forall dbg fe rnd f, sane_estimates fe (length keys) -> bfuse_try_from w dbg fe rnd keys = Ok f ->
     fp_test (bfuse_try_from w dbg fe rnd) (bfuse_contains w dbg) bound keys draws =
     if (length (filter (fun d => yes (bfuse_contains w dbg f d)) draws) <? lim)%nat then Ok tt else Panic).
Proof.
  intros w bound lim keys draws Hin Hk Hd. pose proof (million _ Hk) as Hz.
  assert (Hn : Z.of_nat (length keys) < 2 ^ 32) by lia. assert (H90 : (90 <= length keys)%nat) by lia.
  split; [|split].
  - intros tries dbg f E. apply (fp_test_value _ _ w); auto. exact (xor_total w dbg tries keys f Hn E).
  - intros dbg rnd f E. apply (fp_test_value _ _ w); auto. exact (fuse_total w dbg rnd keys f Hn H90 E).
  - intros dbg fe rnd f Hs E. apply (fp_test_value _ _ w); auto.
    destruct (bfuse_record _ w dbg fe rnd keys f E) as (g & sd & fps & Eg & L & ->).
    destruct (geometry_valid _ _ _ _ Hs Eg) as [Hg _]. intros d. rewrite x3_contains by auto. eauto.
Qed.

Lemma all_yes {A} (p : A -> bool) l : (forall x, In x l -> p x = true) -> length (filter p l) = length l.
Proof.
  induction l as [|x l IH]; intros H; [reflexivity|]. cbn [filter]. rewrite (H x (or_introl eq_refl)). cbn [length].
  rewrite IH; [reflexivity|]. intros y Hy. apply H. now right.
Qed.

(** @C76 so these tests are not safe either: nothing prevents the second draw from repeating
    stored keys, and if it repeats the first draw the test fails with every filter that is built. *)
Lemma fp_tests_refuted : forall w bound lim keys, In (w, (bound, lim)) fp_limits -> length keys = SAMPLE_SIZE ->
  (forall tries dbg f, xor_from tries w dbg keys = Ok f ->
     fp_test (xor_from tries w dbg) (xor_contains w dbg) bound keys keys = Panic) /\
  (forall dbg rnd f, fuse_try_from w dbg rnd keys = Ok f ->
     fp_test (fuse_try_from w dbg rnd) (fuse_contains w dbg) bound keys keys = Panic) /\
  (forall dbg fe rnd f, sane_estimates fe (length keys) -> light dbg fe keys -> bfuse_try_from w dbg fe rnd keys = Ok f ->
     fp_test (bfuse_try_from w dbg fe rnd) (bfuse_contains w dbg) bound keys keys = Panic).
Proof.
  intros w bound lim keys Hin Hk. pose proof (million _ Hk) as Hz.
  assert (Hn : Z.of_nat (length keys) < 2 ^ 32) by lia.
  destruct (fp_tests_count w bound lim keys keys Hin Hk Hk) as (A & B & C).
  assert (L : (length keys <? lim)%nat = false).
  { apply Nat.ltb_ge. cbn [In fp_limits] in Hin. destruct Hin as [H|[H|[H|[]]]];
    pose proof (f_equal (fun x => snd (snd x)) H) as Hl; cbn [fst snd] in Hl; rewrite <- Hl; lia. }
  split; [|split].
  - intros tries dbg f E. rewrite (A tries dbg f E), all_yes, L; [reflexivity|].
    intros x Hx. rewrite (xor_no_false_negatives w dbg keys f Hn (ex_intro _ tries E) dbg x Hx). reflexivity.
  - intros dbg rnd f E. rewrite (B dbg rnd f E), all_yes, L; [reflexivity|].
    intros x Hx. rewrite (fuse_no_false_negatives _ w dbg rnd keys f Hn E dbg x Hx). reflexivity.
  - intros dbg fe rnd f Hs Hl E. rewrite (C dbg fe rnd f Hs E), all_yes, L; [reflexivity|].
    destruct (bfuse_ok_shape w dbg fe rnd keys f Hs Hl E) as (g & _ & _ & _ & NF).
    intros x Hx. rewrite (NF x Hx). reflexivity.
Qed.

(** ** Binary fuse *)
(** @C76 [test_initialization] of [BinaryFuse8], [BinaryFuse16] and [BinaryFuse32] on distinct
    keys without an overloaded slot passes exactly when one of the thousand seeds makes them
    peelable. *)
Lemma bfuse_init_test_iff : forall w dbg fe rnd keys g probes,
  sane_estimates fe (length keys) -> geometry dbg fe (length keys) = Ok g ->
  (forall i, bf_probes dbg g (retry_seed i) (probes i)) -> Forall is_u64 keys -> NoDup keys ->
  (forall i j, (i < Z.to_nat 1000)%nat -> (load (probes i) keys j <= 63)%nat) ->
  (init_test (bfuse_try_from w dbg fe rnd) (bfuse_contains w dbg) keys = Ok tt <->
   exists i, (i < Z.to_nat 1000)%nat /\ peelable (probes i) keys).
Proof.
  intros w dbg fe rnd keys g probes Hs Eg Hp Hu ND Hl.
  assert (LG : light dbg fe keys).
  { right. intros g' i slots j Eg' Hi Hp'. assert (g' = g) by congruence. subst g'.
    replace (load slots keys j) with (load (probes i) keys j); [now apply Hl|]. unfold load. f_equal. apply filter_ext.
    intros k. destruct (Hp i k) as (a & b & c & E1 & ->). destruct (Hp' k) as (a' & b' & c' & E2 & ->).
    assert (X : (a', b', c') = (a, b, c)) by congruence. injection X as -> -> ->. reflexivity. }
  rewrite init_test_ok.
  - destruct (bfuse_construct_iff (Z.to_nat 1000) w dbg fe rnd keys g probes Hs Eg Hp Hu ND Hl) as [(i & f & Hi & E & _ & _ & P & _)|[E N]].
    + split; [eauto|]. intros _. exists f. exact E.
    + split; [|intros (i & Hi & P); exfalso; exact (N i Hi P)]. intros (f & E'). unfold bfuse_try_from in E'. congruence.
  - intros f key E Hk. destruct (bfuse_ok_shape w dbg fe rnd keys f Hs LG E) as (_ & _ & _ & _ & NF). now apply NF.
Qed.

(** ** The size of a binary fuse filter of a million keys *)
Lemma million_capacity log n : reasonable_log log -> n = Z.to_nat 1000000 -> capacity_of log n = 1125000.
Proof.
  intros HL Hn. pose proof (million _ Hn) as Hz.
  assert (E1 : f64_of_usize n = f_1e6).
  { unfold f64_of_usize. rewrite Hz. vm_compute. reflexivity. }
  assert (Hn32 : Z.of_nat n < 2 ^ 32) by lia.
  destruct HL as (_ & _ & L6 & _). destruct (between_fin _ _ _ L6) as (u & Fu & Bu); try lia.
  assert (F25 : fin f_0_25 (2 ^ 198)).
  { exists 4503599627370496%positive, (-54). split; [reflexivity|]. split; [lia|]. split; [lia|reflexivity]. }
  assert (F875 : fin f_0_875 (7 * 2 ^ 197)).
  { exists 7881299347898368%positive, (-53). split; [reflexivity|]. split; [lia|]. split; [lia|reflexivity]. }
  assert (F1125 : fin f_1_125 (9 * 2 ^ 197)).
  { exists 5066549580791808%positive, (-52). split; [reflexivity|]. split; [lia|]. split; [lia|reflexivity]. }
  destruct (mul_fin _ _ _ _ F25 Fu) as (p & Fp & Bp); [clear - Bu; lia|clear - Bu; lia|].
  assert (P1 : u * (2 ^ 51 - 1) <= 4 * p * 2 ^ 51 <= u * (2 ^ 51 + 1)) by (clear - Bp; lia). clear Bp.
  destruct (div_fin _ _ _ _ Fp Fu) as (q & Fq & Bq); [clear - P1 Bu; lia|clear - P1 Bu; lia|].
  assert (Q : 2 ^ 198 - 2 ^ 150 <= q <= 2 ^ 198 + 2 ^ 150).
  { assert (U0 : 0 < u) by (clear - Bu; lia). clear - Bq P1 U0.
    set (Y := q * u) in *.
    assert (A : u * (2 ^ 198 - 2 ^ 150) <= Y <= u * (2 ^ 198 + 2 ^ 150)) by (clearbody Y; lia).
    unfold Y in A. rewrite (Z.mul_comm q u) in A. split; apply (Z.mul_le_mono_pos_l _ _ u U0); apply A. }
  destruct (add_fin _ _ _ _ F875 Fq) as (s & Fs & Bs); [clear - Q; lia|clear - Q; lia|].
  assert (S : 9 * 2 ^ 197 - 2 ^ 152 <= s <= 9 * 2 ^ 197 + 2 ^ 152) by (clear - Bs Q; lia).
  assert (FF : exists f, fin (size_factor3 log n) f /\ 9 * 2 ^ 197 <= f <= 9 * 2 ^ 197 + 2 ^ 152).
  { unfold size_factor3. rewrite size_u32 by exact Hn32. rewrite E1.
    set (rhs := f64_add f_0_875 _) in *.
    assert (E : f64_max f_1_125 rhs = if (9 * 2 ^ 197 <? s) then rhs else f_1_125).
    { pose proof (lt_fin _ _ _ _ F1125 Fs) as LT. destruct Fs as (m & e & E & _).
      unfold f64_max. rewrite <- LT. rewrite E. reflexivity. }
    rewrite E. destruct (Z.ltb_spec (9 * 2 ^ 197) s) as [C|C].
    - exists s. split; [exact Fs|]. clear - C S. lia.
    - exists (9 * 2 ^ 197). split; [exact F1125|]. lia. }
  destruct FF as (f & Ff & Bf).
  destruct (cap_gen log n f ltac:(lia) Hn32 Ff) as (c & E & B1 & B2); [clear - Bf; lia|].
  rewrite Hz in B1, B2. rewrite E. assert (c = 1125000) by (clear - B1 B2 Bf; lia). subst c. reflexivity.
Qed.

(** @C76 a binary fuse filter of a million keys has 1130496 slots, in both profiles and for every
    logarithm that is right to four digits. *)
Lemma million_slots : forall log dbg n, reasonable_log log -> n = SAMPLE_SIZE ->
  exists g, geometry dbg (f64_estimates log) n = Ok g /\ Z.of_nat (g_arrlen g) = 1130496.
Proof.
  intros log dbg n HL Hn. pose proof (million _ Hn) as Hz. pose proof (million_capacity log n HL Hn) as Ec.
  assert (Hmx : Z.of_nat n <= max_keys) by (rewrite Hz; unfold max_keys; lia).
  assert (H1 : (1 <= n)%nat) by (clear - Hz; lia). assert (H2 : (2 <= n)%nat) by (clear - Hz; lia).
  assert (H32 : Z.of_nat n < 2 ^ 32) by (rewrite Hz; reflexivity).
  destruct (exp_gen log HL n H2 H32) as (w & Ew & L & U).
  unfold hi_log in U. rewrite Hz in L, U. change (Z.log2 1000000) with 19 in L, U. cbv zeta in U.
  change (if 1000000 =? 2 ^ 19 then 19 else 19 + 1) with 20 in U.
  assert (W : w / 2 ^ 200 = 13).
  { symmetry. apply (Z.div_unique _ _ 13 (w - 13 * 2 ^ 200)); clear - L U; lia. }
  pose proof (estimates_sane log n HL Hmx) as HS.
  destruct (geometry_shape dbg _ _ HS) as (g & e & G & He & Esl & _ & (cc & Hcc & Escl) & Ear & _ & B).
  exists g. split; [exact G|].
  pose proof (seglen_of_geometry log dbg n g HL H1 H32 G) as SL. rewrite Ew, W in SL.
  change (Z.min (2 ^ Z.min (two32 - 1) 13) 262144) with 8192 in SL.
  destruct (Nat.leb_spec n 1) as [Q|Q]; [clear - Q H2; lia|]. cbv zeta in B. cbn [f64_estimates fe_cap] in B. rewrite Ec in B.
  rewrite SL in *. clear - B Ear Escl. lia.
Qed.

(** @C76 [test_bits_per_entry] of the three binary fuse filters passes whenever the construction
    succeeds. *)
Lemma bfuse_bpe_test_iff : forall log w bound dbg rnd keys, reasonable_log log -> In (w, bound) bfuse_bounds ->
  length keys = SAMPLE_SIZE ->
  (bpe_test (bfuse_try_from w dbg (f64_estimates log) rnd) bfuse_len w bound keys = Ok tt <->
   exists f, bfuse_try_from w dbg (f64_estimates log) rnd keys = Ok f).
Proof.
  intros log w bound dbg rnd keys HL Hw Hn. apply bpe_test_ok. intros f E. pose proof (million _ Hn) as Hz.
  destruct (bfuse_length _ w dbg _ rnd keys f E) as (g & Eg & Lf).
  destruct (million_slots log dbg _ HL Hn) as (g' & Eg' & Lg). assert (g' = g) by congruence. subst g'.
  apply (bpe_at _ _ 1130496 bfuse_bounds); [rewrite Lf; exact Lg|exact Hn|vm_compute; reflexivity|exact Hw].
Qed.

(** @C76 the single-key test of [BinaryFuse8] passes for every key, fill and profile. *)
Lemma single_key_test_passes : forall log dbg rnd key, reasonable_log log -> is_u64 key ->
  single_key_test dbg (f64_estimates log) rnd key = Ok tt.
Proof.
  intros log dbg rnd key HL Hu.
  assert (HS : sane_estimates (f64_estimates log) (length [key])) by (apply estimates_sane; [exact HL|vm_compute; discriminate]).
  destruct (geometry_shape dbg _ _ HS) as (g & _ & Eg & _).
  assert (X : exists probes, forall i, bf_probes dbg g (retry_seed i) (probes i) /\
     forall k, exists a b c, probes i k = [a; b; c]).
  { destruct (geometry_valid _ _ _ _ HS Eg) as [Hg _].
    exists (fun i k => [sl1 g (mix k (retry_seed i)); sl2 g (mix k (retry_seed i)); sl3 g (mix k (retry_seed i))]).
    intros i. split; [apply sl_bf_probes; auto|]. eauto. }
  destruct X as (probes & HP).
  assert (K : init_test (bfuse_try_from 8 dbg (f64_estimates log) rnd) (bfuse_contains 8 dbg) [key] = Ok tt).
  { apply (bfuse_init_test_iff 8 dbg _ rnd [key] g probes HS Eg).
    - intros i. apply HP.
    - now constructor.
    - constructor; [intros []|constructor].
    - intros i j _. unfold load. cbn [filter]. destruct (in_dec _ _ _); cbn [length]; lia.
    - exists 0%nat. split; [lia|]. destruct (HP 0%nat) as [_ S]. destruct (S key) as (a & b & c & E).
      apply (peelable_take _ key [key] [] a); [apply Permutation.Permutation_refl|rewrite E; now left|intros k' []|constructor]. }
  unfold init_test in K. unfold single_key_test.
  destruct (unwrap (bfuse_try_from 8 dbg (f64_estimates log) rnd [key])) as [f| | |]; cbn [bind] in *; try discriminate.
  exact (for_each_inv _ _ K key (or_introl eq_refl)).
Qed.

(** @C76 the [should_panic] tests pass: in a debug build every construction from keys with a
    repetition panics, whatever the fingerprint width and fill, and so does one with a modulus
    below 256. *)
Lemma panic_tests_pass : forall tries w fe rnd,
  panic_test (xor_from tries w true [1; 2; 1]) = Ok tt /\ panic_test (fuse_try_from w true rnd [1; 2; 1]) = Ok tt /\
  panic_test (bfuse_try_from w true fe rnd [1; 2; 1]) = Ok tt /\
  p32_duplicates_test fe rnd = Ok tt /\ p32_modulus_test fe rnd = Ok tt.
Proof. intros. repeat split. Qed.

(** @C76 the test of [HashProxy] passes for each of the three filters exactly when the construction
    returns; it does not return when two of the drawn strings have the same hash. *)
Lemma proxy_test_iff : forall T (hash : T -> Z) tries w dbg (keys : list T), Z.of_nat (length keys) < 2 ^ 32 ->
  (proxy_test hash tries w dbg keys = Ok tt <-> exists f, xor_from tries w dbg (map hash keys) = Ok f) /\
  (~ NoDup (map hash keys) -> proxy_test hash tries w dbg keys <> Ok tt).
Proof.
  intros T hash tries w dbg keys Hn.
  assert (A : proxy_test hash tries w dbg keys = Ok tt <-> exists f, xor_from tries w dbg (map hash keys) = Ok f).
  { unfold proxy_test. split.
    - intros E. apply bind_Ok in E as (f & E & _). exists f. unfold xor_proxy_from, proxy_from in E.
      destruct (xor_from tries w dbg (map hash keys)); cbn [unwrap] in E; congruence.
    - intros (f & E).
      assert (E' : xor_proxy_from hash tries w dbg keys = Ok f) by exact E.
      rewrite E'. cbn [unwrap bind]. apply for_each_ok. intros key Hk.
      rewrite (xor_proxy_no_false_negatives T hash tries w dbg keys f Hn E' dbg key Hk). reflexivity. }
  split; [exact A|]. intros ND E. apply A in E as (f & E).
  assert (Hn' : Z.of_nat (length (map hash keys)) < 2 ^ 32) by (now rewrite map_length).
  destruct (xor_duplicates w (map hash keys) Hn' ND) as [B1 B2]. destruct dbg; [rewrite B2 in E|rewrite B1 in E]; discriminate.
Qed.

(** ** The modular filter *)
Lemma wadd4 a : wadd64 (wadd64 (wadd64 (wadd64 0 a) a) a) a = (4 * a) mod two64.
Proof.
  unfold wadd64. rewrite Zplus_mod_idemp_l, <- Z.add_assoc, Zplus_mod_idemp_l, <- Z.add_assoc, Zplus_mod_idemp_l.
  f_equal. lia.
Qed.

(** @C76 the tests of [BinaryFuseP32] use keys that repeat one word four times; whatever the
    seed, the hash of such a key is a multiple of four... *)
Lemma p32_test_hash : forall x seed, mix256 [x; x; x; x] seed mod 4 = 0.
Proof.
  intros x seed. unfold mix256. cbn [map fold_left]. rewrite wadd4.
  set (a := mix_word (seed_words seed) x). change two64 with (4 * 2 ^ 62). rewrite Zmult_mod_distr_l, Z.mul_comm. apply Z.mod_mul. lia.
Qed.

Lemma lxor_mod4 a b : b mod 4 = 0 -> Z.lxor a b mod 4 = a mod 4.
Proof.
  intros H. change 4 with (2 ^ 2) in *. rewrite <- !Z.land_ones in * by lia. apply Z.bits_inj'. intros n Hn.
  assert (Hb : Z.testbit (Z.land b (Z.ones 2)) n = false) by (rewrite H; apply Z.bits_0).
  rewrite !Z.land_spec, Z.lxor_spec. rewrite Z.land_spec in Hb. revert Hb.
  destruct (Z.testbit a n), (Z.testbit b n), (Z.testbit (Z.ones 2) n); intros Hb; try reflexivity; discriminate.
Qed.
Lemma land_mod4 h m : h mod 4 = 0 -> Z.land h m mod 4 = 0.
Proof.
  intros H. change 4 with (2 ^ 2) in *. rewrite <- !Z.land_ones in * by lia. apply Z.bits_inj'. intros n Hn.
  assert (Hb : Z.testbit (Z.land h (Z.ones 2)) n = false) by (rewrite H; apply Z.bits_0).
  rewrite !Z.land_spec, Z.bits_0. rewrite Z.land_spec in Hb. revert Hb. destruct (Z.testbit h n), (Z.testbit m n), (Z.testbit (Z.ones 2) n); intros Hb; try reflexivity; discriminate.
Qed.
Lemma add32_mod4 dbg a b x : b mod 4 = 0 -> add32 dbg a b = Ok x -> x mod 4 = a mod 4.
Proof.
  intros Hb E. unfold add32, chk in E. assert (K : (a + b) mod 4 = a mod 4).
  { rewrite Z.add_mod, Hb, Z.add_0_r, Z.mod_mod by lia. reflexivity. }
  destruct ((0 <=? a + b) && (a + b <? two32)); [injection E as <-; exact K|].
  destruct dbg; [discriminate|]. injection E as <-. unfold two32. rewrite <- K.
  symmetry. apply Znumtheory.Zmod_div_mod; [reflexivity|reflexivity|]. exists (2 ^ 30). reflexivity.
Qed.

Lemma add32_nonneg dbg a b x : add32 dbg a b = Ok x -> 0 <= x.
Proof.
  unfold add32, chk. destruct ((0 <=? a + b) && (a + b <? two32)) eqn:C.
  - intros [= <-]. apply andb_prop in C as [C _]. now apply Z.leb_le in C.
  - destruct dbg; [discriminate|]. intros [= <-]. apply Z.mod_pos_bound. reflexivity.
Qed.
Lemma mod_32_4 h : h mod two32 mod 4 = h mod 4.
Proof. symmetry. apply Znumtheory.Zmod_div_mod; [reflexivity|reflexivity|]. exists (2 ^ 30). reflexivity. Qed.
Lemma to_nat_mod4 x y : 0 <= x -> 0 <= y -> x mod 4 = y mod 4 -> (Z.to_nat x mod 4 = Z.to_nat y mod 4)%nat.
Proof.
  intros Hx Hy E. apply Nat2Z.inj. rewrite !Nat2Z.inj_mod, !Z2Nat.id by assumption. exact E.
Qed.
Lemma slots_mod4 dbg h sl mask scl h0 h1 h2 : h mod 4 = 0 -> sl mod 4 = 0 ->
  hash_of_hash dbg h sl mask scl = Ok (h0, h1, h2) -> 0 <= h0 /\ 0 <= h2 /\ h2 mod 4 = h0 mod 4.
Proof.
  intros Hh Hs. unfold hash_of_hash.
  set (y := (Z.shiftr (h * scl) 64 mod two64) mod two32).
  assert (Hy : 0 <= y) by (unfold y; apply Z.mod_pos_bound; reflexivity). clearbody y.
  destruct (add32 dbg y sl) as [x1| | |] eqn:E1; cbn [bind]; try discriminate.
  destruct (add32 dbg x1 sl) as [x2| | |] eqn:E2; cbn [bind]; try discriminate.
  pose proof (add32_nonneg _ _ _ _ E2) as Hx2.
  apply (add32_mod4 _ _ _ _ Hs) in E1. apply (add32_mod4 _ _ _ _ Hs) in E2.
  assert (L4 : Z.land (h mod two32) mask mod 4 = 0) by (apply land_mod4; now rewrite mod_32_4).
  assert (L0 : 0 <= Z.land (h mod two32) mask) by (apply Z.land_nonneg; left; apply Z.mod_pos_bound; reflexivity).
  intros E. assert (h0 = y) by congruence. assert (h2 = Z.lxor x2 (Z.land (h mod two32) mask)) by congruence. clear E.
  subst h0 h2. split; [exact Hy|]. split; [apply Z.lxor_nonneg; tauto|]. rewrite lxor_mod4 by exact L4. congruence.
Qed.

Lemma hash_eval_inv dbg key seed sl mask scl a b c : hash_eval dbg key seed sl mask scl = Ok [a; b; c] ->
  exists h0 h1 h2, hash_of_hash dbg (mix256 key seed) sl mask scl = Ok (h0, h1, h2) /\ a = Z.to_nat h0 /\ c = Z.to_nat h2.
Proof.
  unfold hash_eval. destruct (hash_of_hash dbg (mix256 key seed) sl mask scl) as [[[h0 h1] h2]| | |]; cbn [bind]; try discriminate.
  intros E. exists h0, h1, h2. repeat split; congruence.
Qed.
Lemma pow_mod4 e : 2 <= e -> 2 ^ e mod 4 = 0.
Proof.
  intros He. replace e with ((e - 2) + 2) by lia. rewrite Z.pow_add_r by lia. apply Z.mod_mul. lia.
Qed.
Lemma seglen_mod4 dbg fe n g : sane_estimates fe n -> geometry dbg fe n = Ok g -> g_seglen g mod 4 = 0.
Proof.
  intros Hs Eg. destruct (geometry_shape dbg fe n Hs) as (g' & e & Eg' & He & Esl & _).
  assert (g' = g) by congruence. subst g'. rewrite Esl. apply pow_mod4. apply He.
Qed.

(** @C76 ... so that its third slot always agrees with its first modulo four: these tests never
    see three quarters of the slot triples. *)
Lemma p32_test_slots : forall dbg dbg' fe n g x seed a b c, sane_estimates fe n -> geometry dbg fe n = Ok g ->
  hash_eval dbg' [x; x; x; x] seed (g_seglen g) (g_mask g) (g_scl g) = Ok [a; b; c] -> (c mod 4 = a mod 4)%nat.
Proof.
  intros dbg dbg' fe n g x seed a b c Hs Eg E.
  destruct (hash_eval_inv _ _ _ _ _ _ _ _ _ E) as (h0 & h1 & h2 & Eh & -> & ->).
  destruct (slots_mod4 _ _ _ _ _ _ _ _ (p32_test_hash x seed) (seglen_mod4 _ _ _ _ Hs Eg) Eh) as (P0 & P2 & M).
  apply to_nat_mod4; assumption.
Qed.

(** The last position with a given hash. *)
Lemma last_exists seed : forall keys i k, nth_error keys i = Some k ->
  exists l k', last_with_hash seed keys l k' /\ mix256 k' seed = mix256 k seed.
Proof.
  intros keys. induction keys as [|k0 keys IH] using rev_ind; intros i k Hi; [destruct i; discriminate|].
  destruct (Z.eq_dec (mix256 k0 seed) (mix256 k seed)) as [E|N].
  - exists (length keys), k0. split; [|exact E]. split.
    + rewrite nth_error_app2, Nat.sub_diag by lia. reflexivity.
    + intros j key' Hj Hk. exfalso. assert (j < length (keys ++ [k0]))%nat by (apply nth_error_Some; congruence).
      rewrite app_length in H. cbn [length] in H. lia.
  - assert (Hi' : nth_error keys i = Some k).
    { destruct (Nat.lt_ge_cases i (length keys)) as [L|L]; [now rewrite nth_error_app1 in Hi|].
      rewrite nth_error_app2 in Hi by exact L. destruct (i - length keys)%nat as [|d]; [|destruct d; discriminate].
      cbn in Hi. exfalso. congruence. }
    destruct (IH i k Hi') as (l & k' & [L1 L2] & E). exists l, k'. split; [|exact E]. split.
    + rewrite nth_error_app1; [exact L1|]. apply nth_error_Some. congruence.
    + intros j key' Hj Hk. destruct (Nat.lt_ge_cases j (length keys)) as [L|L].
      * rewrite nth_error_app1 in Hk by exact L. exact (L2 j key' Hj Hk).
      * rewrite nth_error_app2 in Hk by exact L. destruct (j - length keys)%nat as [|d]; [|destruct d; discriminate].
        cbn in Hk. congruence.
Qed.

Lemma retrieve_hash_only dbg f k k' label : mix256 k (bp_seed f) = mix256 k' (bp_seed f) -> retrieve dbg f k label = retrieve dbg f k' label.
Proof. intros E. unfold retrieve. now rewrite E. Qed.

Lemma p32_data_nth n i : (i < n)%nat -> Z.of_nat n < 2 ^ 32 -> nth_error (p32_data n) i = Some (Z.of_nat i mod 1024).
Proof.
  intros Hi Hn. unfold p32_data. rewrite nth_error_map, (nth_error_nth' _ 0%nat) by (now rewrite seq_length).
  rewrite seq_nth by exact Hi. cbn [option_map plus]. rewrite (Z.mod_small _ two32) by (unfold two32; lia). reflexivity.
Qed.

(** Keys of the modular filter's tests with the same hash must have data that agree. *)
Definition twins_agree (seed xs : list Z) : Prop :=
  forall i j x y, nth_error xs i = Some x -> nth_error xs j = Some y ->
    mix256 [x; x; x; x] seed = mix256 [y; y; y; y] seed -> (i mod 1024 = j mod 1024)%nat.
(** In a debug build an overloaded slot panics; in release it must not occur. *)
Definition p32_light (dbg : bool) (fe : fest) (seed xs : list Z) : Prop :=
  dbg = true \/ forall g, geometry dbg fe (length xs) = Ok g -> exists slots,
    evaluates dbg seed (g_seglen g) (g_mask g) (g_scl g) slots /\ forall j, (load slots (p32_keys xs) j <= 63)%nat.

Lemma of_nat_mod1024 i : Z.of_nat (i mod 1024) = Z.of_nat i mod 1024.
Proof. apply Nat2Z.inj_mod. Qed.

Lemma p32_keys_nth xs i x : nth_error xs i = Some x -> nth_error (p32_keys xs) i = Some [x; x; x; x].
Proof. intros E. unfold p32_keys. now rewrite nth_error_map, E. Qed.

Lemma p32_retrieve dbg fe rnd seed xs f : sane_estimates fe (length xs) -> Z.of_nat (length xs) < 2 ^ 32 ->
  p32_light dbg fe seed xs ->
  from_slice dbg fe rnd seed (p32_keys xs) (p32_data (length xs)) 1 1024 = Ok f ->
  bp_seed f = seed /\ bp_ptxt_mod f = 1024 /\
  forall i x, nth_error xs i = Some x -> exists l y, nth_error xs l = Some y /\
    mix256 [y; y; y; y] seed = mix256 [x; x; x; x] seed /\
    retrieve dbg f [x; x; x; x] 1 = Ok (Z.of_nat l mod 1024).
Proof.
  intros HS Hn HL E.
  assert (LK : length (p32_keys xs) = length xs) by (unfold p32_keys; apply map_length).
  assert (LD : length (p32_data (length xs)) = length xs) by (unfold p32_data; now rewrite map_length, seq_length).
  unfold from_slice in E. rewrite LK, LD, Nat.eqb_refl in E. cbn [negb] in E.
  change 1024 with (2 ^ 10) in E.
  destruct (filter_shape _ _ _ _ _ _ _ _ _ _ E) as (g & Eg & S1 & S2 & S3 & _ & Sd & Pm). rewrite LK in Eg.
  split; [exact Sd|]. split; [exact Pm|]. intros i x Hi.
  destruct (last_exists seed _ i _ (p32_keys_nth _ _ _ Hi)) as (l & k' & Hl & Ek).
  destruct Hl as [Hl1 Hl2]. pose proof Hl1 as Hl0. unfold p32_keys in Hl0. rewrite nth_error_map in Hl0.
  destruct (nth_error xs l) as [y|] eqn:El; [|discriminate]. cbn [option_map] in Hl0. injection Hl0 as <-.
  exists l, y. split; [exact El|]. split; [exact Ek|].
  assert (Ll : (l < length xs)%nat) by (apply nth_error_Some; congruence).
  rewrite (retrieve_hash_only _ _ _ [y; y; y; y]) by (rewrite Sd; now symmetry).
  assert (HS' : sane_estimates fe (length (p32_keys xs))) by (now rewrite LK).
  assert (HD : (length (p32_keys xs) <= length (p32_data (length xs)))%nat) by (rewrite LK, LD; apply le_n).
  assert (HL' : dbg = true \/ exists slots,
     evaluates dbg seed (bp_segment_length f) (bp_segment_length_mask f) (bp_segment_count_length f) slots /\
     forall j, (load slots (p32_keys xs) j <= 63)%nat).
  { destruct HL as [HL|HL]; [now left|right]. rewrite S1, S2, S3. exact (HL g Eg). }
  rewrite (retrieve_correct _ _ _ _ _ _ _ 10 1 f HS' HD ltac:(split; discriminate) HL' E dbg l [y; y; y; y] (conj Hl1 Hl2)).
  f_equal. rewrite (nth_error_nth _ _ 0 (p32_data_nth _ _ Ll Hn)). change (2 ^ 10) with 1024. apply Z.mod_mod. discriminate.
Qed.

Lemma p32_body_iff {B} (body : nat -> res unit) (value : Z -> res Z) seed (xs : list Z) (R : B) :
  Z.of_nat (length xs) < 2 ^ 32 ->
  (forall i x, nth_error xs i = Some x -> body i = (let* v := value x in assert_ (Z.of_nat i mod 1024 =? v))) ->
  (forall x y, mix256 [y; y; y; y] seed = mix256 [x; x; x; x] seed -> value x = value y) ->
  (forall i x, nth_error xs i = Some x -> exists l y, nth_error xs l = Some y /\
    mix256 [y; y; y; y] seed = mix256 [x; x; x; x] seed /\ value x = Ok (Z.of_nat l mod 1024)) ->
  (for_each (seq 0 (length xs)) body = Ok tt <-> twins_agree seed xs).
Proof.
  intros Hn HB HV HR. split.
  - intros E i j x y Hi Hj Exy.
    assert (K : forall n z, nth_error xs n = Some z -> value z = Ok (Z.of_nat n mod 1024)).
    { intros n z Hz. assert (n < length xs)%nat by (apply nth_error_Some; congruence).
      pose proof (for_each_inv _ _ E n ltac:(apply in_seq; lia)) as Q. rewrite (HB n z Hz) in Q.
      destruct (HR n z Hz) as (l & y' & _ & _ & V). rewrite V in *. cbn [bind] in Q. unfold assert_ in Q.
      destruct (Z.eqb_spec (Z.of_nat n mod 1024) (Z.of_nat l mod 1024)) as [->|]; [reflexivity|discriminate]. }
    pose proof (K i x Hi) as K1. pose proof (K j y Hj) as K2.
    rewrite (HV y x Exy) in K2. apply Nat2Z.inj. rewrite !of_nat_mod1024. congruence.
  - intros T. apply for_each_ok. intros i Hi. apply in_seq in Hi.
    destruct (nth_error xs i) as [x|] eqn:Ex; [|apply nth_error_None in Ex; lia].
    rewrite (HB i x Ex). destruct (HR i x Ex) as (l & y & El & Ey & V). rewrite V. cbn [bind].
    rewrite <- !of_nat_mod1024, (T l i y x El Ex Ey), Z.eqb_refl. reflexivity.
Qed.

(** @C76 [test_initialization] of [BinaryFuseP32] passes exactly when the construction succeeds
    and any two drawn keys with the same hash stand at positions that agree modulo 1024. *)
Lemma p32_init_test_iff : forall dbg fe rnd seed xs, sane_estimates fe (length xs) -> Z.of_nat (length xs) < 2 ^ 32 ->
  p32_light dbg fe seed xs ->
  (p32_init_test dbg fe rnd seed xs = Ok tt <->
   (exists f, from_slice dbg fe rnd seed (p32_keys xs) (p32_data (length xs)) 1 1024 = Ok f) /\ twins_agree seed xs).
Proof.
  intros dbg fe rnd seed xs HS Hn HL. unfold p32_init_test.
  assert (LK : length (p32_keys xs) = length xs) by (unfold p32_keys; apply map_length).
  destruct (from_slice dbg fe rnd seed (p32_keys xs) (p32_data (length xs)) 1 1024) as [f|e| |] eqn:E; cbn [unwrap bind];
    try (split; [discriminate|intros [[f Hf] _]; discriminate]).
  destruct (p32_retrieve dbg fe rnd seed xs f HS Hn HL E) as (Sd & _ & HR). rewrite LK.
  rewrite (p32_body_iff _ (fun x => retrieve dbg f [x; x; x; x] 1) seed xs tt Hn).
  - split; [intros T; split; [eauto|exact T]|intros [_ T]; exact T].
  - intros i x Hi. cbv beta. unfold idx.
    assert (i < length xs)%nat by (apply nth_error_Some; congruence).
    rewrite p32_data_nth, (p32_keys_nth _ _ _ Hi) by assumption. reflexivity.
  - intros x y Exy. apply retrieve_hash_only. rewrite Sd. now symmetry.
  - exact HR.
Qed.

Lemma mod1024_32 a : a mod two32 mod 1024 = a mod 1024.
Proof. symmetry. apply Znumtheory.Zmod_div_mod; [reflexivity|reflexivity|]. exists (2 ^ 22). reflexivity. Qed.
Lemma wadd_1024 a b : wadd32 a b mod 1024 = (a mod 1024 + b mod 1024) mod 1024.
Proof. unfold wadd32. rewrite mod1024_32. apply Z.add_mod. discriminate. Qed.

Lemma hashes_value dbg f key label : bp_ptxt_mod f = 1024 ->
  (let* h := hash_eval dbg key (bp_seed f) (bp_segment_length f) (bp_segment_length_mask f) (bp_segment_count_length f) in
   let* entry := foldM (fun acc r => let* x := idx (bp_fingerprints f) r in Ok (wadd32 acc x)) h 0 in
   remz (wadd32 entry (get_key_fingerprint key (bp_seed f) label mod two32)) (bp_ptxt_mod f mod two32))
  = retrieve dbg f key label.
Proof.
  intros P. unfold hash_eval, retrieve, get_key_fingerprint. rewrite P.
  set (h := mix256 key (bp_seed f)). clearbody h.
  destruct (hash_of_hash dbg h _ _ _) as [[[h0 h1] h2]| | |]; cbn [bind]; try reflexivity.
  unfold foldM. set (i0 := Z.to_nat h0). set (i1 := Z.to_nat h1). set (i2 := Z.to_nat h2). clearbody i0 i1 i2.
  destruct (idx (bp_fingerprints f) i0) as [x0| | |]; cbn [bind]; try reflexivity.
  destruct (idx (bp_fingerprints f) i1) as [x1| | |]; cbn [bind]; try reflexivity.
  destruct (idx (bp_fingerprints f) i2) as [x2| | |]; cbn [bind]; try reflexivity.
  set (m := mix h label). clearbody m. change (1024 mod two32) with 1024. unfold remz. cbn [bind Z.eqb].
  f_equal. rewrite !wadd_1024, !mod1024_32, !Z.mod_mod, Z.add_0_l by discriminate. rewrite !Z.mod_mod by discriminate. reflexivity.
Qed.

(** @C76 ... and [test_hashes], which redoes the lookup with the public hashing functions, passes
    exactly when [test_initialization] would, on the same draws. *)
Lemma p32_hashes_test_iff : forall dbg fe rnd seed xs, sane_estimates fe (length xs) -> Z.of_nat (length xs) < 2 ^ 32 ->
  p32_light dbg fe seed xs ->
  (p32_hashes_test dbg fe rnd seed xs = Ok tt <-> p32_init_test dbg fe rnd seed xs = Ok tt).
Proof.
  intros dbg fe rnd seed xs HS Hn HL.
  rewrite (p32_init_test_iff dbg fe rnd seed xs HS Hn HL). unfold p32_hashes_test.
  assert (LK : length (p32_keys xs) = length xs) by (unfold p32_keys; apply map_length).
  destruct (from_slice dbg fe rnd seed (p32_keys xs) (p32_data (length xs)) 1 1024) as [f|e| |] eqn:E; cbn [unwrap bind];
    try (split; [discriminate|intros [[f Hf] _]; discriminate]).
  destruct (p32_retrieve dbg fe rnd seed xs f HS Hn HL E) as (Sd & Pm & HR). rewrite LK.
  rewrite (p32_body_iff _ (fun x => retrieve dbg f [x; x; x; x] 1) seed xs tt Hn).
  - split; [intros T; split; [eauto|exact T]|intros [_ T]; exact T].
  - intros i x Hi. cbv beta. assert (i < length xs)%nat by (apply nth_error_Some; congruence).
    rewrite <- (hashes_value dbg f [x; x; x; x] 1 Pm), Sd. unfold idx at 1. rewrite (p32_keys_nth _ _ _ Hi). cbn [bind].
    destruct (hash_eval _ _ _ _ _ _) as [h| | |]; cbn [bind]; try reflexivity.
    destruct (foldM _ h 0) as [en| | |]; cbn [bind]; try reflexivity.
    unfold idx. rewrite p32_data_nth by assumption. reflexivity.
  - intros x y Exy. apply retrieve_hash_only. rewrite Sd. now symmetry.
  - exact HR.
Qed.

Lemma log2_1024 log : reasonable_log log -> exists q, fin (f64_log2 log (f64_of_usize 1024)) q /\ 9 * 2 ^ 200 <= q <= 11 * 2 ^ 200.
Proof.
  intros (_ & _ & _ & HL). unfold f64_log2. change f_2_0 with (f64_of_usize 2).
  pose proof (HL 1024%nat ltac:(lia) ltac:(reflexivity)) as L1. pose proof (HL 2%nat ltac:(lia) ltac:(reflexivity)) as L2.
  change (Z.log2 (Z.of_nat 1024)) with 10 in L1. change (Z.log2 (Z.of_nat 2)) with 1 in L2.
  cbv zeta in L1, L2. change (Z.of_nat 1024 =? 2 ^ 10) with true in L1. change (Z.of_nat 2 =? 2 ^ 1) with true in L2. cbv iota in L1, L2.
  destruct (between_fin _ _ _ L1) as (v & Fv & Bv); [lia|lia|]. destruct (between_fin _ _ _ L2) as (u & Fu & Bu); [lia|lia|].
  destruct (div_fin _ _ _ _ Fv Fu) as (q & Fq & Bq); [clear - Bv Bu; lia|clear - Bv Bu; lia|].
  exists q. split; [exact Fq|].
  assert (Q0 : 0 <= q) by (destruct Fq as (? & ? & _ & _ & _ & ->); apply Z.mul_nonneg_nonneg; [lia|apply Z.pow_nonneg; lia]).
  assert (Q1 : q * u * 10000 <= q * (6932 * 2 ^ 200)) by (rewrite <- Z.mul_assoc; apply Z.mul_le_mono_nonneg_l; [exact Q0|clear - Bu; lia]).
  assert (Q2 : q * (6931 * 2 ^ 200) <= q * u * 10000) by (rewrite <- Z.mul_assoc; apply Z.mul_le_mono_nonneg_l; [exact Q0|clear - Bu; lia]).
  clear - Q1 Q2 Bq Bv. set (w := q * u) in *. clearbody w. split; lia.
Qed.

(** @C76 [test_bits_per_entry] of [BinaryFuseP32] (the documented two bits above the size of the
    modulus) passes whenever the construction succeeds. *)
Lemma p32_bpe_test_iff : forall log dbg rnd seed xs, reasonable_log log -> length xs = SAMPLE_SIZE ->
  (p32_bpe_test log dbg (f64_estimates log) rnd seed xs = Ok tt <->
   exists f, from_slice dbg (f64_estimates log) rnd seed (p32_keys xs) (p32_data (length xs)) 1 1024 = Ok f).
Proof.
  intros log dbg rnd seed xs HL Hn. pose proof (million _ Hn) as Hz. unfold p32_bpe_test.
  assert (LK : length (p32_keys xs) = length xs) by (unfold p32_keys; apply map_length).
  assert (LD : length (p32_data (length xs)) = length xs) by (unfold p32_data; now rewrite map_length, seq_length).
  destruct (from_slice dbg (f64_estimates log) rnd seed (p32_keys xs) (p32_data (length xs)) 1 1024) as [f|e| |] eqn:E; cbn [unwrap bind];
    try (split; [discriminate|intros [f Hf]; discriminate]).
  split; [intros _; eauto|intros _].
  unfold from_slice in E. rewrite LK, LD, Nat.eqb_refl in E. cbn [negb] in E.
  destruct (filter_shape _ _ _ _ _ _ _ _ _ _ E) as (g & Eg & _ & _ & _ & Lf & _). rewrite LK in Eg. clear E.
  destruct (million_slots log dbg _ HL Hn) as (g' & Eg' & Lg). assert (g' = g) by congruence. subst g'. clear Eg Eg'.
  rewrite Lf. set (len := g_arrlen g) in *. clearbody len. clear Lf LK LD.
  destruct (log2_1024 log HL) as (q & Fq & Bq). set (lp := f64_log2 log (f64_of_usize 1024)) in *. clearbody lp.
  assert (Fl : fin (f64_of_usize len) (1130496 * 2 ^ 200)) by (rewrite <- Lg; apply usize_fin; clear - Lg; lia).
  assert (Fn : fin (f64_of_usize (length xs)) (1000000 * 2 ^ 200)) by (rewrite <- Hz; apply usize_fin; clear - Hz; lia).
  assert (F2 : fin f_2_0 (2 * 2 ^ 200)).
  { exists 4503599627370496%positive, (-51). split; [reflexivity|]. split; [lia|]. split; [lia|reflexivity]. }
  clear Hn Hz Lg HL.
  destruct (mul_fin _ _ _ _ Fl Fq) as (p & Fp & Bp); [clear - Bq; lia|clear - Bq; lia|].
  assert (Bp' : 9000000 * 2 ^ 200 <= p <= 13000000 * 2 ^ 200) by (clear - Bp Bq; lia).
  destruct (div_fin _ _ _ _ Fp Fn) as (d & Fd & Bd); [clear - Bp'; lia|clear - Bp'; lia|].
  destruct (add_fin _ _ _ _ Fq F2) as (s & Fs & Bs); [clear - Bq; lia|clear - Bq; lia|].
  rewrite (lt_fin _ _ _ _ Fd Fs).
  assert (K : d < s) by (clear - Bp Bd Bs Bq; lia).
  apply Z.ltb_lt in K. rewrite K. reflexivity.
Qed.

Lemma load_short {K} (slots : K -> list nat) ks j : (length ks <= 63)%nat -> (load slots ks j <= 63)%nat.
Proof. intros H. unfold load. eapply Nat.le_trans; [|exact H]. clear H. induction ks as [|k ks IH]; cbn [filter length]; [lia|]. destruct (in_dec _ _ _); cbn [length]; lia. Qed.

(** @C76 small runs: the hypotheses are met and the tests pass (or fail, for a key that is drawn
    twice); a key with four different words whose third and first slots differ modulo four. *)
Example xorf_tests_example :
  init_test (xor_from 3 8 true) (xor_contains 8 true) [1; 2; 3; 4; 5; 6] = Ok tt /\
  init_test (xor_from 3 8 true) (xor_contains 8 true) [1; 2; 3; 4; 5; 1] = Panic /\
  init_test (bfuse_try_from 8 true (best 3 12) fill) (bfuse_contains 8 true) [1; 2; 3; 4; 5] = Ok tt /\
  proxy_test (fun x => x + 1) 3 8 true [1; 2; 3; 4; 5; 6] = Ok tt /\
  sane_estimates (est 3 12) (length [5; 7; 9; 11]) /\ p32_light false (est 3 12) seed0 [5; 7; 9; 11] /\
  p32_init_test false (est 3 12) rnd0 seed0 [5; 7; 9; 11] = Ok tt /\
  p32_hashes_test false (est 3 12) rnd0 seed0 [5; 7; 9; 11] = Ok tt /\
  p32_init_test true (est 3 12) rnd0 seed0 [5; 7; 9; 5] = Panic /\
  hash_eval true [1; 2; 3; 4] seed0 8 7 8 = Ok [3; 10; 22]%nat.
Proof. 
  split; [vm_compute; reflexivity|]. split; [vm_compute; reflexivity|]. split; [vm_compute; reflexivity|].
  split; [vm_compute; reflexivity|]. split; [apply est_sane; cbn [length]; lia|].
  split.
  { right. intros g Eg. destruct (slots_exist false false (est 3 12) _ g seed0 ltac:(apply est_sane; lia) Eg) as (slots & EV).
    exists slots. split; [exact EV|]. intros j. apply load_short. cbn [p32_keys map length]. lia. }
  split; [vm_compute; reflexivity|]. split; [vm_compute; reflexivity|]. split; vm_compute; reflexivity.
Qed.
