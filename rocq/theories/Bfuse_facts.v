(** BinaryFuse8/16/32: construction and membership. *)
From Coq Require Import Permutation.
From Verif Require Import Base Hash Fuse3 Bfusep Xorf Bfuse SpecFilter SpecXorf Base_facts HashInj_facts
  Geom_facts Peel_facts KeyPeel_facts Place_facts Filter_facts FilterTop_facts.
Local Open Scope Z_scope.

Lemma sl1_eq g h : Z.to_nat (pos1 g h) = sl1 g h.
Proof. unfold sl1. reflexivity. Qed.
Lemma sl2_eq g h : Z.to_nat (pos2 g h) = sl2 g h.
Proof. unfold sl2. reflexivity. Qed.
Lemma sl3_eq g h : Z.to_nat (pos3 g h) = sl3 g h.
Proof. unfold sl3. reflexivity. Qed.

(** The seed used in iteration [i] when [seed] is the current one and [rng] the state. *)
Definition sq (rng seed : Z) (i : nat) : Z := match i with O => seed | S j => seed_from rng j end.
Lemma sq_retry i : sq (fst (splitmix64 1)) (snd (splitmix64 1)) i = retry_seed i.
Proof. destruct i; reflexivity. Qed.
Lemma sq_step rng seed i : sq (fst (splitmix64 rng)) (snd (splitmix64 rng)) i = sq rng seed (S i).
Proof. destruct i; reflexivity. Qed.

Lemma all_distinct64_nodup keys : all_distinct64 keys = true <-> NoDup keys.
Proof.
  induction keys as [|k keys IH]; cbn [all_distinct64].
  - split; [constructor|auto].
  - rewrite andb_true_iff, negb_true_iff, IH, NoDup_cons_iff.
    assert (E : existsb (Z.eqb k) keys = false <-> ~ In k keys); [|tauto].
    rewrite <- not_true_iff_false, existsb_exists. split.
    + intros H Hin. apply H. exists k. split; auto. apply Z.eqb_refl.
    + intros H (x & Hin & Ex). apply Z.eqb_eq in Ex. now subst x.
Qed.

Section BF.
Variable dbg : bool.
Variable g : geom.
Hypothesis Hg : valid_geom g.
Variable keys : list Z.
Notation hs seed := (map (fun key => mix key seed) keys).
Notation peels := (peels (sl1 g) (sl2 g) (sl3 g)).

Lemma hs_u64 seed : Forall is_u64 (hs seed).
Proof. apply Forall_forall. intros h Hh. apply in_map_iff in Hh. destruct Hh as (k & <- & _). apply mix_is_u64. Qed.

Lemma bf_attempts_cases mi bb : (bb <= 64)%nat -> forall rng seed,
  let size := length keys in
  (exists i stack, (i < mi)%nat /\
     bf_attempts mi dbg g bb size keys rng seed (fstate0 g size) = Ok (sq rng seed i, stack) /\
     good_stack g (hs (sq rng seed i)) stack /\
     (forall j, (j < i)%nat -> NoDup (hs (sq rng seed j)) -> ~ peels (hs (sq rng seed j))) /\
     (forall j, (j <= i)%nat -> NoDup (hs (sq rng seed j)) -> ~ heavy g (hs (sq rng seed j)))) \/
  (bf_attempts mi dbg g bb size keys rng seed (fstate0 g size) = Err EFilterFail /\
     (forall j, (j < mi)%nat -> (NoDup (hs (sq rng seed j)) -> ~ peels (hs (sq rng seed j)) /\
                                    ~ heavy g (hs (sq rng seed j))))) \/
  (exists i, (i < mi)%nat /\ heavy g (hs (sq rng seed i)) /\
     (forall j, (j < i)%nat -> NoDup (hs (sq rng seed j)) -> ~ peels (hs (sq rng seed j))) /\
     (dbg = true -> bf_attempts mi dbg g bb size keys rng seed (fstate0 g size) = Panic)).
Proof.
  intros Hbb. induction mi as [|mi IH]; intros rng seed size.
  - right. left. split; [reflexivity|]. intros j Hj. lia.
  - cbn [bf_attempts].
    pose proof (attempt_cases dbg g Hg bb (hs seed) Hbb (hs_u64 seed)) as AC.
    rewrite map_length in AC. fold size in AC.
    destruct AC as [(stack & E & GS & NH)|[(E & NP & NH)|(HH & HP)]].
    + left. exists 0%nat, stack. rewrite E. cbn [bind sq]. split; [lia|]. split; [reflexivity|].
      split; [exact GS|]. split; [intros j Hj; lia|]. intros j Hj ND. replace j with 0%nat in * by lia.
      cbn [sq] in *. tauto.
    + rewrite E. cbn [bind]. rewrite (surjective_pairing (splitmix64 rng)).
      specialize (IH (fst (splitmix64 rng)) (snd (splitmix64 rng))).
      assert (SQ : forall i, sq (fst (splitmix64 rng)) (snd (splitmix64 rng)) i = sq rng seed (S i)) by (intros; apply sq_step).
      destruct IH as [(i & stack & Hi & E2 & GS & NPs & NHs)|[(E2 & NPs)|(i & Hi & HH & NPs & HP)]].
      * left. exists (S i), stack. rewrite SQ in *. fold size in E2. split; [lia|]. split; [exact E2|]. split; [exact GS|].
        split.
        -- intros [|j] Hj; cbn [sq]; [auto|]. specialize (NPs j ltac:(lia)). rewrite SQ in NPs. exact NPs.
        -- intros [|j] Hj; cbn [sq]; [tauto|]. specialize (NHs j ltac:(lia)). rewrite SQ in NHs. exact NHs.
      * right. left. split; [exact E2|]. intros [|j] Hj; [cbn [sq]; tauto|].
        specialize (NPs j ltac:(lia)). rewrite SQ in NPs. exact NPs.
      * right. right. exists (S i). rewrite SQ in *. split; [lia|]. split; [exact HH|]. split.
        -- intros [|j] Hj; cbn [sq]; [auto|]. specialize (NPs j ltac:(lia)). rewrite SQ in NPs. exact NPs.
        -- intros D. exact (HP D).
    + right. right. exists 0%nat. split; [lia|]. split; [exact HH|]. split; [intros j Hj; lia|].
      intros D. rewrite (HP D). reflexivity.
Qed.

Lemma x3_contains w fps seed key : length fps = g_arrlen g ->
  bfuse_contains w dbg {| bf_seed := seed; bf_segment_length := g_seglen g; bf_segment_length_mask := g_mask g;
     bf_segment_count_length := g_scl g; bf_fingerprints := fps |} key =
  Ok (x3 (sl1 g) (sl2 g) (sl3 g) fps (mix key seed) =? fingerprint w (mix key seed)).
Proof.
  intros HL. unfold bfuse_contains.
  cbn [bf_seed bf_segment_length bf_segment_length_mask bf_segment_count_length bf_fingerprints].
  pose proof (mix_is_u64 key seed) as Hu. set (h := mix key seed) in *.
  destruct (positions dbg g h Hg Hu) as [E _]. rewrite E. cbn [bind].
  rewrite sl1_eq, sl2_eq, sl3_eq.
  destruct (Hs dbg g Hg h Hu) as (B1 & B2 & B3 & _).
  rewrite (idx_nth fps (sl1 g h) 0), (idx_nth fps (sl2 g h) 0), (idx_nth fps (sl3 g h) 0) by lia. cbn [bind].
  f_equal. fold (x3 (sl1 g) (sl2 g) (sl3 g) fps h). apply eq_true_iff_eq. rewrite !Z.eqb_eq, Z.lxor_eq_0_iff.
  split; congruence.
Qed.

Lemma bf_step w fps (e : Z * Z) : length fps = g_arrlen g -> is_u64 (fst e) ->
  (snd e = 0 \/ snd e = 1 \/ snd e = 2) ->
  exists v, bf_assign_one w dbg g fps e = Ok (upd fps (own_slot (sl1 g) (sl2 g) (sl3 g) e) v) /\
    x3 (sl1 g) (sl2 g) (sl3 g) (upd fps (own_slot (sl1 g) (sl2 g) (sl3 g) e) v) (fst e) = fingerprint w (fst e).
Proof.
  destruct e as [h f]. cbn [fst snd]. intros HL Hu Hf.
  destruct (Hs dbg g Hg h Hu) as (B1 & B2 & B3 & N12 & N13 & N23).
  unfold bf_assign_one. rewrite (Hslots dbg g Hg h Hu). cbn [bind].
  assert (XX : forall a x y, Z.lxor (Z.lxor (Z.lxor (Z.lxor a x) y) x) y = a).
  { intros a x y. apply Z.bits_inj'. intros n Hn. rewrite !Z.lxor_spec.
    destruct (Z.testbit a n), (Z.testbit x n), (Z.testbit y n); reflexivity. }
  destruct Hf as [->|[->| ->]].
  - change (Z.to_nat 0 + 1)%nat with 1%nat. change (Z.to_nat 0 + 2)%nat with 2%nat. change (Z.to_nat 0) with 0%nat.
    cbn [idx nth_error bind]. rewrite (idx_nth fps (sl2 g h) 0), (idx_nth fps (sl3 g h) 0) by lia. cbn [bind].
    rewrite set_lt by lia. eexists. split; [reflexivity|].
    change (own_slot (sl1 g) (sl2 g) (sl3 g) (h, 0)) with (sl1 g h).
    unfold x3. rewrite nth_upd_eq, !nth_upd_ne by (auto; lia).
    etransitivity; [|apply (XX _ (nth (sl2 g h) fps 0) (nth (sl3 g h) fps 0))]. reflexivity.
  - change (Z.to_nat 1 + 1)%nat with 2%nat. change (Z.to_nat 1 + 2)%nat with 3%nat. change (Z.to_nat 1) with 1%nat.
    cbn [idx nth_error bind]. rewrite (idx_nth fps (sl3 g h) 0), (idx_nth fps (sl1 g h) 0) by lia. cbn [bind].
    rewrite set_lt by lia. eexists. split; [reflexivity|].
    change (own_slot (sl1 g) (sl2 g) (sl3 g) (h, 1)) with (sl2 g h).
    unfold x3. rewrite nth_upd_eq, !nth_upd_ne by (auto; lia).
    etransitivity; [|apply (XX _ (nth (sl3 g h) fps 0) (nth (sl1 g h) fps 0))].
    rewrite (Z.lxor_comm (nth (sl1 g h) fps 0)). rewrite !Z.lxor_assoc. f_equal. f_equal. f_equal.
    apply Z.lxor_comm.
  - change (Z.to_nat 2 + 1)%nat with 3%nat. change (Z.to_nat 2 + 2)%nat with 4%nat. change (Z.to_nat 2) with 2%nat.
    cbn [idx nth_error bind]. rewrite (idx_nth fps (sl1 g h) 0), (idx_nth fps (sl2 g h) 0) by lia. cbn [bind].
    rewrite set_lt by lia. eexists. split; [reflexivity|].
    change (own_slot (sl1 g) (sl2 g) (sl3 g) (h, 2)) with (sl3 g h).
    unfold x3. rewrite nth_upd_eq, !nth_upd_ne by (auto; lia).
    etransitivity; [|apply (XX _ (nth (sl1 g h) fps 0) (nth (sl2 g h) fps 0))].
    rewrite (Z.lxor_comm _ (Z.lxor (Z.lxor (fingerprint w h) _) _)). now rewrite !Z.lxor_assoc.
Qed.

Lemma bf_assign_all w stack fps : Forall (entry_ok is_u64) stack ->
  ordered (sl1 g) (sl2 g) (sl3 g) stack -> length fps = g_arrlen g ->
  exists fps', foldM (bf_assign_one w dbg g) stack fps = Ok fps' /\ length fps' = g_arrlen g /\
    forall e, In e stack -> x3 (sl1 g) (sl2 g) (sl3 g) fps' (fst e) = fingerprint w (fst e).
Proof.
  intros HF HO HL.
  destruct (assign_gen (sl1 g) (sl2 g) (sl3 g) (g_arrlen g)
     (Z * Z)%type fst (own_slot (sl1 g) (sl2 g) (sl3 g)) (fingerprint w) (fun _ => True)
     (entry_ok is_u64)) with (step := bf_assign_one w dbg g) (stack := stack) (B := fps)
    as (fps' & E & L & _ & Sat); auto.
  - intros e [Ho Hf]. apply inc_true. unfold own_slot. destruct Hf as [->|[->| ->]]; cbn; auto.
  - intros B e LB [Ho Hf] _. apply bf_step; auto.
  - exists fps'. auto.
Qed.
End BF.

Lemma bfuse_construct mi w dbg fe rnd keys g :
  geometry dbg fe (length keys) = Ok g -> sane_estimates fe (length keys) ->
  (dbg = true -> NoDup keys) ->
  let hs i := map (fun key => mix key (retry_seed i)) keys in
  let peels := peels (sl1 g) (sl2 g) (sl3 g) in
  (exists i fps, (i < mi)%nat /\ length fps = g_arrlen g /\ peels (nodup Z.eq_dec (hs i)) /\
     (forall key, In key keys -> x3 (sl1 g) (sl2 g) (sl3 g) fps (mix key (retry_seed i)) = fingerprint w (mix key (retry_seed i))) /\
     (forall j, (j < i)%nat -> NoDup (hs j) -> ~ peels (hs j)) /\
     (forall j, (j <= i)%nat -> NoDup (hs j) -> ~ heavy g (hs j)) /\
     bfuse_from_impl mi w dbg fe rnd keys =
       Ok {| bf_seed := retry_seed i; bf_segment_length := g_seglen g; bf_segment_length_mask := g_mask g;
             bf_segment_count_length := g_scl g; bf_fingerprints := fps |}) \/
  (bfuse_from_impl mi w dbg fe rnd keys = Err EFilterFail /\
     (forall j, (j < mi)%nat -> NoDup (hs j) -> ~ peels (hs j) /\ ~ heavy g (hs j))) \/
  (exists i, (i < mi)%nat /\ heavy g (hs i) /\ (forall j, (j < i)%nat -> NoDup (hs j) -> ~ peels (hs j)) /\
     (dbg = true -> bfuse_from_impl mi w dbg fe rnd keys = Panic)).
Proof.
  intros Eg Hsane Hdbg hs peels. destruct (geometry_valid _ _ _ _ Hsane Eg) as [Hg _].
  destruct (block_bits_ok (g_segcount g) (geom_segcount g Hg)) as (bb & Eb & Hbb & _).
  assert (E0 : bfuse_from_impl mi w dbg fe rnd keys =
    (let* (seed, stack) := bf_attempts mi dbg g bb (length keys) keys (fst (splitmix64 1)) (snd (splitmix64 1)) (fstate0 g (length keys)) in
     let* fingerprints := foldM (bf_assign_one w dbg g) stack (map rnd (seq 0 (g_arrlen g))) in
     Ok {| bf_seed := seed; bf_segment_length := g_seglen g; bf_segment_length_mask := g_mask g;
           bf_segment_count_length := g_scl g; bf_fingerprints := fingerprints |})).
  { unfold bfuse_from_impl. destruct dbg; cbn [andb].
    - rewrite (proj2 (all_distinct64_nodup keys) (Hdbg eq_refl)). cbn [negb]. rewrite Eg. cbn [bind].
      rewrite (surjective_pairing (splitmix64 1)). rewrite Eb. cbn [bind]. reflexivity.
    - rewrite Eg. cbn [bind]. rewrite (surjective_pairing (splitmix64 1)). rewrite Eb. cbn [bind]. reflexivity. }
  rewrite E0. clear E0.
  destruct (bf_attempts_cases dbg g Hg keys mi bb ltac:(lia) (fst (splitmix64 1)) (snd (splitmix64 1)))
    as [(i & stack & Hi & E & GS & NP & NH)|[(E & NP)|(i & Hi & HH & NP & HP)]].
  - left. rewrite sq_retry in *. destruct GS as (G1 & G2 & G3 & G4 & G5).
    destruct (bf_assign_all dbg g Hg w stack (map rnd (seq 0 (g_arrlen g))) G1 G2) as (fps & Ef & Lf & Sat).
    { now rewrite map_length, seq_length. }
    exists i, fps. split; [exact Hi|]. split; [exact Lf|]. split; [|split; [|split; [|split]]].
    + apply (peels_perm g (map fst stack)); [|exact G5].
      apply NoDup_Permutation; [apply (peels_nodup g); exact G5|apply NoDup_nodup|].
      intros h. rewrite nodup_In. split; auto.
    + intros key Hk. assert (In (mix key (retry_seed i)) (map fst stack)) as H by (apply G3, (in_map (fun key => mix key (retry_seed i))), Hk).
      apply in_map_iff in H. destruct H as (e & <- & He). apply Sat, He.
    + intros j Hj. specialize (NP j Hj). rewrite sq_retry in NP. exact NP.
    + intros j Hj. specialize (NH j Hj). rewrite sq_retry in NH. exact NH.
    + rewrite E. cbn [bind]. rewrite Ef. reflexivity.
  - right. left. rewrite E. cbn [bind]. split; [reflexivity|]. intros j Hj. specialize (NP j Hj). rewrite sq_retry in NP. exact NP.
  - right. right. exists i. rewrite sq_retry in HH. split; [exact Hi|]. split; [exact HH|]. split.
    + intros j Hj. specialize (NP j Hj). rewrite sq_retry in NP. exact NP.
    + intros D. rewrite (HP D). reflexivity.
Qed.

Lemma bfuse_dbg_distinct mi w fe rnd keys f :
  bfuse_from_impl mi w true fe rnd keys = Ok f -> NoDup keys.
Proof.
  unfold bfuse_from_impl. cbn [andb]. destruct (all_distinct64 keys) eqn:E; cbn [negb]; [|discriminate].
  intros _. now apply all_distinct64_nodup.
Qed.

Lemma bf_probes_slots dbg g seed slots : valid_geom g -> bf_probes dbg g seed slots ->
  forall key, slots key = [sl1 g (mix key seed); sl2 g (mix key seed); sl3 g (mix key seed)].
Proof.
  intros Hg H key. destruct (H key) as (a & b & c & E & ->).
  destruct (positions dbg g (mix key seed) Hg (mix_is_u64 key seed)) as [E' _]. rewrite E' in E.
  injection E as <- <- <-. unfold sl1, sl2, sl3. reflexivity.
Qed.

Lemma heavy_link g seed slots keys : valid_geom g ->
  (forall key, slots key = [sl1 g (mix key seed); sl2 g (mix key seed); sl3 g (mix key seed)]) ->
  heavy g (map (fun key => mix key seed) keys) -> exists j, (63 < load slots keys j)%nat.
Proof.
  intros Hg Hsl (j & Hj & Hd). exists j.
  rewrite <- (link_load (sl1 g) (sl2 g) (sl3 g) Z (fun key => mix key seed) slots Hsl) in Hd. lia.
Qed.

(** ** The seed sequence *)
Lemma seed_from_eq i : forall rng, seed_from rng i = sm_out ((rng + (Z.of_nat i + 1) * sm_step) mod two64).
Proof.
  induction i as [|i IH]; intros rng; cbn [seed_from]; rewrite splitmix64_eq; cbn [fst snd].
  - unfold wadd64. f_equal.
  - rewrite IH. f_equal. unfold wadd64. rewrite Z.add_mod_idemp_l by (unfold two64; lia). f_equal. lia.
Qed.

Definition sm_step_inv : Z := 0xf1de83e19937733d.
Lemma sm_step_inv_eq : exists q, sm_step * sm_step_inv = 1 + q * two64.
Proof. exists (sm_step * sm_step_inv / two64). vm_compute. reflexivity. Qed.

Lemma arith_inj rng st inv x q M : 0 <= x < M -> st * inv = 1 + q * M ->
  (((rng + (x + 1) * st) mod M - (rng + st)) * inv) mod M = x.
Proof.
  intros Hx E. assert (M <> 0) by lia.
  rewrite <- Z.mul_mod_idemp_l by auto. rewrite Zminus_mod_idemp_l. rewrite Z.mul_mod_idemp_l by auto.
  replace ((rng + (x + 1) * st - (rng + st)) * inv) with (x + (x * q) * M).
  2:{ transitivity (x * (st * inv)); [rewrite E; ring|ring]. }
  rewrite Z_mod_plus_full. apply Z.mod_small; auto.
Qed.

Lemma arith_surj rng st inv s q M : 0 <= s < M -> st * inv = 1 + q * M ->
  (rng + (((s - rng - st) * inv) mod M + 1) * st) mod M = s.
Proof.
  intros Hs E. assert (M <> 0) by lia.
  replace (rng + (((s - rng - st) * inv) mod M + 1) * st) with (rng + st + ((s - rng - st) * inv) mod M * st) by ring.
  rewrite <- Z.add_mod_idemp_r by auto. rewrite Z.mul_mod_idemp_l by auto.
  rewrite Z.add_mod_idemp_r by auto.
  replace (rng + st + (s - rng - st) * inv * st) with (s + ((s - rng - st) * q) * M).
  2:{ transitivity (rng + st + (s - rng - st) * (st * inv)); [rewrite E; ring|ring]. }
  rewrite Z_mod_plus_full. apply Z.mod_small; auto.
Qed.

Lemma seed_from_inj rng i j : (Z.of_nat i < two64) -> (Z.of_nat j < two64) ->
  seed_from rng i = seed_from rng j -> i = j.
Proof.
  intros Hi Hj. rewrite !seed_from_eq. intros E.
  apply (f_equal sm_unout) in E. rewrite !sm_unout_out in E by apply is_u64_mod.
  destruct sm_step_inv_eq as [q Hq]. apply Nat2Z.inj.
  pose proof (arith_inj rng sm_step sm_step_inv _ q two64 (conj (Nat2Z.is_nonneg i) Hi) Hq) as E1.
  pose proof (arith_inj rng sm_step sm_step_inv _ q two64 (conj (Nat2Z.is_nonneg j) Hj) Hq) as E2.
  rewrite E in E1. exact (eq_trans (eq_sym E1) E2).
Qed.

Lemma seed_from_surj rng s : is_u64 s -> exists i, (Z.of_nat i < two64) /\ seed_from rng i = s.
Proof.
  intros Hs. set (x := ((sm_unout s - rng - sm_step) * sm_step_inv) mod two64).
  assert (Hx : 0 <= x < two64) by (apply Z.mod_pos_bound; reflexivity).
  exists (Z.to_nat x). rewrite Z2Nat.id by apply Hx. split; [apply Hx|]. rewrite seed_from_eq, Z2Nat.id by apply Hx.
  destruct sm_step_inv_eq as [q Hq]. unfold x.
  rewrite (arith_surj _ _ _ _ q) by (auto; apply sm_unout_u64). apply sm_out_unout; auto.
Qed.
Lemma seed_from_u64 rng i : is_u64 (seed_from rng i).
Proof. rewrite seed_from_eq. apply sm_out_u64. Qed.

Lemma sl_bf_probes dbg g seed : valid_geom g ->
  bf_probes dbg g seed (fun key => [sl1 g (mix key seed); sl2 g (mix key seed); sl3 g (mix key seed)]).
Proof.
  intros Hg key. destruct (positions dbg g (mix key seed) Hg (mix_is_u64 key seed)) as [E' _].
  exists (pos1 g (mix key seed)), (pos2 g (mix key seed)), (pos3 g (mix key seed)).
  split; [exact E'|]. unfold sl1, sl2, sl3. reflexivity.
Qed.

Lemma sl_increasing g h : valid_geom g -> is_u64 h ->
  (sl1 g h < sl2 g h < sl3 g h)%nat /\ (sl3 g h < g_arrlen g)%nat.
Proof.
  intros Hg Hu. destruct (slots_ok true g h Hg Hu) as (_ & _ & _ & B3 & _). split; [|exact B3]. clear B3.
  destruct (positions true g h Hg Hu) as (E & s & Hs & N1 & N2 & N3 & D1 & D2 & D3).
  unfold sl1, sl2, sl3. clear E.
  assert (HL : 0 < g_seglen g) by (destruct Hg as (k & Hk & -> & _); apply Z.pow_pos_nonneg; lia).
  clear Hg Hu. generalize dependent (pos1 g h). generalize dependent (pos2 g h). generalize dependent (pos3 g h).
  generalize dependent (g_seglen g). intros L HL p3 N3 D3 p2 N2 D2 p1 N1 D1.
  assert (L12 : p1 < p2).
  { destruct (Z.lt_ge_cases p1 p2) as [|G]; auto. exfalso. pose proof (Z.div_le_mono _ _ L HL G). lia. }
  assert (L23 : p2 < p3).
  { destruct (Z.lt_ge_cases p2 p3) as [|G]; auto. exfalso. pose proof (Z.div_le_mono _ _ L HL G). lia. }
  split; apply Z2Nat.inj_lt; lia.
Qed.

(** The shape of every filter that is returned. *)
Lemma bf_assign_length w dbg g fps hf fps' : bf_assign_one w dbg g fps hf = Ok fps' -> length fps' = length fps.
Proof.
  unfold bf_assign_one. destruct hf as [hash found]. intros E.
  apply bind_Ok in E as ([[i1 i2] i3] & _ & E).
  apply bind_Ok in E as (s1 & _ & E). apply bind_Ok in E as (x1 & _ & E). apply bind_Ok in E as (s2 & _ & E).
  apply bind_Ok in E as (x2 & _ & E). apply bind_Ok in E as (s0 & _ & E).
  unfold set in E. destruct (s0 <? length fps)%nat; [|discriminate]. injection E as <-. apply length_upd.
Qed.

Lemma bfuse_record mi w dbg fe rnd keys f : bfuse_from_impl mi w dbg fe rnd keys = Ok f ->
  exists g sd fps, geometry dbg fe (length keys) = Ok g /\ length fps = g_arrlen g /\
    f = {| bf_seed := sd; bf_segment_length := g_seglen g; bf_segment_length_mask := g_mask g;
           bf_segment_count_length := g_scl g; bf_fingerprints := fps |}.
Proof.
  unfold bfuse_from_impl. destruct (dbg && _); [discriminate|].
  intros H. apply bind_Ok in H as (g & Eg & H). destruct (splitmix64 1) as [rng seed].
  apply bind_Ok in H as (bb & _ & H). apply bind_Ok in H as ([sd stack] & _ & H). apply bind_Ok in H as (fps & Ef & H).
  exists g, sd, fps. split; [exact Eg|]. split.
  { apply (foldM_invariant (fun l => length l = g_arrlen g)) in Ef; [exact Ef| |].
    - now rewrite map_length, seq_length.
    - intros s s' x _ Hs E. apply bf_assign_length in E. congruence. }
  injection H as <-. reflexivity.
Qed.

Lemma bfuse_length mi w dbg fe rnd keys f : bfuse_from_impl mi w dbg fe rnd keys = Ok f ->
  exists g, geometry dbg fe (length keys) = Ok g /\ bfuse_len f = g_arrlen g.
Proof. intros E. destruct (bfuse_record _ _ _ _ _ _ _ E) as (g & sd & fps & Eg & L & ->). exists g. split; [exact Eg|exact L]. Qed.
