(** From hashes back to keys: the filter as the API shows it. *)
From Coq Require Import Permutation.
From Verif Require Import Base Hash Fuse3 Bfusep SpecFilter Base_facts Geom_facts Peel_facts Place_facts Filter_facts.
Local Open Scope Z_scope.

Lemma geometry_valid dbg fe n g : sane_estimates fe n -> geometry dbg fe n = Ok g ->
  valid_geom g /\ 4 <= g_seglen g <= 262144.
Proof.
  intros H E. destruct (geometry_ok dbg fe n H) as (g' & E' & V & L & _). rewrite E in E'.
  injection E' as <-. auto.
Qed.

Lemma geom_segcount g : valid_geom g -> 1 <= g_segcount g < two32.
Proof.
  intros (k & Hk & _ & _ & H1 & _ & _ & Hb). split; [auto|].
  assert (1 <= 2 ^ k) by (apply (Z.pow_le_mono_r 2 0 k); lia). nia.
Qed.

Section Keys.
Variable g : geom.
Hypothesis Hg : valid_geom g.
Variable seed : list Z.
Variable dbg : bool.
Variable slots : list Z -> list nat.
Hypothesis Hev : evaluates dbg seed (g_seglen g) (g_mask g) (g_scl g) slots.

Notation hash := (fun key => mix256 key seed).
Notation hs keys := (map (fun key => mix256 key seed) keys).
Notation inc := (inc (sl1 g) (sl2 g) (sl3 g)).
Notation deg := (deg (sl1 g) (sl2 g) (sl3 g)).
Notation peels := (peels (sl1 g) (sl2 g) (sl3 g)).

Lemma slots_key key : slots key = [sl1 g (mix256 key seed); sl2 g (mix256 key seed); sl3 g (mix256 key seed)].
Proof.
  specialize (Hev key). unfold hash_eval in Hev.
  destruct (positions dbg g (mix256 key seed) Hg (mix256_u64 key seed)) as [E _].
  rewrite E in Hev. cbn [bind] in Hev. injection Hev as <-. reflexivity.
Qed.

Lemma in_slots key j : In j (slots key) <-> inc (mix256 key seed) j = true.
Proof. rewrite slots_key, inc_true. cbn [In]. intuition. Qed.

Lemma load_deg keys j : Z.of_nat (load slots keys j) = deg (hs keys) j.
Proof.
  unfold load. induction keys as [|key keys IH]; [reflexivity|]. cbn [map filter Peel_facts.deg].
  destruct (in_dec Nat.eq_dec j (slots key)) as [I|N].
  - apply in_slots in I. rewrite I. cbn [length]. lia.
  - destruct (inc (mix256 key seed) j) eqn:E; [exfalso; apply N, in_slots; auto|]. lia.
Qed.

Lemma heavy_load keys : heavy g (hs keys) <-> exists j, (63 < load slots keys j)%nat.
Proof.
  split.
  - intros (j & Hj & Hd). exists j. rewrite <- load_deg in Hd. lia.
  - intros (j & Hj). exists j. pose proof (load_deg keys j) as E. split; [|lia].
    destruct (Nat.lt_ge_cases j (g_arrlen g)) as [L|L]; auto. exfalso.
    assert (Z0 : deg (hs keys) j = 0); [|lia].
    clear -L Hg seed dbg. induction keys as [|key keys IH]; [reflexivity|]. cbn [map Peel_facts.deg]. rewrite IH.
    destruct (inc (mix256 key seed) j) eqn:E; [|reflexivity]. exfalso. apply inc_true in E.
    destruct (Hs dbg g Hg (mix256 key seed) (mix256_u64 key seed)) as (B1 & B2 & B3 & _). lia.
Qed.

Lemma peelable_peels keys : peelable slots keys <-> peels (hs keys).
Proof.
  split.
  - intros H. induction H as [|key ks ks' j P I A HP IH]; [constructor|].
    apply (peels_take _ _ _ (mix256 key seed) _ (hs ks') j).
    + apply (Permutation_map hash) in P. exact P.
    + now apply in_slots.
    + intros h' Hh'. apply in_map_iff in Hh'. destruct Hh' as (key' & <- & Hk').
      destruct (inc (mix256 key' seed) j) eqn:E; auto. exfalso. apply (A key' Hk'), in_slots, E.
    + exact IH.
  - intros H. remember (hs keys) as M eqn:EM. revert keys EM.
    induction H as [|h M M' j P I A HP IH]; intros keys EM.
    + destruct keys; [constructor|discriminate].
    + subst M. apply Permutation_sym, Permutation_map_inv in P. destruct P as (l3 & E & P).
      destruct l3 as [|key ks']; [discriminate|]. cbn [map] in E. injection E as -> E.
      apply (peelable_take slots key keys ks' j); auto.
      * now apply in_slots.
      * intros key' Hk' I'. apply in_slots in I'. rewrite A in I'; [discriminate|]. rewrite E.
        apply in_map_iff. exists key'. auto.
Qed.

Lemma peels_subset M : peels M -> forall N R, Permutation M (N ++ R) -> peels N.
Proof.
  intros H. induction H as [|h M M' j P I A HP IH]; intros N R PN.
  - apply Permutation_nil in PN. apply app_eq_nil in PN. destruct PN as [-> _]. constructor.
  - rewrite P in PN.
    assert (Hin : In h (N ++ R)) by (apply (Permutation_in h PN); now left).
    apply in_app_iff in Hin. destruct Hin as [Hin|Hin].
    + apply in_split in Hin. destruct Hin as (N1 & N2 & ->).
      assert (PP : Permutation (h :: M') (h :: (N1 ++ N2) ++ R)).
      { rewrite PN. rewrite <- app_assoc. cbn [app]. rewrite <- app_assoc. symmetry.
        rewrite Permutation_middle. reflexivity. }
      apply Permutation_cons_inv in PP.
      apply (peels_take _ _ _ h _ (N1 ++ N2) j); auto.
      * symmetry. apply Permutation_middle.
      * intros h' Hh'. apply A. apply (Permutation_in h' (Permutation_sym PP)). apply in_app_iff. now left.
      * apply (IH _ R); auto.
    + apply in_split in Hin. destruct Hin as (R1 & R2 & ->).
      apply (IH N (R1 ++ R2)).
      assert (PP : Permutation (h :: M') (h :: N ++ R1 ++ R2)).
      { rewrite PN. symmetry. rewrite !app_assoc. apply Permutation_middle. }
      now apply Permutation_cons_inv in PP.
Qed.
End Keys.

Lemma key_hashes_eq keys seed : key_hashes keys seed = map (fun key => mix256 key seed) keys.
Proof. reflexivity. Qed.

Lemma key_hashes_u64 keys seed : Forall is_u64 (key_hashes keys seed).
Proof. apply Forall_forall. intros h Hh. apply in_map_iff in Hh. destruct Hh as (k & <- & _). apply mix256_u64. Qed.

Lemma all_distinct_nodup keys : all_distinct keys = true <-> NoDup keys.
Proof.
  induction keys as [|k keys IH]; cbn [all_distinct]; [split; auto; constructor|].
  rewrite andb_true_iff, negb_true_iff, IH. rewrite NoDup_cons_iff.
  assert (E : existsb (fun k' => if list_eq_dec Z.eq_dec k k' then true else false) keys = false <-> ~ In k keys).
  { split.
    - intros E Hin. assert (T : existsb (fun k' => if list_eq_dec Z.eq_dec k k' then true else false) keys = true).
      { apply existsb_exists. exists k. split; auto. destruct (list_eq_dec Z.eq_dec k k); congruence. }
      congruence.
    - intros N. destruct (existsb _ keys) eqn:E; auto. exfalso. apply existsb_exists in E.
      destruct E as (k' & Hk' & E). destruct (list_eq_dec Z.eq_dec k k'); [subst; auto|discriminate]. }
  rewrite E. reflexivity.
Qed.

(** Assignment never fails for a modulus that is non-zero modulo 2^32. *)
Lemma assign_total dbg g m p label stack : valid_geom g -> 0 < p -> p mod two32 <> 0 ->
  Forall (entry_ok is_u64) stack -> (forall e, In e stack -> hm_get m (fst e) <> None) ->
  forall fps, length fps = g_arrlen g ->
  exists fps', foldM (assign_one dbg g m p label) stack fps = Ok fps' /\ length fps' = g_arrlen g.
Proof.
  intros Hg Hp Hp32 HF HM. assert (P32 : 0 < p mod two32) by (pose proof (Z.mod_pos_bound p two32 ltac:(unfold two32; lia)); lia).
  induction stack as [|[h f] stack IH]; intros fps HL; [exists fps; auto|].
  apply Forall_cons_iff in HF. destruct HF as [[Hu Hf] HF]. cbn [fst snd] in *.
  assert (Hd : exists d, hm_get m h = Some d).
  { destruct (hm_get m h) eqn:E; [eauto|]. exfalso. apply (HM (h, f)); [now left|auto]. }
  destruct Hd as [d Hd].
  destruct (Hs dbg g Hg h Hu) as (B1 & B2 & B3 & _).
  assert (G : exists fps1, assign_one dbg g m p label fps (h, f) = Ok fps1 /\ length fps1 = g_arrlen g).
  { unfold assign_one. rewrite Hd, Hslots by auto. cbn [bind]. rewrite remz_pos by auto. cbn [bind].
    destruct Hf as [->|[->| ->]]; [change (Z.to_nat 0) with 0%nat|change (Z.to_nat 1) with 1%nat|change (Z.to_nat 2) with 2%nat];
      cbn [Nat.add idx nth_error bind].
    - rewrite (idx_nth fps (sl2 g h) 0), (idx_nth fps (sl3 g h) 0) by lia. cbn [bind].
      rewrite !remz_pos by auto. cbn [bind]. rewrite !remz_pos by auto. cbn [bind]. rewrite set_lt by lia.
      eexists. split; [reflexivity|]. now rewrite length_upd.
    - rewrite (idx_nth fps (sl1 g h) 0), (idx_nth fps (sl3 g h) 0) by lia. cbn [bind].
      rewrite !remz_pos by auto. cbn [bind]. rewrite !remz_pos by auto. cbn [bind]. rewrite set_lt by lia.
      eexists. split; [reflexivity|]. now rewrite length_upd.
    - rewrite (idx_nth fps (sl1 g h) 0), (idx_nth fps (sl2 g h) 0) by lia. cbn [bind].
      rewrite !remz_pos by auto. cbn [bind]. rewrite !remz_pos by auto. cbn [bind]. rewrite set_lt by lia.
      eexists. split; [reflexivity|]. now rewrite length_upd. }
  destruct G as (fps1 & E1 & L1). cbn [foldM]. rewrite E1. cbn [bind].
  apply IH; auto. intros e He. apply HM. now right.
Qed.

(** What one construction does, in every case. *)
Lemma construct_cases mi dbg fe rnd seed keys data p label g :
  geometry dbg fe (length keys) = Ok g -> sane_estimates fe (length keys) ->
  (length keys <= length data)%nat -> 0 < p -> p mod two32 <> 0 ->
  (dbg = true -> NoDup keys /\ 256 <= p) ->
  let hs := key_hashes keys seed in
  (exists fps stack m, good_stack g hs stack /\ ~ (NoDup hs /\ heavy g hs) /\ length fps = g_arrlen g /\
     (forall h i, last_at hs h i -> hm_get m h = Some (nth i data 0)) /\
     foldM (assign_one dbg g m p label) stack (map rnd (seq 0 (g_arrlen g))) = Ok fps /\
     bfusep_from_impl mi dbg fe rnd seed keys data p label =
       Ok {| bp_seed := seed; bp_segment_length := g_seglen g; bp_segment_length_mask := g_mask g;
             bp_segment_count_length := g_scl g; bp_fingerprints := fps; bp_ptxt_mod := p |}) \/
  (bfusep_from_impl mi dbg fe rnd seed keys data p label = Err EFilterFail /\
     (mi <> 0%nat -> (NoDup hs -> ~ peels (sl1 g) (sl2 g) (sl3 g) hs) /\ ~ (NoDup hs /\ heavy g hs))) \/
  (heavy g hs /\ (dbg = true -> bfusep_from_impl mi dbg fe rnd seed keys data p label = Panic)).
Proof.
  intros Eg Hsane HL Hp Hp32 Hdbg hs. destruct (geometry_valid _ _ _ _ Hsane Eg) as [Hg _].
  destruct (block_bits_ok (g_segcount g) (geom_segcount g Hg)) as (bb & Eb & Hbb & _).
  assert (Lh : length hs = length keys) by (unfold hs, key_hashes; apply map_length).
  assert (E0 : bfusep_from_impl mi dbg fe rnd seed keys data p label =
    (let* (stack, m) := attempts mi dbg g bb (length hs) hs data (fstate0 g (length hs)) [] in
     let* fingerprints := foldM (assign_one dbg g m p label) stack (map rnd (seq 0 (g_arrlen g))) in
     Ok {| bp_seed := seed; bp_segment_length := g_seglen g; bp_segment_length_mask := g_mask g;
             bp_segment_count_length := g_scl g; bp_fingerprints := fingerprints; bp_ptxt_mod := p |})).
  { unfold bfusep_from_impl. destruct dbg; cbn [andb].
    - destruct (Hdbg eq_refl) as [ND H256]. rewrite (proj2 (all_distinct_nodup keys) ND). cbn [negb].
      rewrite (proj2 (Z.ltb_ge _ _)) by auto. rewrite Eg. cbn [bind]. rewrite Eb. cbn [bind]. rewrite Lh. reflexivity.
    - rewrite Eg. cbn [bind]. rewrite Eb. cbn [bind]. rewrite Lh. reflexivity. }
  rewrite E0. clear E0.
  destruct (attempts_cases dbg g Hg mi bb hs data ltac:(lia) (key_hashes_u64 keys seed) ltac:(lia) [])
    as [(stack & m & E & GS & NH & Hm)|[(E & NP)|(HH & HP)]].
  - left. rewrite E. cbn [bind].
    assert (HM : forall e, In e stack -> hm_get m (fst e) <> None).
    { intros e He. destruct GS as (_ & _ & _ & I & _).
      destruct (last_at_exists hs (fst e)) as (i & Li); [apply I, in_map; auto|]. rewrite (Hm _ _ Li). discriminate. }
    destruct (assign_total dbg g m p label stack Hg Hp Hp32 (proj1 GS) HM (map rnd (seq 0 (g_arrlen g))))
      as (fps & Ef & Lf); [now rewrite map_length, seq_length|].
    exists fps, stack, m. rewrite Ef. cbn [bind]. auto 10.
  - right. left. rewrite E. cbn [bind]. auto.
  - right. right. split; auto. intros D. rewrite (HP D). reflexivity.
Qed.

Lemma from_impl_dbg mi fe rnd seed keys data p label f :
  bfusep_from_impl mi true fe rnd seed keys data p label = Ok f -> NoDup keys /\ 256 <= p.
Proof.
  unfold bfusep_from_impl. cbn [andb]. destruct (all_distinct keys) eqn:E; cbn [negb]; [|discriminate].
  destruct (Z.ltb_spec p 256); [discriminate|]. intros _. split; [now apply all_distinct_nodup|auto].
Qed.

Lemma from_impl_geom mi dbg fe rnd seed keys data p label f :
  bfusep_from_impl mi dbg fe rnd seed keys data p label = Ok f ->
  exists g, geometry dbg fe (length keys) = Ok g /\ bp_seed f = seed /\ bp_ptxt_mod f = p /\
    bp_segment_length f = g_seglen g /\ bp_segment_length_mask f = g_mask g /\
    bp_segment_count_length f = g_scl g.
Proof.
  unfold bfusep_from_impl. destruct (dbg && _); [discriminate|]. destruct (dbg && _); [discriminate|].
  destruct (geometry dbg fe (length keys)) as [g| | |]; cbn [bind]; try discriminate.
  destruct (block_bits (g_segcount g)) as [bb| | |]; cbn [bind]; try discriminate.
  destruct (attempts _ _ _ _ _ _ _ _ _) as [[stack m]| | |]; cbn [bind]; try discriminate.
  destruct (foldM _ stack _) as [fps| | |]; cbn [bind]; try discriminate.
  intros E. injection E as <-. exists g. cbn. auto 10.
Qed.

(** ** Lengths are kept whatever the load *)
Lemma assign_one_length dbg g m p label fps hf fps' :
  assign_one dbg g m p label fps hf = Ok fps' -> length fps' = length fps.
Proof.
  unfold assign_one. destruct hf as [hash found]. destruct (hm_get m hash); [|discriminate].
  intros H. apply bind_Ok in H as ([[i1 i2] i3] & _ & H).
  do 9 (apply bind_Ok in H as (? & _ & H)).
  apply set_Ok in H as [_ ->]. apply length_upd.
Qed.

Lemma from_impl_length mi dbg fe rnd seed keys data p label f :
  bfusep_from_impl mi dbg fe rnd seed keys data p label = Ok f ->
  exists g, geometry dbg fe (length keys) = Ok g /\ bp_seed f = seed /\ bp_ptxt_mod f = p /\
    bp_segment_length f = g_seglen g /\ bp_segment_length_mask f = g_mask g /\
    bp_segment_count_length f = g_scl g /\ length (bp_fingerprints f) = g_arrlen g.
Proof.
  unfold bfusep_from_impl. destruct (dbg && _); [discriminate|]. destruct (dbg && _); [discriminate|].
  intros H. apply bind_Ok in H as (g & Eg & H). apply bind_Ok in H as (bb & _ & H).
  apply bind_Ok in H as ([stack m] & _ & H). apply bind_Ok in H as (fps & Ef & H).
  injection H as <-. exists g. cbn. repeat (split; auto).
  apply (foldM_invariant (fun l => length l = g_arrlen g)) in Ef; auto.
  - now rewrite map_length, seq_length.
  - intros s s' x _ Hs E. apply assign_one_length in E. congruence.
Qed.
