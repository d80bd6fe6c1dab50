(** Construction and retrieval of the modular binary fuse filter. *)
From Coq Require Import Permutation.
From Verif Require Import Base Hash Fuse3 Bfusep Base_facts Geom_facts Peel_facts Place_facts.
Local Open Scope Z_scope.

Section Construct.
Variable dbg : bool.
Variable g : geom.
Hypothesis Hg : valid_geom g.

Notation inc := (inc (sl1 g) (sl2 g) (sl3 g)).
Notation deg := (deg (sl1 g) (sl2 g) (sl3 g)).
Notation peels := (peels (sl1 g) (sl2 g) (sl3 g)).
Notation repr := (repr (sl1 g) (sl2 g) (sl3 g) (g_arrlen g)).
Notation own_slot := (own_slot (sl1 g) (sl2 g) (sl3 g)).
Notation ordered := (ordered (sl1 g) (sl2 g) (sl3 g)).
Notation entry_ok := (entry_ok is_u64).
Notation counted := (counted (sl1 g) (sl2 g) (sl3 g)).

Lemma Hs : forall h, is_u64 h -> (sl1 g h < g_arrlen g)%nat /\ (sl2 g h < g_arrlen g)%nat /\
  (sl3 g h < g_arrlen g)%nat /\ sl1 g h <> sl2 g h /\ sl1 g h <> sl3 g h /\ sl2 g h <> sl3 g h.
Proof. intros h Hh. apply (slots_ok dbg g h Hg Hh). Qed.
Lemma Hslots : forall h, is_u64 h -> slots dbg g h = Ok (sl1 g h, sl2 g h, sl3 g h).
Proof. intros h Hh. apply (slots_ok dbg g h Hg Hh). Qed.

Lemma repr_init : repr no_own [] (repeat 0 (g_arrlen g), repeat 0 (g_arrlen g)).
Proof.
  split; [cbn; apply repeat_length|]. split; [cbn; apply repeat_length|].
  intros j Hj _. cbn [fst snd]. rewrite !nth_repeat. unfold cnt. cbn [Peel_facts.deg px hx]. lia.
Qed.

Lemma counted_init : counted [] [] 0.
Proof.
  split; [reflexivity|]. split; [tauto|]. split; [intros; cbn [Peel_facts.deg]; lia|].
  intros _. split; [constructor|reflexivity].
Qed.

Lemma peels_nodup M : peels M -> NoDup M.
Proof.
  intros H. induction H as [|h M M' j P I A HP IH]; [constructor|].
  apply (Permutation_NoDup (Permutation_sym P)). constructor; auto.
  intros Hin. specialize (A h Hin). congruence.
Qed.

Lemma peels_perm A B : Permutation A B -> peels A -> peels B.
Proof.
  intros PAB HA. inversion HA as [|h A' M' j P I Hf HP]; subst.
  - apply Permutation_nil in PAB. subst. constructor.
  - apply (peels_take _ _ _ h B M' j); auto. now rewrite <- PAB.
Qed.

Definition good_stack (hs : list Z) (stack : list (Z * Z)) : Prop :=
  Forall entry_ok stack /\ ordered stack /\ (forall h, In h hs -> In h (map fst stack)) /\
  (forall h, In h (map fst stack) -> In h hs) /\ peels (map fst stack).

Definition heavy (hs : list Z) : Prop := exists j, (j < g_arrlen g)%nat /\ 63 < deg hs j.

Lemma attempt_cases bb hs :
  (bb <= 64)%nat -> Forall is_u64 hs ->
  let size := length hs in
  (exists stack, attempt dbg g bb size hs (fstate0 g size) = Ok (Done stack) /\
       good_stack hs stack /\ ~ (NoDup hs /\ heavy hs)) \/
  (attempt dbg g bb size hs (fstate0 g size) = Ok (Retry (fstate0 g size)) /\
       (NoDup hs -> ~ peels hs) /\ ~ (NoDup hs /\ heavy hs)) \/
  (heavy hs /\ (dbg = true -> attempt dbg g bb size hs (fstate0 g size) = Panic)).
Proof.
  intros Hbb HF size. destruct (place_all_ok bb size Hbb hs eq_refl HF) as (order & Eo & Lo & Po & _).
  assert (HFo : Forall is_u64 (firstn size order)) by (apply (Permutation_Forall (Permutation_sym Po)); auto).
  assert (HV : forall j, deg (firstn size order) j = deg hs j) by (intros j; exact (deg_perm _ _ _ _ _ Hs _ _ j Po)).
  assert (A : attempt dbg g bb size hs (fstate0 g size) =
    (let* (t, duplicates, error) :=
       foldM (count_one dbg g) (firstn size order) (repeat 0 (g_arrlen g), repeat 0 (g_arrlen g), 0%nat, false) in
     if (error : bool) then Ok (Skip {| f_order := order; f_tables := t |})
     else
    let* q := init_queue (g_arrlen g) (fst t) in
    let* (_, stack, t) := peel (g_arrlen g + 2 * size + 1) dbg g size (q, [], t) in
    if (length stack + duplicates =? size)%nat then Ok (Done stack)
    else Ok (Retry (fstate0 g size)))).
  { unfold attempt. cbn [fstate0 f_order f_tables]. rewrite Eo. cbn [bind].
    rewrite foldM_idx by lia. reflexivity. }
  destruct (count_all (sl1 g) (sl2 g) (sl3 g) (g_arrlen g) is_u64 Hs dbg g Hslots
              (firstn size order) [] [] _ 0%nat false HFo counted_init repr_init)
    as [(t & d & M & e & E & HC & R & He)|((j & Hj & Hd) & HP)].
  - unfold tables in A, E. rewrite E in A. cbn [bind] in A. rewrite (He eq_refl) in A. cbv iota in A. cbn [app] in HC.
    assert (HM : Forall is_u64 M).
    { apply Forall_forall. intros h Hh. rewrite Forall_forall in HFo. apply HFo. now apply HC. }
    destruct HC as (CL & CI & CD & CN).
    assert (NH : ~ (NoDup hs /\ heavy hs)).
    { intros (ND & j & Hj & Hd). destruct R as (_ & _ & R). destruct (R j Hj (fun f => f)) as (_ & _ & L).
      destruct CN as [PM _]; [apply (Permutation_NoDup (Permutation_sym Po)); auto|].
      rewrite (deg_perm _ _ _ (g_arrlen g) is_u64 Hs _ _ j PM) in L. rewrite HV in L. lia. }
    assert (LF : length (firstn size order) = size) by (rewrite firstn_length; lia).
    destruct (init_queue_inv (sl1 g) (sl2 g) (sl3 g) (g_arrlen g) is_u64 Hs g eq_refl M t R HM) as (q & Eq & Lq & Inv).
    rewrite Eq in A. cbn [bind] in A.
    destruct (peel_run (sl1 g) (sl2 g) (sl3 g) (g_arrlen g) is_u64 Hs dbg g Hslots eq_refl M size
               ltac:(lia) (g_arrlen g + 2 * size + 1) q [] M t Inv ltac:(lia)) as (stack & M' & t' & Ep & Inv').
    unfold tables in A, Ep. rewrite Ep in A. cbn [bind] in A.
    pose proof (peel_final _ _ _ _ _ Hs _ _ Hslots eq_refl _ _ _ _ Inv') as Fin.
    pose proof (pi_perm _ _ _ _ _ _ _ _ _ _ Inv') as PP.
    pose proof (Permutation_length PP) as PL. rewrite app_length, map_length in PL.
    destruct (Nat.eqb_spec (length stack + d) size) as [ES|ES].
    + left. exists stack. split; [exact A|]. split; [|exact NH].
      assert (EM : M' = []) by (apply length_zero_iff_nil; lia).
      assert (PM : peels M) by (apply Fin; auto). rewrite EM, app_nil_r in PP.
      split; [apply (pi_stack _ _ _ _ _ _ _ _ _ _ Inv')|].
      split; [apply (pi_ord _ _ _ _ _ _ _ _ _ _ Inv')|].
      assert (IFF : forall h, In h (map fst stack) <-> In h hs).
      { intros h. split; intros Hh.
        - apply (Permutation_in h Po). apply CI. apply (Permutation_in h PP). auto.
        - apply (Permutation_in h (Permutation_sym PP)). apply CI. apply (Permutation_in h (Permutation_sym Po)). auto. }
      split; [intros h; apply IFF|]. split; [intros h; apply IFF|].
      apply (peels_perm M); auto. now symmetry.
    + right. left. split; [exact A|]. split; [|exact NH]. intros ND Hp.
      destruct CN as [PM Hd0]; [apply (Permutation_NoDup (Permutation_sym Po)); auto|].
      assert (M' = []).
      { apply Fin. apply (peels_perm hs); auto. rewrite PM. now symmetry. }
      subst M'. cbn [length] in PL. apply ES. lia.
  - right. right. cbn [app] in *. split.
    + exists j. split; auto. now rewrite <- HV.
    + intros D. specialize (HP D). unfold tables in A, HP. rewrite A, HP. reflexivity.
Qed.

(** ** The map from hashes to data *)
Definition last_at (hs : list Z) (h : Z) (i : nat) : Prop :=
  nth_error hs i = Some h /\ forall j, (i < j)%nat -> nth_error hs j <> Some h.

Lemma last_at_unique hs h i j : last_at hs h i -> last_at hs h j -> i = j.
Proof.
  intros [E1 A1] [E2 A2]. destruct (Nat.lt_trichotomy i j) as [L|[L|L]]; auto.
  - exfalso. exact (A1 j L E2).
  - exfalso. exact (A2 i L E1).
Qed.

Lemma last_at_exists hs h : In h hs -> exists i, last_at hs h i.
Proof.
  induction hs as [|x hs IH] using rev_ind; intros Hin; [destruct Hin|].
  destruct (Z.eq_dec x h) as [->|N].
  - exists (length hs). split.
    + rewrite nth_error_app2, Nat.sub_diag by lia. reflexivity.
    + intros j Hj. replace (nth_error (hs ++ [h]) j) with (@None Z); [discriminate|].
      symmetry. apply nth_error_None. rewrite app_length. cbn. lia.
  - apply in_app_iff in Hin. destruct Hin as [Hin|[E|[]]]; [|congruence].
    destruct (IH Hin) as (i & E & A). exists i. assert (i < length hs)%nat by (apply nth_error_Some; congruence).
    split; [now rewrite nth_error_app1|]. intros j Hj.
    destruct (Nat.lt_ge_cases j (length hs)) as [L|L]; [rewrite nth_error_app1; auto|].
    rewrite nth_error_app2 by lia. destruct (j - length hs)%nat as [|k]; cbn; [congruence|].
    destruct k; discriminate.
Qed.

Lemma insert_all_ok hs data m :
  (length hs <= length data)%nat ->
  exists m', insert_all hs data m = Ok m' /\
    forall h i, last_at hs h i -> hm_get m' h = Some (nth i data 0).
Proof.
  intros HL. unfold insert_all.
  assert (G : forall k, (k <= length hs)%nat ->
    exists m', foldM (fun m ih => let* d := idx data (fst ih) in Ok ((snd ih, d) :: m))
        (combine (seq 0 k) (firstn k hs)) m = Ok m' /\
      forall h i, last_at (firstn k hs) h i -> hm_get m' h = Some (nth i data 0)).
  { induction k as [|k IH]; intros Hk.
    - exists m. split; [reflexivity|]. intros h i [E _]. destruct i; discriminate.
    - destruct IH as (m' & E & IHm); [lia|].
      assert (EF : firstn (S k) hs = firstn k hs ++ [nth k hs 0]).
      { rewrite <- (firstn_skipn k hs) at 1. rewrite firstn_app, firstn_length.
        rewrite firstn_all2 by (rewrite firstn_length; lia). f_equal.
        replace (S k - Nat.min k (length hs))%nat with 1%nat by lia.
        destruct (skipn k hs) as [|a r] eqn:E'.
        - apply (f_equal (@length Z)) in E'. rewrite skipn_length in E'. cbn in E'. lia.
        - cbn [firstn]. f_equal. rewrite <- (firstn_skipn k hs), E'. rewrite app_nth2; rewrite firstn_length; [|lia].
          replace (k - Nat.min k (length hs))%nat with 0%nat by lia. reflexivity. }
      rewrite EF, seq_S'. cbn [Nat.add].
      rewrite combine_app by (rewrite seq_length, firstn_length; lia).
      rewrite foldM_app, E. cbn [bind combine foldM fst snd].
      rewrite (idx_nth data k 0) by lia. cbn [bind]. eexists. split; [reflexivity|].
      intros h i [E1 A1]. cbn [hm_get].
      assert (LFk : length (firstn k hs) = k) by (rewrite firstn_length; lia).
      destruct (Z.eqb_spec (nth k hs 0) h) as [Eh|Nh].
      + assert (i = k); [|now subst].
        destruct (Nat.lt_trichotomy i k) as [L|[L|L]]; auto.
        * exfalso. apply (A1 k L). rewrite nth_error_app2, LFk, Nat.sub_diag by lia. cbn. now subst.
        * exfalso. assert (i < length (firstn k hs ++ [nth k hs 0%Z]))%nat by (apply nth_error_Some; congruence).
          rewrite app_length, LFk in *. cbn in *. lia.
      + apply IHm. split.
        * destruct (Nat.lt_ge_cases i k) as [L|L]; [rewrite nth_error_app1 in E1 by lia; auto|].
          rewrite nth_error_app2 in E1 by lia. destruct (i - length (firstn k hs))%nat as [|z]; cbn in E1; [congruence|].
          destruct z; discriminate.
        * intros j Hj. destruct (Nat.lt_ge_cases j k) as [L|L].
          -- specialize (A1 j Hj). rewrite nth_error_app1 in A1 by lia. auto.
          -- replace (nth_error (firstn k hs) j) with (@None Z); [discriminate|].
             symmetry. apply nth_error_None. lia. }
  destruct (G (length hs) (le_n _)) as (m' & E & H). rewrite firstn_all in *. exists m'. auto.
Qed.

Lemma attempts_cases mi bb hs data :
  (bb <= 64)%nat -> Forall is_u64 hs -> (length hs <= length data)%nat ->
  forall m, let size := length hs in
  (exists stack m', attempts mi dbg g bb size hs data (fstate0 g size) m = Ok (stack, m') /\
       good_stack hs stack /\ ~ (NoDup hs /\ heavy hs) /\
       (forall h i, last_at hs h i -> hm_get m' h = Some (nth i data 0))) \/
  (attempts mi dbg g bb size hs data (fstate0 g size) m = Err EFilterFail /\
       (mi <> 0%nat -> (NoDup hs -> ~ peels hs) /\ ~ (NoDup hs /\ heavy hs))) \/
  (heavy hs /\ (dbg = true -> attempts mi dbg g bb size hs data (fstate0 g size) m = Panic)).
Proof.
  intros Hbb HF HL m size. revert m. induction mi as [|mi IH]; intros m.
  - right. left. cbn [attempts]. split; auto.
  - destruct (insert_all_ok hs data m HL) as (m' & Em & Hm).
    cbn [attempts]. rewrite Em. cbn [bind].
    destruct (attempt_cases bb hs Hbb HF) as [(stack & E & GS & NH)|[(E & NP & NH)|(HH & HP)]]; fold size in E || fold size in HP.
    + left. exists stack, m'. rewrite E. cbn [bind]. auto.
    + rewrite E. cbn [bind]. destruct (IH m') as [(stack & m2 & E2 & GS & NH2 & Hm2)|[(E2 & NP2)|(HH & HP)]].
      * left. exists stack, m2. auto.
      * right. left. split; auto.
      * right. right. split; auto.
    + right. right. split; auto. intros D. rewrite (HP D). reflexivity.
Qed.

Lemma attempts_panic_bound mi : forall bb hs data, (bb <= 64)%nat -> Forall is_u64 hs -> (length hs <= length data)%nat ->
  forall m, heavy hs -> NoDup hs -> dbg = true -> mi <> 0%nat ->
  attempts mi dbg g bb (length hs) hs data (fstate0 g (length hs)) m = Panic.
Proof.
  intros bb hs data Hbb HF HL m HH ND D Hmi.
  destruct (attempts_cases mi bb hs data Hbb HF HL m) as [(s & m' & _ & _ & N & _)|[(_ & N)|(_ & N)]].
  - exfalso; auto.
  - destruct (N Hmi) as [_ N']. exfalso; auto.
  - auto.
Qed.

(** ** Assignment *)
Variable k : Z.
Hypothesis Hk : 0 <= k <= 31.
Variable label : Z.

Lemma p_pos : 0 < 2 ^ k. Proof. apply Z.pow_pos_nonneg; lia. Qed.
Lemma p_lt : 2 ^ k < two32.
Proof. rewrite two32_eq. apply Z.pow_lt_mono_r; lia. Qed.
Lemma p_small : 2 ^ k mod two32 = 2 ^ k.
Proof. apply Z.mod_small. pose proof p_pos. pose proof p_lt. lia. Qed.
Lemma mod32_modp x : (x mod two32) mod 2 ^ k = x mod 2 ^ k.
Proof.
  assert (E : two32 = 2 ^ (32 - k) * 2 ^ k) by (rewrite <- Z.pow_add_r by lia; rewrite two32_eq; f_equal; lia).
  symmetry. apply Znumtheory.Zmod_div_mod; [apply p_pos|unfold two32; lia|].
  exists (2 ^ (32 - k)). exact E.
Qed.

Lemma addL a b : (a mod two32 + b) mod 2 ^ k = (a + b) mod 2 ^ k.
Proof. rewrite Zplus_mod, mod32_modp. now rewrite <- Zplus_mod. Qed.
Lemma addR a b : (a + b mod two32) mod 2 ^ k = (a + b) mod 2 ^ k.
Proof. rewrite Zplus_mod, mod32_modp. now rewrite <- Zplus_mod. Qed.
Lemma addR' a b : (a + b mod 2 ^ k) mod 2 ^ k = (a + b) mod 2 ^ k.
Proof. rewrite Zplus_mod, Zmod_mod. now rewrite <- Zplus_mod. Qed.

Definition val (fps : list Z) (h : Z) : Z :=
  (nth (sl1 g h) fps 0 + nth (sl2 g h) fps 0 + nth (sl3 g h) fps 0 + mix h label) mod 2 ^ k.

Lemma retrieve_val seed0 fps key :
  length fps = g_arrlen g ->
  retrieve dbg {| bp_seed := seed0; bp_segment_length := g_seglen g; bp_segment_length_mask := g_mask g;
     bp_segment_count_length := g_scl g; bp_fingerprints := fps; bp_ptxt_mod := 2 ^ k |} key label =
  Ok (val fps (mix256 key seed0)).
Proof.
  intros HL. unfold retrieve. cbn [bp_seed bp_segment_length bp_segment_length_mask bp_segment_count_length bp_fingerprints bp_ptxt_mod].
  pose proof (mix256_u64 key seed0) as Hu. set (h := mix256 key seed0) in *.
  destruct (positions dbg g h Hg Hu) as [E _]. rewrite E. cbn [bind].
  fold (sl1 g h). fold (sl2 g h). fold (sl3 g h).
  destruct (Hs h Hu) as (B1 & B2 & B3 & _).
  rewrite (idx_nth fps (sl1 g h) 0), (idx_nth fps (sl2 g h) 0), (idx_nth fps (sl3 g h) 0) by (clear - B1 B2 B3 HL; lia). cbn [bind].
  rewrite remz_pos by apply p_pos. cbn [bind]. rewrite p_small.
  rewrite remz_pos by apply p_pos. f_equal. unfold wadd32, val. rewrite mod32_modp.
  rewrite addL, addR, addR', <- !Z.add_assoc, addL, !Z.add_assoc. reflexivity.
Qed.

Definition dat (m : list (Z * Z)) (h : Z) : Z := match hm_get m h with Some d => d | None => 0 end.

Lemma assign_one_ok m fps h f d :
  is_u64 h -> (f = 0 \/ f = 1 \/ f = 2) -> hm_get m h = Some d -> length fps = g_arrlen g ->
  exists v, assign_one dbg g m (2 ^ k) label fps (h, f) = Ok (upd fps (own_slot (h, f)) v) /\
    (own_slot (h, f) < g_arrlen g)%nat /\
    val (upd fps (own_slot (h, f)) v) h = d mod 2 ^ k /\ 0 <= v < 2 ^ k.
Proof.
  intros Hu Hf Hd HL. destruct (Hs h Hu) as (B1 & B2 & B3 & N12 & N13 & N23).
  pose proof p_pos as PP.
  assert (AR : forall x1 x2, ((((((d mod 2 ^ k - x1) mod two32 - x2) mod two32) mod 2 ^ k - (mix h label mod 2 ^ k) mod two32) mod two32) mod 2 ^ k
            + x1 + x2 + mix h label) mod 2 ^ k = d mod 2 ^ k).
  { intros x1 x2. set (M := mix h label).
    assert (C : forall a b, a mod 2 ^ k = b mod 2 ^ k -> (a + x1 + x2 + M) mod 2 ^ k = (b + x1 + x2 + M) mod 2 ^ k).
    { intros a b E. rewrite (Zplus_mod (a + x1 + x2)), (Zplus_mod (a + x1)), (Zplus_mod a), E.
      rewrite <- (Zplus_mod b), <- (Zplus_mod (b + x1)), <- (Zplus_mod (b + x1 + x2)). reflexivity. }
    rewrite (C _ (d - x1 - x2 - M)).
    - f_equal. ring.
    - rewrite Zmod_mod, mod32_modp. rewrite Zminus_mod, Zmod_mod, !mod32_modp, Zmod_mod.
      rewrite (Zminus_mod ((d mod 2 ^ k - x1) mod two32)), mod32_modp.
      rewrite (Zminus_mod (d mod 2 ^ k)), Zmod_mod.
      rewrite <- (Zminus_mod d), <- (Zminus_mod (d - x1)), <- (Zminus_mod (d - x1 - x2)). reflexivity. }
  set (X j := nth j fps 0).
  set (V x1 x2 := (((((d mod 2 ^ k - x1) mod two32 - x2) mod two32) mod 2 ^ k - (mix h label mod 2 ^ k) mod two32) mod two32) mod 2 ^ k).
  assert (VR : forall a b, 0 <= V a b < 2 ^ k) by (intros; apply Z.mod_pos_bound, p_pos).
  unfold assign_one. rewrite p_small, Hd. rewrite Hslots by auto. cbn [bind].
  rewrite remz_pos by auto. cbn [bind].
  destruct Hf as [->|[->| ->]].
  - change (Z.to_nat 0 + 1)%nat with 1%nat. change (Z.to_nat 0 + 2)%nat with 2%nat. change (Z.to_nat 0) with 0%nat.
    cbn [idx nth_error bind]. rewrite (idx_nth fps (sl2 g h) 0), (idx_nth fps (sl3 g h) 0) by (clear - B1 B2 B3 HL; lia). cbn [bind].
    rewrite !remz_pos by auto. cbn [bind]. rewrite !remz_pos by auto. cbn [bind]. rewrite set_lt by (clear - B1 B2 B3 HL; lia).
    exists (V (X (sl2 g h)) (X (sl3 g h))). split; [reflexivity|]. cbn [Peel_facts.own_slot fst snd].
    change (Peel_facts.own_slot (sl1 g) (sl2 g) (sl3 g) (h, 0)) with (sl1 g h). split; [clear - B1 B2 B3; lia|]. split; [|auto].
    unfold val. rewrite nth_upd_eq, !nth_upd_ne by (auto; clear - B1 B2 B3 HL N12 N13 N23; lia). fold (X (sl2 g h)) (X (sl3 g h)). apply AR.
  - change (Z.to_nat 1 + 1)%nat with 2%nat. change (Z.to_nat 1 + 2)%nat with 3%nat. change (Z.to_nat 1) with 1%nat.
    cbn [idx nth_error bind]. rewrite (idx_nth fps (sl3 g h) 0), (idx_nth fps (sl1 g h) 0) by (clear - B1 B2 B3 HL; lia). cbn [bind].
    rewrite !remz_pos by auto. cbn [bind]. rewrite !remz_pos by auto. cbn [bind]. rewrite set_lt by (clear - B1 B2 B3 HL; lia).
    exists (V (X (sl3 g h)) (X (sl1 g h))). split; [reflexivity|].
    change (Peel_facts.own_slot (sl1 g) (sl2 g) (sl3 g) (h, 1)) with (sl2 g h). split; [clear - B1 B2 B3; lia|]. split; [|auto].
    unfold val. rewrite nth_upd_eq, !nth_upd_ne by (auto; clear - B1 B2 B3 HL N12 N13 N23; lia). fold (X (sl1 g h)) (X (sl3 g h)).
    rewrite <- (AR (X (sl3 g h)) (X (sl1 g h))). unfold V. f_equal. ring.
  - change (Z.to_nat 2 + 1)%nat with 3%nat. change (Z.to_nat 2 + 2)%nat with 4%nat. change (Z.to_nat 2) with 2%nat.
    cbn [idx nth_error bind]. rewrite (idx_nth fps (sl1 g h) 0), (idx_nth fps (sl2 g h) 0) by (clear - B1 B2 B3 HL; lia). cbn [bind].
    rewrite !remz_pos by auto. cbn [bind]. rewrite !remz_pos by auto. cbn [bind]. rewrite set_lt by (clear - B1 B2 B3 HL; lia).
    exists (V (X (sl1 g h)) (X (sl2 g h))). split; [reflexivity|].
    change (Peel_facts.own_slot (sl1 g) (sl2 g) (sl3 g) (h, 2)) with (sl3 g h). split; [clear - B1 B2 B3; lia|]. split; [|auto].
    unfold val. rewrite nth_upd_eq, !nth_upd_ne by (auto; clear - B1 B2 B3 HL N12 N13 N23; lia). fold (X (sl1 g h)) (X (sl2 g h)).
    rewrite <- (AR (X (sl1 g h)) (X (sl2 g h))). unfold V. f_equal. ring.
Qed.

Lemma assign_all_ok m stack : forall fps,
  Forall entry_ok stack -> ordered stack -> length fps = g_arrlen g ->
  (forall e, In e stack -> hm_get m (fst e) <> None) ->
  exists fps', foldM (assign_one dbg g m (2 ^ k) label) stack fps = Ok fps' /\
    length fps' = g_arrlen g /\
    (forall j, (forall e, In e stack -> own_slot e <> j) -> nth j fps' 0 = nth j fps 0) /\
    (forall j, (exists e, In e stack /\ own_slot e = j) -> 0 <= nth j fps' 0 < 2 ^ k) /\
    (forall e, In e stack -> val fps' (fst e) = dat m (fst e) mod 2 ^ k).
Proof.
  induction stack as [|e stack IH]; intros fps HF HO HL HM.
  - exists fps. split; [reflexivity|]. split; auto. split; auto. split; [intros j (e & [] & _)|]. intros e [].
  - apply Forall_cons_iff in HF. destruct HF as [[He1 He2] HF]. cbn [Peel_facts.ordered] in HO. destruct HO as [O1 O2].
    destruct (hm_get m (fst e)) as [d|] eqn:Ed; [|exfalso; apply (HM e); [now left|auto]].
    destruct e as [h f]. cbn [fst snd] in *.
    destruct (assign_one_ok m fps h f d He1 He2 Ed HL) as (v & E & Bv & Vv & Rv).
    cbn [foldM]. rewrite E. cbn [bind].
    destruct (IH (upd fps (own_slot (h, f)) v) HF O2) as (fps' & E' & L' & Same & Rng & Sat).
    { now rewrite length_upd. }
    { intros e' He'. apply HM. now right. }
    exists fps'. split; [exact E'|]. split; [exact L'|]. split; [|split].
    + intros j Hj. rewrite Same by (intros e' He'; apply Hj; now right).
      apply nth_upd_ne. apply Hj. now left.
    + intros j Hj.
      destruct (in_dec Nat.eq_dec j (map own_slot stack)) as [I|N].
      * apply in_map_iff in I. destruct I as (e' & Ee & He'). apply Rng. exists e'. auto.
      * destruct Hj as (e' & [<-|He'] & Ee); [|exfalso; apply N, in_map_iff; exists e'; auto].
        subst j. rewrite Same; [rewrite nth_upd_eq by lia; auto|].
        intros e'' He'' E''. apply N. apply in_map_iff. exists e''. auto.
    + intros e' [<-|He']; [|auto]. cbn [fst]. unfold dat. rewrite Ed. rewrite <- Vv. unfold val.
      assert (K : forall j, inc h j = true -> nth j fps' 0 = nth j (upd fps (own_slot (h, f)) v) 0).
      { intros j Ij. apply Same. intros e'' He'' E''. rewrite <- E'' in Ij. rewrite (O1 e'' He'') in Ij. discriminate. }
      destruct (inc_s (sl1 g) (sl2 g) (sl3 g) h) as (I1 & I2 & I3).
      rewrite (K _ I1), (K _ I2), (K _ I3). reflexivity.
Qed.
End Construct.
