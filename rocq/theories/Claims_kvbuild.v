(** Claims about when a key-value shard can be built (C63). *)
From Verif Require Import Base Spec SpecFilter Hash Fuse3 Bfusep Mat Lwe Db Api Base_facts Fmt_facts Mat_facts Index_facts IndexProto_facts
  Geom_facts Filter_facts FilterTop_facts KV_facts Claims_filter Claims_kv.
Local Open Scope Z_scope.

Lemma mapM_exists : forall A B (f : A -> res B) l, (forall x, In x l -> exists b, f x = Ok b) -> exists bs, mapM f l = Ok bs.
Proof.
  intros A B f l. induction l as [|x l IH]; intros H; [exists []; reflexivity|].
  destruct (H x (or_introl eq_refl)) as [b E]. destruct (IH (fun y h => H y (or_intror h))) as [bs Es].
  exists (b :: bs). cbn [mapM]. rewrite E. cbn [bind]. rewrite Es. reflexivity.
Qed.

Lemma MAX_ITER_pos : MAX_ITER <> 0%nat.
Proof. intros F. assert (X : exists k, MAX_ITER = S k) by (exists (Z.to_nat 99999); reflexivity). destruct X; congruence. Qed.

Lemma kv_db_builds : forall dbg fe rnd seed kvs m es pb w g slots,
  (1 <= pb <= 31)%nat -> (dbg = true -> (8 <= pb)%nat) -> (0 < w)%nat -> kvs <> [] ->
  Forall (fun kv => length (kv_value kv) = w) kvs ->
  geometry dbg fe (length kvs) = Ok g -> sane_estimates fe (length kvs) ->
  evaluates dbg seed (g_seglen g) (g_mask g) (g_scl g) slots ->
  NoDup (map (fun kv => mix256 (kv_key kv) seed) kvs) ->
  (forall j, (load slots (map kv_key kvs) j <= 63)%nat) ->
  peelable slots (map kv_key kvs) ->
  exists db, kv_db_new dbg fe rnd seed kvs m es pb = Ok db.
Proof.
  intros dbg fe rnd seed kvs m es pb w g slots Hpb Hd Hw Hne HF Hg Hsane Hev ND Hl HP.
  destruct kvs as [|kv0 rest]; [congruence|]. set (kvs := kv0 :: rest) in *.
  unfold kv_db_new. change (idx kvs 0) with (Ok (A := key_value) kv0). cbn [bind].
  assert (W0 : length (kv_value kv0) = w) by (now inversion HF).
  rewrite W0. unfold from_kvs.
  match goal with |- context [mapM ?f (seq 0 w)] => set (F := f) end.
  assert (C : forall i, (i < w)%nat -> exists f, F i = Ok f /\ bp_ptxt_mod f = 2 ^ Z.of_nat pb).
  { intros i Hi. unfold F.
    rewrite (mapM_Ok _ (fun kv => nth i (kv_value kv) 0)).
    2:{ intros kv Hin. apply idx_nth. rewrite Forall_forall in HF. rewrite (HF kv Hin). exact Hi. }
    cbn [bind]. rewrite kv_ptxt_mod_ok by lia. cbn [bind].
    destruct (construct_iff_peelable MAX_ITER dbg fe (rnd i) seed (map kv_key kvs)
      (map (fun kv => nth i (kv_value kv) 0) kvs) (2 ^ Z.of_nat pb) (Z.of_nat i) g slots) as [[_ [f E]]|[NP _]];
      rewrite ?map_length; auto.
    - apply Z.pow_pos_nonneg; lia.
    - change (2 ^ 32) with two32. pose proof (pow_pb_bounds pb ltac:(lia)). rewrite Z.mod_small by (unfold two32; lia). lia.
    - intros D. specialize (Hd D). change 256 with (2 ^ 8). apply Z.pow_le_mono_r; lia.
    - exact MAX_ITER_pos.
    - now rewrite map_map.
    - exists f. assert (E' : from_slice dbg fe (rnd i) seed (map kv_key kvs) (map (fun kv => nth i (kv_value kv) 0) kvs) (Z.of_nat i) (2 ^ Z.of_nat pb) = Ok f).
      { unfold from_slice. rewrite !map_length, Nat.eqb_refl. cbn [negb]. exact E. }
      split; [rewrite E'; reflexivity|]. exact (from_slice_mod _ _ _ _ _ _ _ _ _ E').
    - contradiction. }
  clearbody F.
  destruct (mapM_exists _ _ F (seq 0 w)) as [fs Efs].
  { intros i Hi. apply in_seq in Hi. destruct (C i) as [f [E _]]; [lia|]. eauto. }
  rewrite Efs. cbn [bind].
  assert (Lf : length fs = w) by (apply mapM_length in Efs; rewrite seq_length in Efs; exact Efs).
  destruct fs as [|f0 fs]; [cbn in Lf; lia|]. change (idx (f0 :: fs) 0) with (Ok (A := bfusep) f0). cbn [bind].
  assert (PM : forall f, In f (f0 :: fs) -> bp_ptxt_mod f = 2 ^ Z.of_nat pb).
  { apply mapM_Ok_inv in Efs. intros f Hf. destruct (In_nth _ _ f0 Hf) as (i & Hi & <-).
    apply (Forall2_nth _ _ _ 0%nat f0) in Efs as [_ Efs]. rewrite Lf in Hi.
    specialize (Efs i ltac:(rewrite seq_length; exact Hi)). rewrite seq_nth in Efs by exact Hi.
    destruct (C i Hi) as [f' [E P]]. cbn [Nat.add] in Efs. rewrite E in Efs.
    assert (X : f' = nth i (f0 :: fs) f0) by congruence. rewrite <- X. exact P. }
  destruct (mapM_exists _ _ get_fingerprints_mod (f0 :: fs)) as [es' Ee].
  { intros f Hf. unfold get_fingerprints_mod. rewrite (PM f Hf), (p_small (Z.of_nat pb)) by lia.
    apply mapM_exists. intros x _. eexists. apply remz_pos. apply Z.pow_pos_nonneg; lia. }
  rewrite Ee. cbn [bind]. eexists. reflexivity.
Qed.

(** ** C63 *)

(** @C63 For distinct key hashes with at most 63 keys per slot, building the shard succeeds
    exactly when the keys are peelable, and panics otherwise. Values, random blocks, public
    seed, dimension, element size and plaintext size play no part in which of the two happens,
    and a built shard has exactly the number of slots of the geometry. *)
Lemma kv_build_iff_peelable : forall prg dbg fe rnd seed pseed kvs dim m es pb w g slots,
  (1 <= pb <= 31)%nat -> (dbg = true -> (8 <= pb)%nat) -> is_ceil_div es pb w -> (0 < w)%nat -> kvs <> [] ->
  Forall (fun kv => length (kv_value kv) = w) kvs ->
  geometry dbg fe (length kvs) = Ok g -> sane_estimates fe (length kvs) ->
  evaluates dbg seed (g_seglen g) (g_mask g) (g_scl g) slots ->
  NoDup (map (fun kv => mix256 (kv_key kv) seed) kvs) ->
  (forall j, (load slots (map kv_key kvs) j <= 63)%nat) ->
  (peelable slots (map kv_key kvs) /\
     exists sh, kv_shard_new prg dbg fe rnd seed pseed kvs dim m es pb = Ok sh /\
                kp_m (ks_params sh) = g_arrlen g /\ kp_dim (ks_params sh) = dim) \/
  (~ peelable slots (map kv_key kvs) /\ kv_shard_new prg dbg fe rnd seed pseed kvs dim m es pb = Panic).
Proof.
  intros prg dbg fe rnd seed pseed kvs dim m es pb w g slots Hpb Hd Hc Hw Hne HF Hg Hsane Hev ND Hl.
  assert (Hdata : (length (map kv_key kvs) <= length (map (fun _ : key_value => 0%Z) kvs))%nat) by (rewrite !map_length; lia).
  destruct (construct_iff_peelable 1 dbg fe (rnd 0%nat) seed (map kv_key kvs) (map (fun _ => 0) kvs) 256 0 g slots)
    as [[HP _]|[NP _]]; rewrite ?map_length; auto; try lia.
  - now rewrite map_map.
  - left. split; [exact HP|].
    destruct (kv_db_builds dbg fe rnd seed kvs m es pb w g slots Hpb Hd Hw Hne HF Hg Hsane Hev ND Hl HP) as [db Hdb].
    unfold kv_shard_new. rewrite Hdb. cbn [bind].
    destruct (kv_db_inv dbg fe rnd seed kvs m es pb db ltac:(lia) Hdb)
      as (kv0 & g' & H0 & Hg' & Em & Ees & Epb & Hfp & Hs & HW & _ & HC).
    assert (g' = g) by congruence. subst g'.
    assert (HW' : length (kv_value kv0) = w).
    { rewrite Forall_forall in HF. apply HF. eapply nth_error_In; eauto. }
    rewrite HW' in *.
    destruct (geometry_valid _ _ _ _ Hsane Hg) as [Vg _].
    rewrite <- Ees, <- Epb in Hc.
    rewrite (kv_shard_of_db_ok prg pseed db dim w (g_arrlen g) w); auto; [|lia|now apply geom_pos].
    eexists. split; [reflexivity|]. split; reflexivity.
  - right. split; [exact NP|]. unfold kv_shard_new.
    destruct kvs as [|kv0 rest]; [congruence|].
    rewrite (kv_unpeelable_panics dbg fe rnd seed (kv0 :: rest) m es pb g slots kv0); auto; [lia|].
    eapply Forall_impl; [|exact HF]. cbn. intros; lia.
Qed.

(** @C63 Two builds over the same keys and the same filter seed, with any other inputs
    different, both succeed or both panic. *)
Lemma kv_build_depends_on_keys : forall dbg fe seed g slots
    prg1 rnd1 pseed1 kvs1 dim1 m1 es1 pb1 w1 prg2 rnd2 pseed2 kvs2 dim2 m2 es2 pb2 w2,
  (1 <= pb1 <= 31)%nat -> (dbg = true -> (8 <= pb1)%nat) -> is_ceil_div es1 pb1 w1 -> (0 < w1)%nat ->
  (1 <= pb2 <= 31)%nat -> (dbg = true -> (8 <= pb2)%nat) -> is_ceil_div es2 pb2 w2 -> (0 < w2)%nat ->
  map kv_key kvs1 = map kv_key kvs2 -> kvs1 <> [] ->
  Forall (fun kv => length (kv_value kv) = w1) kvs1 -> Forall (fun kv => length (kv_value kv) = w2) kvs2 ->
  geometry dbg fe (length kvs1) = Ok g -> sane_estimates fe (length kvs1) ->
  evaluates dbg seed (g_seglen g) (g_mask g) (g_scl g) slots ->
  NoDup (map (fun kv => mix256 (kv_key kv) seed) kvs1) ->
  (forall j, (load slots (map kv_key kvs1) j <= 63)%nat) ->
  ((exists sh, kv_shard_new prg1 dbg fe rnd1 seed pseed1 kvs1 dim1 m1 es1 pb1 = Ok sh) /\
   (exists sh, kv_shard_new prg2 dbg fe rnd2 seed pseed2 kvs2 dim2 m2 es2 pb2 = Ok sh)) \/
  (kv_shard_new prg1 dbg fe rnd1 seed pseed1 kvs1 dim1 m1 es1 pb1 = Panic /\
   kv_shard_new prg2 dbg fe rnd2 seed pseed2 kvs2 dim2 m2 es2 pb2 = Panic).
Proof.
  intros dbg fe seed g slots prg1 rnd1 pseed1 kvs1 dim1 m1 es1 pb1 w1 prg2 rnd2 pseed2 kvs2 dim2 m2 es2 pb2 w2
    A1 A2 A3 A4 B1 B2 B3 B4 EK Hne F1 F2 Hg Hs Hev ND Hl.
  assert (EL : length kvs2 = length kvs1) by (rewrite <- (map_length kv_key kvs2), <- EK; apply map_length).
  assert (Hne2 : kvs2 <> []) by (destruct kvs1, kvs2; cbn in EL; congruence).
  assert (EH : map (fun kv => mix256 (kv_key kv) seed) kvs2 = map (fun kv => mix256 (kv_key kv) seed) kvs1).
  { rewrite <- (map_map kv_key (fun k => mix256 k seed) kvs2), <- EK, map_map. reflexivity. }
  destruct (kv_build_iff_peelable prg1 dbg fe rnd1 seed pseed1 kvs1 dim1 m1 es1 pb1 w1 g slots) as [(P & sh1 & E1 & _)|[NP E1]]; auto;
  destruct (kv_build_iff_peelable prg2 dbg fe rnd2 seed pseed2 kvs2 dim2 m2 es2 pb2 w2 g slots) as [(P2 & sh2 & E2 & _)|[NP2 E2]];
    auto; try (rewrite EL; assumption); try (rewrite EH; assumption); try (rewrite <- EK; assumption).
  - left. eauto.
  - rewrite <- EK in NP2. contradiction.
  - rewrite <- EK in P2. contradiction.
Qed.

(** @C63 example: the three example keys meet the hypotheses and their shard is always built;
    for the pair 7, 10 it never is. *)
Example kv_build_example : forall prg rnd pseed dim m,
  (exists sh, kv_shard_new prg true (est 3 12) rnd seed0 pseed ex_kvs dim m 19 10 = Ok sh) /\
  kv_shard_new prg true (est 2 12) rnd seed0 pseed
    [ {| kv_key := key4 7; kv_value := [1; 2] |}; {| kv_key := key4 10; kv_value := [3; 4] |} ] dim m 20 10 = Panic.
Proof.
  intros prg rnd pseed dim m. split; [|apply kv_failure_is_error_refuted].
  destruct construct_example as (g & slots & Hg & Hev & ND & HP & Hl).
  destruct (kv_build_iff_peelable prg true (est 3 12) rnd seed0 pseed ex_kvs dim m 19 10 2 g slots)
    as [(_ & sh & E & _)|[NP _]]; auto; try lia; [split; [lia|intros; lia]|discriminate|repeat constructor|apply est_sane; cbn; lia|eauto|contradiction].
Qed.
