(** * Claims about the modular binary fuse filter (C25-C33). *)
From Coq Require Import Permutation.
From Verif Require Import Base Spec Hash Fuse3 Bfusep SpecFilter Base_facts Geom_facts Peel_facts Place_facts Filter_facts FilterTop_facts.
Local Open Scope Z_scope.

(** Constant estimates for the examples; the numbers are those of the code for the sizes used. *)
Definition est (e c : Z) : fest := {| fe_exp := fun _ => e; fe_cap := fun _ => c |}.
Definition key4 (a : Z) : list Z := [a; 0; 0; 0].
Definition seed0 : list Z := repeat 0 32.
Definition rnd0 : nat -> Z := fun i => Z.of_nat i * 305419896 mod two32.

Lemma est_sane e c n : 2 <= e < 32 -> 0 <= c < 4000000000 -> sane_estimates (est e c) n.
Proof. intros He Hc. split; intros _; cbn; unfold two32; lia. Qed.

(** ** C25 *)

(** @C25 for every number of keys the size computation succeeds and gives a power-of-two
    segment length between 4 and 262144, the mask one below it, and a number of slots that
    is the count length plus two segments, at least the requested capacity and less than
    one segment (or the three-segment minimum) above it. *)
Lemma geometry_shape : forall dbg fe n, sane_estimates fe n ->
  exists g e, geometry dbg fe n = Ok g /\
    2 <= e <= 18 /\ g_seglen g = 2 ^ e /\ g_mask g = g_seglen g - 1 /\
    (exists c, 1 <= c /\ g_scl g = c * g_seglen g) /\
    Z.of_nat (g_arrlen g) = g_scl g + 2 * g_seglen g /\
    Z.of_nat (g_arrlen g) < 2 ^ 32 /\
    let cap := (if (n <=? 1)%nat then 0 else fe_cap fe n) in
    cap <= Z.of_nat (g_arrlen g) <= Z.max (3 * g_seglen g) (cap + g_seglen g - 1).
Proof.
  intros dbg fe n H. destruct (geometry_ok dbg fe n H) as (g & E & V & L & C).
  pose proof V as (k & Hk & EL & EM & Hc & Es & Ea & Hb).
  exists g, k. split; auto. assert (Hk2 : 2 <= k).
  { destruct (Z.le_gt_cases 2 k) as [|K]; auto. exfalso.
    pose proof (Z.pow_le_mono_r 2 k 1 ltac:(lia) ltac:(lia)). rewrite EL in L. lia. }
  split; [lia|]. split; auto. split; [lia|]. split; [exists (g_segcount g); split; [auto|lia]|].
  assert (A : Z.of_nat (g_arrlen g) = (g_segcount g + 2) * 2 ^ k) by (rewrite Ea; apply Z2Nat.id; nia).
  split; [rewrite A, Es, EL; ring|]. split; [rewrite A; exact Hb|].
  cbv zeta in *. destruct (Nat.ltb_spec 1 n), (Nat.leb_spec n 1); try lia; auto.
Qed.

(** @C25 every filter that is built has exactly this geometry and that many fingerprints,
    and carries the seed and modulus it was given. *)
Lemma filter_shape : forall max_iter dbg fe rnd seed keys data p label f,
  bfusep_from_impl max_iter dbg fe rnd seed keys data p label = Ok f ->
  exists g, geometry dbg fe (length keys) = Ok g /\
    bp_segment_length f = g_seglen g /\ bp_segment_length_mask f = g_mask g /\
    bp_segment_count_length f = g_scl g /\ length (bp_fingerprints f) = g_arrlen g /\
    bp_seed f = seed /\ bp_ptxt_mod f = p.
Proof.
  intros mi dbg fe rnd seed keys data p label f E.
  destruct (from_impl_length _ _ _ _ _ _ _ _ _ _ E) as (g & ? & ? & ? & ? & ? & ? & ?).
  exists g. auto 10.
Qed.

(** @C25 the geometry is the same in debug and release builds. *)
Lemma geometry_profile : forall fe n d1 d2, sane_estimates fe n ->
  geometry d1 fe n = geometry d2 fe n.
Proof. intros. now apply geometry_dbg. Qed.

(** @C25 *)
Example geometry_example : sane_estimates (est 11 77753) (Z.to_nat 65536) /\
  geometry true (est 11 77753) (Z.to_nat 65536) =
  Ok {| g_seglen := 2048; g_mask := 2047; g_scl := 73728; g_segcount := 36; g_arrlen := Z.to_nat 77824 |}.
Proof. split; [apply est_sane; lia|reflexivity]. Qed.

(** ** C26 *)

(** @C26 for every key and seed [hash_eval] on a constructor-made geometry returns three
    slots, in three consecutive segments (hence increasing and distinct), all inside the
    fingerprint array. *)
Lemma three_slots : forall dbg dbg' fe n g key seed, sane_estimates fe n -> geometry dbg fe n = Ok g ->
  exists a b c, hash_eval dbg' key seed (g_seglen g) (g_mask g) (g_scl g) = Ok [a; b; c] /\
    (a < b < c)%nat /\ (c < g_arrlen g)%nat /\
    Z.of_nat b / g_seglen g = Z.of_nat a / g_seglen g + 1 /\
    Z.of_nat c / g_seglen g = Z.of_nat a / g_seglen g + 2.
Proof.
  intros dbg dbg' fe n g key seed Hsane Eg. destruct (geometry_valid _ _ _ _ Hsane Eg) as [Hg _].
  pose proof (mix256_u64 key seed) as Hu. set (h := mix256 key seed) in *.
  destruct (positions dbg' g h Hg Hu) as (E & s & Hs & N1 & N2 & N3 & D1 & D2 & D3).
  destruct (slots_ok dbg' g h Hg Hu) as (_ & _ & _ & B3 & _).
  exists (sl1 g h), (sl2 g h), (sl3 g h). unfold hash_eval. fold h. rewrite E. cbn [bind].
  split; [reflexivity|]. unfold sl1, sl2, sl3 in *. rewrite !Z2Nat.id by auto.
  assert (HL : 0 < g_seglen g) by (destruct Hg as (k & Hk & -> & _); apply Z.pow_pos_nonneg; lia).
  assert (L12 : pos1 g h < pos2 g h).
  { destruct (Z.lt_ge_cases (pos1 g h) (pos2 g h)) as [|G]; auto. exfalso.
    pose proof (Z.div_le_mono _ _ (g_seglen g) HL G). lia. }
  assert (L23 : pos2 g h < pos3 g h).
  { destruct (Z.lt_ge_cases (pos2 g h) (pos3 g h)) as [|G]; auto. exfalso.
    pose proof (Z.div_le_mono _ _ (g_seglen g) HL G). lia. }
  split; [lia|]. split; [exact B3|]. split; lia.
Qed.

(** @C26 consequently a slot function in the sense of the other claims always exists. *)
Lemma slots_exist : forall dbg dbg' fe n g seed, sane_estimates fe n -> geometry dbg fe n = Ok g ->
  exists slots, evaluates dbg' seed (g_seglen g) (g_mask g) (g_scl g) slots.
Proof.
  intros dbg dbg' fe n g seed Hsane Eg. destruct (geometry_valid _ _ _ _ Hsane Eg) as [Hg _].
  exists (fun key => let h := mix256 key seed in [sl1 g h; sl2 g h; sl3 g h]). intros key. unfold hash_eval.
  destruct (positions dbg' g _ Hg (mix256_u64 key seed)) as (E & _). rewrite E. reflexivity.
Qed.

(** @C26 *)
Example three_slots_example :
  hash_eval true (key4 7) seed0 8 7 8 = Ok [6; 14; 22]%nat.
Proof. vm_compute. reflexivity. Qed.

(** ** C27 *)

Lemma filter_val mi dbg fe rnd seed keys data k label f :
  sane_estimates fe (length keys) -> (length keys <= length data)%nat -> 0 <= k <= 31 ->
  (dbg = true \/ exists slots,
     evaluates dbg seed (bp_segment_length f) (bp_segment_length_mask f) (bp_segment_count_length f) slots /\
     forall j, (load slots keys j <= 63)%nat) ->
  bfusep_from_impl mi dbg fe rnd seed keys data (2 ^ k) label = Ok f ->
  exists g, geometry dbg fe (length keys) = Ok g /\ valid_geom g /\
    f = {| bp_seed := seed; bp_segment_length := g_seglen g; bp_segment_length_mask := g_mask g;
           bp_segment_count_length := g_scl g; bp_fingerprints := bp_fingerprints f; bp_ptxt_mod := 2 ^ k |} /\
    length (bp_fingerprints f) = g_arrlen g /\
    forall i key, last_with_hash seed keys i key ->
      val g k label (bp_fingerprints f) (mix256 key seed) = nth i data 0 mod 2 ^ k.
Proof.
  intros Hsane HL Hk Hload E.
  destruct (from_impl_geom _ _ _ _ _ _ _ _ _ _ E) as (g & Eg & E1 & E2 & E3 & E4 & E5).
  exists g. split; auto. destruct (geometry_valid _ _ _ _ Hsane Eg) as [Hg _]. split; auto.
  assert (HD : dbg = true -> NoDup keys /\ 256 <= 2 ^ k) by (intros ->; eapply from_impl_dbg; eauto).
  assert (Hp32 : 2 ^ k mod two32 <> 0) by (rewrite p_small by auto; pose proof (p_pos k Hk); lia).
  destruct (construct_cases mi dbg fe rnd seed keys data (2 ^ k) label g Eg Hsane HL (p_pos k Hk) Hp32 HD)
    as [(fps & stack & m & GS & _ & LF & Hm & Ef & E')|[(E' & _)|(HH & HP)]].
  - rewrite E in E'. injection E' as ->. cbn [bp_fingerprints]. split; auto. split; auto.
    intros i key [Hi Hlast]. destruct GS as (G1 & G2 & G3 & G4 & _).
    set (hs := key_hashes keys seed) in *.
    assert (LA : last_at hs (mix256 key seed) i).
    { split.
      - unfold hs, key_hashes. rewrite nth_error_map, Hi. reflexivity.
      - intros j Hj Ej. unfold hs, key_hashes in Ej. rewrite nth_error_map in Ej.
        destruct (nth_error keys j) as [key'|] eqn:Ek; [|discriminate]. cbn in Ej.
        injection Ej as Ej. exact (Hlast j key' Hj Ek Ej). }
    assert (HM : forall e, In e stack -> hm_get m (fst e) <> None).
    { intros e He. destruct (last_at_exists hs (fst e)) as (i' & Li); [apply G4, in_map; auto|].
      rewrite (Hm _ _ Li). discriminate. }
    destruct (assign_all_ok dbg g Hg k Hk label m stack (map rnd (seq 0 (g_arrlen g))) G1 G2) as (fps' & Ef' & _ & _ & _ & Sat); auto.
    { now rewrite map_length, seq_length. }
    rewrite Ef in Ef'. injection Ef' as <-.
    assert (Hin : In (mix256 key seed) (map fst stack)).
    { apply G3. unfold hs, key_hashes. apply in_map_iff. exists key. split; auto. eapply nth_error_In; eauto. }
    apply in_map_iff in Hin. destruct Hin as (e & Ee & He). rewrite <- Ee. rewrite (Sat e He).
    unfold dat. rewrite Ee, (Hm _ _ LA). reflexivity.
  - congruence.
  - exfalso. destruct Hload as [->|(slots & Hev & Hl)].
    + rewrite (HP eq_refl) in E. discriminate.
    + rewrite E3, E4, E5 in Hev. apply (heavy_load g Hg seed dbg slots Hev keys) in HH.
      destruct HH as (j & Hj). specialize (Hl j). lia.
Qed.

(** @C27 whenever construction succeeds with modulus 2^k, every key that is the last one
    with its hash retrieves its own data modulo 2^k, in either build profile, whatever the
    random fill and however many attempts were allowed. In release builds this needs that
    no slot is shared by more than 63 keys; in debug builds an overload panics instead. *)
Lemma retrieve_correct : forall max_iter dbg fe rnd seed keys data k label f,
  sane_estimates fe (length keys) -> (length keys <= length data)%nat -> 0 <= k <= 31 ->
  (dbg = true \/ exists slots,
     evaluates dbg seed (bp_segment_length f) (bp_segment_length_mask f) (bp_segment_count_length f) slots /\
     forall j, (load slots keys j <= 63)%nat) ->
  bfusep_from_impl max_iter dbg fe rnd seed keys data (2 ^ k) label = Ok f ->
  forall dbg' i key, last_with_hash seed keys i key ->
    retrieve dbg' f key label = Ok (nth i data 0 mod 2 ^ k).
Proof.
  intros mi dbg fe rnd seed keys data k label f Hsane HL Hk Hload E dbg' i key Hkey.
  destruct (filter_val mi dbg fe rnd seed keys data k label f Hsane HL Hk Hload E) as (g & Eg & Hg & Ef & LF & V).
  rewrite Ef. rewrite retrieve_val by auto. f_equal. now apply V.
Qed.

Lemma mod_sum4 a b c d p : (a mod p + b mod p + c mod p + d) mod p = (a + b + c + d) mod p.
Proof.
  replace (a mod p + b mod p + c mod p + d) with (a mod p + (b mod p + c mod p + d)) by ring.
  rewrite Zplus_mod_idemp_l. replace (a + (b mod p + c mod p + d)) with (b mod p + (a + c mod p + d)) by ring.
  rewrite Zplus_mod_idemp_l. replace (b + (a + c mod p + d)) with (c mod p + (a + b + d)) by ring.
  rewrite Zplus_mod_idemp_l. f_equal. ring.
Qed.

(** @C27 the same on what the PIR database exposes: the published fingerprints are reduced
    modulo 2^k, and the three at a key's [hash_eval] slots plus its fingerprint mask sum to
    the key's data modulo 2^k. *)
Lemma fingerprint_sum : forall max_iter dbg fe rnd seed keys data k label f,
  sane_estimates fe (length keys) -> (length keys <= length data)%nat -> 0 <= k <= 31 ->
  (dbg = true \/ exists slots,
     evaluates dbg seed (bp_segment_length f) (bp_segment_length_mask f) (bp_segment_count_length f) slots /\
     forall j, (load slots keys j <= 63)%nat) ->
  bfusep_from_impl max_iter dbg fe rnd seed keys data (2 ^ k) label = Ok f ->
  exists F, get_fingerprints_mod f = Ok F /\ length F = length (bp_fingerprints f) /\
    Forall (fun x => 0 <= x < 2 ^ k) F /\
    forall dbg' i key a b c, last_with_hash seed keys i key ->
      hash_eval dbg' key seed (bp_segment_length f) (bp_segment_length_mask f) (bp_segment_count_length f) = Ok [a; b; c] ->
      (a < length F)%nat /\ (b < length F)%nat /\ (c < length F)%nat /\
      (nth a F 0 + nth b F 0 + nth c F 0 + get_key_fingerprint key seed label) mod 2 ^ k = nth i data 0 mod 2 ^ k.
Proof.
  intros mi dbg fe rnd seed keys data k label f Hsane HL Hk Hload E.
  destruct (filter_val mi dbg fe rnd seed keys data k label f Hsane HL Hk Hload E) as (g & Eg & Hg & Ef & LF & V).
  exists (map (fun x => x mod 2 ^ k) (bp_fingerprints f)).
  assert (EP : bp_ptxt_mod f = 2 ^ k) by (rewrite Ef; reflexivity).
  split.
  { unfold get_fingerprints_mod. rewrite EP, p_small by auto. apply mapM_Ok. intros x _. apply remz_pos, p_pos; auto. }
  split; [apply map_length|]. split.
  { apply Forall_map, Forall_forall. intros x _. apply Z.mod_pos_bound, p_pos; auto. }
  intros dbg' i key a b c Hkey HE. rewrite map_length, LF.
  pose proof (mix256_u64 key seed) as Hu.
  unfold hash_eval in HE. rewrite Ef in HE. cbn [bp_segment_length bp_segment_length_mask bp_segment_count_length] in HE.
  destruct (positions dbg' g (mix256 key seed) Hg Hu) as (E1 & _). rewrite E1 in HE. cbn [bind] in HE.
  injection HE as <- <- <-. fold (sl1 g (mix256 key seed)) (sl2 g (mix256 key seed)) (sl3 g (mix256 key seed)).
  destruct (slots_ok dbg' g _ Hg Hu) as (_ & B1 & B2 & B3 & _).
  split; auto. split; auto. split; auto.
  rewrite <- (V i key Hkey). unfold val, get_key_fingerprint.
  rewrite !(nth_map' (fun x => x mod 2 ^ k) _ _ 0 0) by lia.
  apply mod_sum4.
Qed.

Definition ex_keys : list (list Z) := [key4 1; key4 2; key4 3].
Definition ex_data : list Z := [700; 5; 1023].

Lemma ex_last : last_with_hash seed0 ex_keys 1 (key4 2).
Proof.
  split; [reflexivity|]. intros j key' Hj E.
  assert (J : j = 2%nat \/ (3 <= j)%nat) by lia. destruct J as [->|J].
  - unfold ex_keys in E. cbn [nth_error] in E. injection E as <-.
    assert (B : (mix256 (key4 3) seed0 =? mix256 (key4 2) seed0) = false) by (vm_compute; reflexivity).
    now apply Z.eqb_neq.
  - exfalso. assert (N : nth_error ex_keys j = None) by (apply nth_error_None; exact J). congruence.
Qed.

(** @C27 *)
Example retrieve_example : exists f,
  from_slice true (est 3 12) rnd0 seed0 ex_keys ex_data 9 1024 = Ok f /\
  from_slice false (est 3 12) rnd0 seed0 ex_keys ex_data 9 1024 = Ok f /\
  sane_estimates (est 3 12) (length ex_keys) /\ length ex_data = length ex_keys /\
  last_with_hash seed0 ex_keys 1 (key4 2) /\
  retrieve true f (key4 2) 9 = Ok 5 /\ retrieve true f (key4 1) 9 = Ok 700 /\
  retrieve true f (key4 3) 9 = Ok 1023.
Proof.
  eexists. split; [vm_compute; reflexivity|]. split; [vm_compute; reflexivity|].
  split; [apply est_sane; lia|]. split; [reflexivity|]. split; [exact ex_last|].
  split; [|split]; vm_compute; reflexivity.
Qed.

(** 95 keys, 66 of which fall under seed [seed0] into the same first slot and whose 66
    hashes XOR to zero. *)
Definition overload_keys : list (list Z) := map key4 [
   5446; 2670; 4950; 9233; 3806; 6559; 546; 2555; 2232; 3469; 462; 2625; 606; 5681; 5157; 395;
   5326; 9162; 513; 8459; 6359; 8317; 7891; 1370; 4419; 6504; 3131; 8170; 2367; 4155; 373; 5626;
   8316; 2984; 76; 5014; 3226; 2018; 406; 3489; 6263; 4146; 7520; 3384; 8144; 1808; 8383; 4870;
   1053; 1798; 2251; 6531; 5536; 3731; 2796; 4477; 185; 9129; 7806; 3777; 936; 6980; 5089; 3231;
   627; 748; 7411; 1921; 7849; 5771; 2350; 6777; 2430; 300; 2784; 4255; 5978; 2076; 4695; 6738;
   4224; 8324; 4696; 6873; 4476; 7071; 5483; 7874; 3492; 7967; 6535; 6954; 1525; 1088; 2112].

(** @C55 refuted for release builds: 95 keys with 95 different hashes are accepted, the
    construction reports success, and retrieval of the 66th key returns 1008 instead of its
    value 66, although the modulus is a power of two: a u8 slot counter wrapped around and
    the key was taken for a duplicate. A debug build panics on the same input. *)
Lemma release_overload_refuted : exists f,
  NoDup (map (fun key => mix256 key seed0) overload_keys) /\
  from_slice false (est 6 155) rnd0 seed0 overload_keys (map Z.of_nat (seq 1 95)) 9 1024 = Ok f /\
  retrieve false f (nth 65 overload_keys []) 9 = Ok 1008 /\
  from_slice true (est 6 155) rnd0 seed0 overload_keys (map Z.of_nat (seq 1 95)) 9 1024 = Panic.
Proof.
  eexists. split; [|split; [vm_compute; reflexivity|split; vm_compute; reflexivity]].
  assert (D : forall l : list Z, (fix nd l := match l with [] => true | x :: t => negb (existsb (Z.eqb x) t) && nd t end) l = true -> NoDup l).
  { induction l as [|x l IH]; intros H; [constructor|]. apply andb_true_iff in H. destruct H as [H1 H2].
    constructor; [|auto]. intros I. apply negb_true_iff, not_true_iff_false in H1. apply H1.
    apply existsb_exists. exists x. split; [auto|apply Z.eqb_refl]. }
  apply D. vm_compute. reflexivity.
Qed.

(** ** C28 *)

(** @C28 refuted: with modulus 1000 (accepted in both profiles) a one-key filter is built
    for data 0 and retrieval returns 296 = 2^32 mod 1000 in both profiles. *)
Lemma any_modulus_refuted : exists f, forall dbg,
  from_slice dbg (est 2 0) (fun _ => 0) seed0 [key4 1] [0] 9 1000 = Ok f /\
  retrieve dbg f (key4 1) 9 = Ok 296.
Proof. eexists. intros dbg. split; [destruct dbg; vm_compute; reflexivity|destruct dbg; vm_compute; reflexivity]. Qed.

(** ** C29 *)

Lemma wadd_fold_perm l1 l2 : Permutation l1 l2 -> forall a, fold_left wadd64 l1 a = fold_left wadd64 l2 a.
Proof.
  intros H. induction H; intros a; cbn [fold_left]; auto.
  - f_equal. unfold wadd64. rewrite !Zplus_mod_idemp_l. f_equal. ring.
  - now rewrite IHPermutation1.
Qed.

(** @C29 refuted, for every key and every seed: keys with the same words in another order
    have the same hash, so any filter, however built, returns the same value for both. *)
Lemma permuted_keys_collide : forall key key', Permutation key key' -> forall seed,
  mix256 key seed = mix256 key' seed /\
  forall dbg f label, retrieve dbg f key label = retrieve dbg f key' label.
Proof.
  assert (K : forall key key', Permutation key key' -> forall seed, mix256 key seed = mix256 key' seed).
  { intros key key' H seed. unfold mix256. apply wadd_fold_perm. now apply Permutation_map. }
  intros key key' H seed. split; [auto|]. intros dbg f label. unfold retrieve. now rewrite (K key key' H).
Qed.

(** @C29 refuted: two distinct keys with different data; construction succeeds silently and
    the first key returns the second key's data. *)
Lemma silent_overwrite_refuted : exists f, forall dbg,
  [1; 2; 0; 0] <> [2; 1; 0; 0] /\
  from_slice dbg (est 2 12) rnd0 seed0 [[1; 2; 0; 0]; [2; 1; 0; 0]] [7; 8] 9 1024 = Ok f /\
  retrieve dbg f [1; 2; 0; 0] 9 = Ok 8 /\ retrieve dbg f [2; 1; 0; 0] 9 = Ok 8.
Proof.
  eexists. intros dbg. split; [discriminate|].
  split; [destruct dbg; vm_compute; reflexivity|]. split; destruct dbg; vm_compute; reflexivity.
Qed.

(** ** C30 *)

(** @C30 with distinct key hashes and at most 63 keys per slot, construction returns a
    filter exactly when the keys are peelable, and the construction error otherwise: no
    panic, no endless loop, in both profiles, for every modulus the code can divide by. *)
Lemma construct_iff_peelable : forall max_iter dbg fe rnd seed keys data p label g slots,
  geometry dbg fe (length keys) = Ok g -> sane_estimates fe (length keys) ->
  evaluates dbg seed (g_seglen g) (g_mask g) (g_scl g) slots ->
  (length keys <= length data)%nat -> 0 < p -> p mod 2 ^ 32 <> 0 -> (dbg = true -> 256 <= p) ->
  max_iter <> 0%nat ->
  NoDup (map (fun key => mix256 key seed) keys) -> (forall j, (load slots keys j <= 63)%nat) ->
  (peelable slots keys /\ exists f, bfusep_from_impl max_iter dbg fe rnd seed keys data p label = Ok f) \/
  (~ peelable slots keys /\ bfusep_from_impl max_iter dbg fe rnd seed keys data p label = Err EFilterFail).
Proof.
  intros mi dbg fe rnd seed keys data p label g slots Eg Hsane Hev HL Hp Hp32 H256 Hmi ND Hl.
  destruct (geometry_valid _ _ _ _ Hsane Eg) as [Hg _].
  assert (HD : dbg = true -> NoDup keys /\ 256 <= p).
  { intros D. split; auto. now apply NoDup_map_inv in ND. }
  pose proof (peelable_peels g Hg seed dbg slots Hev keys) as PP.
  destruct (construct_cases mi dbg fe rnd seed keys data p label g Eg Hsane HL Hp Hp32 HD)
    as [(fps & stack & m & GS & _ & _ & _ & _ & E')|[(E' & NP)|(HH & _)]].
  - left. split; [|eexists; exact E']. apply PP. destruct GS as (_ & _ & G3 & G4 & G5).
    apply (peels_perm g (map fst stack)); [|exact G5].
    apply NoDup_Permutation; auto. apply (peels_nodup g _ G5). intros h. split; [apply G4|apply G3].
  - right. split; auto. intros Hpe. destruct (NP Hmi) as [N _]. apply N; [exact ND|]. now apply PP.
  - exfalso. apply (heavy_load g Hg seed dbg slots Hev keys) in HH. destruct HH as (j & Hj). specialize (Hl j). lia.
Qed.

(** @C30 even with colliding hashes, success means that every subset of the keys with
    distinct hashes is peelable. *)
Lemma construct_ok_peelable : forall max_iter dbg fe rnd seed keys data p label g slots f,
  geometry dbg fe (length keys) = Ok g -> sane_estimates fe (length keys) ->
  evaluates dbg seed (g_seglen g) (g_mask g) (g_scl g) slots ->
  (length keys <= length data)%nat -> 0 < p -> p mod 2 ^ 32 <> 0 ->
  (dbg = true \/ forall j, (load slots keys j <= 63)%nat) ->
  bfusep_from_impl max_iter dbg fe rnd seed keys data p label = Ok f ->
  forall keys', incl keys' keys -> NoDup (map (fun key => mix256 key seed) keys') -> peelable slots keys'.
Proof.
  intros mi dbg fe rnd seed keys data p label g slots f Eg Hsane Hev HL Hp Hp32 Hl E keys' Hincl ND.
  destruct (geometry_valid _ _ _ _ Hsane Eg) as [Hg _].
  assert (HD : dbg = true -> NoDup keys /\ 256 <= p) by (intros ->; eapply from_impl_dbg; eauto).
  apply (peelable_peels g Hg seed dbg slots Hev keys').
  destruct (construct_cases mi dbg fe rnd seed keys data p label g Eg Hsane HL Hp Hp32 HD)
    as [(fps & stack & m & GS & _ & _ & _ & _ & E')|[(E' & NP)|(HH & HP)]].
  - destruct GS as (_ & _ & G3 & G4 & G5).
    set (hs' := map (fun key => mix256 key seed) keys') in *.
    assert (I : incl hs' (map fst stack)).
    { intros h Hh. apply G3. unfold hs' in Hh. apply in_map_iff in Hh. destruct Hh as (key & <- & Hk).
      apply in_map_iff. exists key. auto. }
    assert (SP : forall N M : list Z, NoDup N -> incl N M -> exists R, Permutation M (N ++ R)).
    { induction N as [|x N IH]; intros M HN HI; [exists M; apply Permutation_refl|].
      apply NoDup_cons_iff in HN. destruct HN as [HN1 HN2].
      assert (Hx : In x M) by (apply HI; now left). apply in_split in Hx. destruct Hx as (M1 & M2 & ->).
      destruct (IH (M1 ++ M2) HN2) as (R & P).
      { intros y Hy. assert (In y (M1 ++ x :: M2)) as Q by (apply HI; now right).
        apply in_app_iff in Q. apply in_app_iff. destruct Q as [Q|[->|Q]]; auto. contradiction. }
      exists R. rewrite <- Permutation_middle. cbn [app]. now apply perm_skip. }
    destruct (SP hs' (map fst stack) ND I) as (R & P).
    apply (peels_subset g (map fst stack) G5 _ R P).
  - congruence.
  - exfalso. destruct Hl as [->|Hl]; [rewrite (HP eq_refl) in E; discriminate|].
    apply (heavy_load g Hg seed dbg slots Hev keys) in HH. destruct HH as (j & Hj). specialize (Hl j). lia.
Qed.

(** @C30 in a debug build, distinct hashes with more than 63 keys on a slot always panic. *)
Lemma overload_panics : forall max_iter fe rnd seed keys data p label g slots j,
  geometry true fe (length keys) = Ok g -> sane_estimates fe (length keys) ->
  evaluates true seed (g_seglen g) (g_mask g) (g_scl g) slots ->
  (length keys <= length data)%nat -> 256 <= p -> p mod 2 ^ 32 <> 0 -> max_iter <> 0%nat ->
  NoDup (map (fun key => mix256 key seed) keys) -> (63 < load slots keys j)%nat ->
  bfusep_from_impl max_iter true fe rnd seed keys data p label = Panic.
Proof.
  intros mi fe rnd seed keys data p label g slots j Eg Hsane Hev HL Hp Hp32 Hmi ND Hl.
  destruct (geometry_valid _ _ _ _ Hsane Eg) as [Hg _].
  assert (HH : heavy g (key_hashes keys seed)) by (apply (heavy_load g Hg seed true slots Hev keys); eauto).
  assert (HD : true = true -> NoDup keys /\ 256 <= p) by (intros _; split; auto; now apply NoDup_map_inv in ND).
  destruct (construct_cases mi true fe rnd seed keys data p label g Eg Hsane HL ltac:(lia) Hp32 HD)
    as [(fps & stack & m & GS & N & _)|[(E' & NP)|(_ & HP)]].
  - exfalso. apply N. split; auto.
  - exfalso. destruct (NP Hmi) as [_ N]. apply N. split; auto.
  - auto.
Qed.

(** @C30 unequal numbers of keys and data: an error from [from_slice]; [from_vec] panics
    when data is missing (distinct keys, debug or release). *)
Lemma from_slice_length : forall dbg fe rnd seed keys data label p,
  length data <> length keys -> from_slice dbg fe rnd seed keys data label p = Err EDataLen.
Proof.
  intros. unfold from_slice. rewrite (proj2 (Nat.eqb_neq _ _)) by auto. reflexivity.
Qed.

Lemma insert_all_short hs data m : (length data < length hs)%nat -> insert_all hs data m = Panic.
Proof.
  intros H. unfold insert_all.
  assert (G : forall k, (k <= length data)%nat -> exists m', foldM (fun m ih => let* d := idx data (fst ih) in Ok ((snd ih, d) :: m))
        (combine (seq 0 k) (firstn k hs)) m = Ok m').
  { induction k as [|k IH]; intros Hk; [exists m; reflexivity|]. destruct IH as (m' & E); [lia|].
    assert (EF : firstn (S k) hs = firstn k hs ++ firstn 1 (skipn k hs)).
    { rewrite <- (firstn_skipn k hs) at 1. rewrite firstn_app, firstn_length.
      rewrite firstn_all2 by (rewrite firstn_length; lia). f_equal. f_equal. lia. }
    rewrite EF, seq_S'. cbn [Nat.add].
    rewrite combine_app by (rewrite seq_length, firstn_length; lia). rewrite foldM_app, E. cbn [bind].
    destruct (skipn k hs) as [|x r] eqn:Er.
    - apply (f_equal (@length Z)) in Er. rewrite skipn_length in Er. cbn in Er. lia.
    - cbn [firstn combine foldM fst snd]. rewrite (idx_nth data k 0) by lia. cbn [bind]. eexists. reflexivity. }
  destruct (G (length data) (le_n _)) as (m' & E).
  replace (seq 0 (length hs)) with (seq 0 (length data) ++ seq (length data) (length hs - length data))
    by (rewrite <- seq_app; f_equal; lia).
  rewrite <- (firstn_skipn (length data) hs) at 2.
  rewrite combine_app by (rewrite seq_length, firstn_length; lia). rewrite foldM_app, E. cbn [bind].
  destruct (length hs - length data)%nat as [|r] eqn:Er; [lia|].
  destruct (skipn (length data) hs) as [|x l] eqn:El.
  { apply (f_equal (@length Z)) in El. rewrite skipn_length in El. cbn in El. lia. }
  cbn [seq combine foldM fst snd]. rewrite idx_oob by lia. reflexivity.
Qed.

(** @C30 [from_vec] has no such check: with fewer data than keys it panics. *)
Lemma from_vec_short : forall dbg fe rnd seed keys data label p,
  sane_estimates fe (length keys) -> (length data < length keys)%nat ->
  from_vec dbg fe rnd seed keys data label p = Panic.
Proof.
  intros dbg fe rnd seed keys data label p Hsane HL. unfold from_vec, bfusep_from_impl.
  destruct (dbg && _); [reflexivity|]. destruct (dbg && _); [reflexivity|].
  destruct (geometry_ok dbg fe (length keys) Hsane) as (g & -> & Hg & _). cbn [bind].
  destruct (block_bits_ok (g_segcount g) (geom_segcount g Hg)) as (bb & -> & _). cbn [bind].
  assert (E : exists k, MAX_ITER = S k) by (exists (Z.to_nat 99999); reflexivity).
  destruct E as (k & ->). cbn [attempts]. rewrite insert_all_short; [reflexivity|].
  unfold key_hashes. now rewrite map_length.
Qed.

Lemma load_le {K} (slots : K -> list nat) ks j : (load slots ks j <= length ks)%nat.
Proof. unfold load. induction ks as [|k ks IH]; cbn [filter length]; [lia|]. destruct (in_dec _ _ _); cbn [length]; lia. Qed.

(** @C30 *)
Example construct_example : exists g slots,
  geometry true (est 3 12) (length ex_keys) = Ok g /\
  evaluates true seed0 (g_seglen g) (g_mask g) (g_scl g) slots /\
  NoDup (map (fun key => mix256 key seed0) ex_keys) /\
  peelable slots ex_keys /\ (forall j, (load slots ex_keys j <= 63)%nat).
Proof.
  exists {| g_seglen := 8; g_mask := 7; g_scl := 8; g_segcount := 1; g_arrlen := Z.to_nat 24 |}.
  exists (fun key => match hash_eval true key seed0 8 7 8 with Ok l => l | _ => [] end).
  split; [reflexivity|]. cbn [g_seglen g_mask g_scl].
  assert (EV : forall key, exists l, hash_eval true key seed0 8 7 8 = Ok l).
  { intros key. destruct (three_slots true true (est 3 12) 3
      {| g_seglen := 8; g_mask := 7; g_scl := 8; g_segcount := 1; g_arrlen := Z.to_nat 24 |} key seed0) as (a & b & c & E & _).
    - apply est_sane; lia. - reflexivity. - cbn in E. eexists. exact E. }
  split; [intros key; destruct (EV key) as (l & E); rewrite E; reflexivity|].
  split; [vm_compute; repeat constructor; cbn; intuition discriminate|]. split.
  - apply (peelable_take _ (key4 1) _ [key4 2; key4 3] (nth 0 (match hash_eval true (key4 1) seed0 8 7 8 with Ok l => l | _ => [] end) 0%nat)).
    + reflexivity.
    + vm_compute. auto.
    + intros k' [<-|[<-|[]]]; vm_compute; intuition discriminate.
    + apply (peelable_take _ (key4 2) _ [key4 3] (nth 0 (match hash_eval true (key4 2) seed0 8 7 8 with Ok l => l | _ => [] end) 0%nat)).
      * reflexivity.
      * vm_compute. auto.
      * intros k' [<-|[]]; vm_compute; intuition discriminate.
      * apply (peelable_take _ (key4 3) _ [] (nth 0 (match hash_eval true (key4 3) seed0 8 7 8 with Ok l => l | _ => [] end) 0%nat)).
        -- reflexivity.
        -- vm_compute. auto.
        -- intros k' [].
        -- constructor.
  - intros j. etransitivity; [apply load_le|cbn; lia].
Qed.

(** ** C31 *)

(** @C31 the bucketed insertion always ends, and leaves in the order array exactly the
    hashes it was given (with multiplicity, in some order), with the sentinel untouched,
    whatever the hashes: equal, zero, or all in one bucket. *)
Lemma placement_permutes : forall bb hashes, (bb <= 64)%nat -> Forall is_u64 hashes ->
  let size := length hashes in
  exists order, place_all bb size hashes (repeat 0 size ++ [1]) = Ok order /\
    length order = S size /\ Permutation (firstn size order) hashes /\ nth_error order size = Some 1.
Proof.
  intros bb hashes Hbb HF size. destruct (place_all_ok bb size Hbb hashes eq_refl HF) as (o & E & L & P & N).
  exists o. split; auto. split; auto. split; auto. rewrite <- N. apply nth_error_nth'. lia.
Qed.

(** @C31 *)
Example placement_example :
  place_all 2 4 [0; 2 ^ 63; 0; 2 ^ 63] [0; 0; 0; 0; 1] = Ok [0; 0; 2 ^ 63; 2 ^ 63; 1].
Proof. vm_compute. reflexivity. Qed.

(** ** C32 *)

(** @C32 refuted: the outcome does not depend on the number of attempts allowed. *)
Lemma retries_are_identical : forall m1 m2 dbg fe rnd seed keys data p label g slots,
  geometry dbg fe (length keys) = Ok g -> sane_estimates fe (length keys) ->
  evaluates dbg seed (g_seglen g) (g_mask g) (g_scl g) slots ->
  (length keys <= length data)%nat -> 0 < p -> p mod 2 ^ 32 <> 0 ->
  (dbg = true \/ forall j, (load slots keys j <= 63)%nat) ->
  m1 <> 0%nat -> m2 <> 0%nat ->
  bfusep_from_impl m1 dbg fe rnd seed keys data p label =
  bfusep_from_impl m2 dbg fe rnd seed keys data p label.
Proof.
  intros m1 m2 dbg fe rnd seed keys data p label g slots Eg Hsane Hev HL Hp Hp32 Hl H1 H2.
  destruct (geometry_valid _ _ _ _ Hsane Eg) as [Hg _].
  destruct (block_bits_ok (g_segcount g) (geom_segcount g Hg)) as (bb & Eb & Hbb & _).
  unfold bfusep_from_impl. destruct (dbg && _); [reflexivity|]. destruct (dbg && _); [reflexivity|].
  rewrite Eg. cbn [bind]. rewrite Eb. cbn [bind].
  assert (Lh : length keys = length (key_hashes keys seed)) by (unfold key_hashes; now rewrite map_length).
  rewrite Lh in *. set (hs := key_hashes keys seed) in *.
  assert (HU : Forall is_u64 hs) by apply key_hashes_u64.
  f_equal.
  destruct (attempt_cases dbg g Hg bb hs ltac:(lia) HU) as [(stack & E & _)|[(E & _)|(HH & HP)]]; cbv zeta in *.
  - destruct m1 as [|m1]; [congruence|]. destruct m2 as [|m2]; [congruence|]. cbn [attempts].
    rewrite E. reflexivity.
  - assert (K : forall mi m, attempts mi dbg g bb (length hs) hs data (fstate0 g (length hs)) m = Err EFilterFail).
    { induction mi as [|mi IH]; intros m; [reflexivity|]. cbn [attempts].
      destruct (insert_all_ok hs data m HL) as (m' & -> & _). cbn [bind]. rewrite E. cbn [bind]. apply IH. }
    now rewrite !K.
  - destruct Hl as [D|Hl].
    + destruct m1 as [|m1]; [congruence|]. destruct m2 as [|m2]; [congruence|]. cbn [attempts].
      rewrite (HP D). reflexivity.
    + exfalso. apply (heavy_load g Hg seed dbg slots Hev keys) in HH. destruct HH as (j & Hj). specialize (Hl j). lia.
Qed.

Lemma two_same_not_peelable {K} (slots : K -> list nat) k1 k2 : slots k1 = slots k2 -> ~ peelable slots [k1; k2].
Proof.
  intros E H. inversion H as [|k ks ks' j P I A HP]; subst.
  apply Permutation_length_2_inv in P. destruct P as [P|P]; injection P as -> ->.
  - apply (A k2); [now left|]. now rewrite <- E.
  - apply (A k1); [now left|]. now rewrite E.
Qed.

(** @C32 refuted: two distinct keys that no number of attempts can ever put in a filter. *)
Lemma hopeless_pair_refuted : forall max_iter rnd data p label dbg,
  length data = 2%nat -> 0 < p -> p mod 2 ^ 32 <> 0 -> (dbg = true -> 256 <= p) ->
  mix256 (key4 7) seed0 <> mix256 (key4 10) seed0 /\
  bfusep_from_impl max_iter dbg (est 2 12) rnd seed0 [key4 7; key4 10] data p label = Err EFilterFail.
Proof.
  intros mi rnd data p label dbg Hd Hp Hp32 H256.
  set (g := {| g_seglen := 4; g_mask := 3; g_scl := 4; g_segcount := 1; g_arrlen := 12 |}).
  assert (Eg : geometry dbg (est 2 12) (length [key4 7; key4 10]) = Ok g) by (destruct dbg; reflexivity).
  assert (Hsane : sane_estimates (est 2 12) (length [key4 7; key4 10])) by (apply est_sane; lia).
  assert (NE : mix256 (key4 7) seed0 <> mix256 (key4 10) seed0).
  { apply Z.eqb_neq. vm_compute. reflexivity. }
  split; auto.
  destruct (slots_exist dbg dbg _ _ g seed0 Hsane Eg) as (slots & Hev).
  assert (ND : NoDup (map (fun key => mix256 key seed0) [key4 7; key4 10])).
  { constructor; [intros [E|[]]; congruence|]. constructor; [intros []|constructor]. }
  assert (Hl : forall j, (load slots [key4 7; key4 10] j <= 63)%nat).
  { intros j. etransitivity; [apply load_le|cbn; lia]. }
  assert (ES : slots (key4 7) = slots (key4 10)).
  { pose proof (Hev (key4 7)) as E1. pose proof (Hev (key4 10)) as E2. cbn [g g_seglen g_mask g_scl] in E1, E2.
    assert (A : forall d, hash_eval d (key4 7) seed0 4 3 4 = hash_eval d (key4 10) seed0 4 3 4)
      by (intros []; vm_compute; reflexivity).
    rewrite A in E1. congruence. }
  destruct (Nat.eq_dec mi 0) as [->|Hmi].
  { destruct (construct_cases 0 dbg (est 2 12) rnd seed0 [key4 7; key4 10] data p label g Eg Hsane
      ltac:(rewrite Hd; cbn; lia) Hp Hp32) as [(fps & stack & m & _ & _ & _ & _ & _ & E')|[(E' & _)|(HH & _)]].
    - intros D. split; auto. now apply NoDup_map_inv in ND.
    - exfalso. unfold bfusep_from_impl in E'. rewrite Eg in E'. cbn [bind attempts] in E'.
      destruct (dbg && _); [discriminate|]. destruct (dbg && _); discriminate.
    - exact E'.
    - exfalso. apply (heavy_load g (proj1 (geometry_valid _ _ _ _ Hsane Eg)) seed0 dbg slots Hev) in HH.
      destruct HH as (j & Hj). specialize (Hl j). lia. }
  destruct (construct_iff_peelable mi dbg (est 2 12) rnd seed0 [key4 7; key4 10] data p label g slots
     Eg Hsane Hev ltac:(rewrite Hd; cbn; lia) Hp Hp32 H256 Hmi ND Hl) as [[P _]|[_ E]]; auto.
  exfalso. now apply (two_same_not_peelable slots (key4 7) (key4 10)).
Qed.

(** ** C33 *)

Definition bad64 : list (list Z) := map key4
  [72; 127; 215; 228; 356; 363; 412; 416; 484; 491; 517; 549; 600; 624; 1118; 1149; 1187; 1223; 1248; 1268; 1297; 1336; 1340; 1717; 1858; 1887; 2110; 2242; 2248; 2258; 2313; 2341; 2355; 2389; 2468; 2525; 2619; 2665; 2720; 2749; 2811; 2889; 2995; 3072; 3110; 3147; 3178; 3229; 3436; 3484; 3503; 3556; 3646; 3653; 3655; 3663; 3744; 3761; 3783; 3843; 3849; 3852; 3948; 4032].

(** @C33 refuted: 64 distinct keys with distinct hashes for which construction never
    returns in a release build (and panics in a debug build). *)
Lemma release_hang_refuted : length bad64 = 64%nat /\ NoDup bad64 /\
  NoDup (map (fun key => mix256 key seed0) bad64) /\
  from_slice false (est 5 109) rnd0 seed0 bad64 (map Z.of_nat (seq 0 64)) 9 1024 = Hang /\
  from_slice true (est 5 109) rnd0 seed0 bad64 (map Z.of_nat (seq 0 64)) 9 1024 = Panic.
Proof.
  split; [reflexivity|].
  assert (N : NoDup (map (fun key => mix256 key seed0) bad64)).
  { assert (D : forall l : list Z, (fix nd l := match l with [] => true | x :: t => negb (existsb (Z.eqb x) t) && nd t end) l = true -> NoDup l).
    { induction l as [|x t IH]; intros H; [constructor|]. apply andb_true_iff in H. destruct H as [H1 H2].
      constructor; [|auto]. intros Hin. apply negb_true_iff in H1.
      assert (T : existsb (Z.eqb x) t = true) by (apply existsb_exists; exists x; split; auto; apply Z.eqb_refl). congruence. }
    apply D. vm_compute. reflexivity. }
  split; [now apply NoDup_map_inv in N|]. split; [exact N|].
  split; vm_compute; reflexivity.
Qed.
