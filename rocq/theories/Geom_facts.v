(** Facts about the filter geometry and the three hash positions. *)
From Verif Require Import Base Hash Fuse3 Base_facts.
Local Open Scope Z_scope.

(** The float estimates are in the range that keeps all u32 arithmetic exact. *)
Definition good_fest (fe : fest) (size : nat) : Prop :=
  (Z.of_nat size mod two32 <> 0 -> 2 <= fe_exp fe size < 32) /\
  ((1 < size)%nat -> 0 <= fe_cap fe size /\ fe_cap fe size + 3 * 262144 < two32).

Definition valid_geom (g : geom) : Prop :=
  exists k, 0 <= k <= 18 /\ g_seglen g = 2 ^ k /\ g_mask g = 2 ^ k - 1 /\
    1 <= g_segcount g /\ g_scl g = g_segcount g * 2 ^ k /\
    g_arrlen g = Z.to_nat ((g_segcount g + 2) * 2 ^ k) /\
    (g_segcount g + 2) * 2 ^ k < two32.

Lemma seglen_ok dbg fe size :
  good_fest fe size ->
  exists k, 2 <= k <= 18 /\
    (let* s := segment_length dbg fe size in Ok (Z.min s 262144)) = Ok (2 ^ k).
Proof.
  intros [He _]. unfold segment_length. destruct (Z.eqb_spec (Z.of_nat size mod two32) 0) as [E|E].
  - exists 2. split; [lia|]. reflexivity.
  - specialize (He E). rewrite (proj2 (Z.ltb_lt _ _)) by lia. cbn [bind].
    exists (Z.min (fe_exp fe size) 18). split; [lia|]. f_equal.
    destruct (Z.le_gt_cases (fe_exp fe size) 18) as [H|H].
    + rewrite (Z.min_l (fe_exp fe size) 18) by lia.
      pose proof (Z.pow_le_mono_r 2 (fe_exp fe size) 18). change (2 ^ 18) with 262144 in *. lia.
    + rewrite (Z.min_r (fe_exp fe size) 18) by lia.
      pose proof (Z.pow_le_mono_r 2 18 (fe_exp fe size)). change (2 ^ 18) with 262144 in *. lia.
Qed.

Lemma geometry_ok dbg fe size :
  good_fest fe size ->
  exists g, geometry dbg fe size = Ok g /\ valid_geom g /\ 4 <= g_seglen g <= 262144 /\
    let cap := (if (1 <? size)%nat then fe_cap fe size else 0) in
    cap <= Z.of_nat (g_arrlen g) /\
    Z.of_nat (g_arrlen g) <= Z.max (3 * g_seglen g) (cap + g_seglen g - 1).
Proof.
  intros Hg. destruct (seglen_ok dbg fe size Hg) as (k & Hk & Es).
  destruct Hg as [_ Hc]. unfold geometry.
  destruct (segment_length dbg fe size) as [s0| | |]; cbn [bind] in *; try discriminate.
  injection Es as Es. rewrite Es. clear s0 Es.
  assert (HL : 4 <= 2 ^ k <= 262144).
  { split; [apply (Z.pow_le_mono_r 2 2 k); lia|apply (Z.pow_le_mono_r 2 k 18); lia]. }
  set (L := 2 ^ k) in *.
  unfold sub32, add32, mul32.
  rewrite chk_Ok by (unfold two32; lia). cbn [bind].
  set (cap := if (1 <? size)%nat then fe_cap fe size else 0).
  assert (Hcap : 0 <= cap /\ cap + 3 * 262144 < two32).
  { unfold cap. destruct (Nat.ltb_spec 1 size); [auto|unfold two32; lia]. }
  assert (H2 : two32 = 4294967296) by reflexivity.
  rewrite chk_Ok by lia. cbn [bind].
  rewrite chk_Ok by lia. cbn [bind].
  rewrite divz_pos by lia. cbn [bind].
  pose proof (Z.div_mod (cap + L - 1) L ltac:(lia)) as D1.
  pose proof (Z.mod_pos_bound (cap + L - 1) L ltac:(lia)) as M1.
  set (c0 := (cap + L - 1) / L) in *.
  assert (H0 : 0 <= c0) by (apply Z.div_pos; lia).
  assert (Hal : c0 * L <= cap + L - 1) by nia.
  rewrite chk_Ok by nia. cbn [bind].
  rewrite chk_Ok by nia. cbn [bind].
  rewrite chk_Ok by nia. cbn [bind].
  rewrite divz_pos by lia. cbn [bind].
  assert (Ep : (c0 * L + L - 1) / L = c0).
  { symmetry. apply (Z.div_unique_pos _ _ _ (L - 1)); [lia|ring]. }
  rewrite Ep.
  assert (Hseg : exists c, 1 <= c /\ c <= c0 + 1 /\ (3 <= c0 -> c = c0 - 2) /\ (c0 < 3 -> c = 1) /\
    (if c0 <? 3 then Ok 1 else chk dbg two32 (c0 - (3 - 1))) = Ok c).
  { destruct (Z.ltb_spec c0 3).
    - exists 1. repeat split; auto; lia.
    - exists (c0 - 2). repeat split; try lia. apply chk_Ok. nia. }
  destruct Hseg as (c & Hc1 & Hc2 & Hc3 & Hc4 & ->). cbn [bind].
  assert (Hb : (c + 2) * L < two32).
  { destruct (Z.le_gt_cases 3 c0) as [G|G].
    - rewrite Hc3 by lia. nia.
    - assert (c + 2 <= 5) by lia. nia. }
  rewrite chk_Ok by nia. cbn [bind]. rewrite chk_Ok by nia. cbn [bind].
  rewrite chk_Ok by nia. cbn [bind]. rewrite chk_Ok by nia. cbn [bind].
  eexists. split; [reflexivity|]. split; [|split; [cbn [g_seglen]; lia|]].
  2:{ cbn [g_seglen g_arrlen]. fold cap. rewrite Z2Nat.id by nia.
      assert (K : cap <= c0 * L) by lia.
      destruct (Z.le_gt_cases 3 c0) as [G|G]; [rewrite Hc3 by lia|rewrite Hc4 by lia];
        rewrite ?Z.max_le_iff; split; nia. }
  exists k. cbn [g_seglen g_mask g_segcount g_scl g_arrlen]. fold L.
  repeat split; try lia.
Qed.

Lemma lxor_low a b k :
  0 <= k -> 0 <= b < 2 ^ k -> 0 <= a ->
  Z.lxor a b / 2 ^ k = a / 2 ^ k /\ 0 <= Z.lxor a b.
Proof.
  intros Hk Hb Ha. split.
  - rewrite <- !Z.shiftr_div_pow2 by auto. rewrite Z.shiftr_lxor.
    rewrite (Z.shiftr_div_pow2 b) by auto. rewrite (Z.div_small b) by auto. apply Z.lxor_0_r.
  - apply Z.lxor_nonneg. split; lia.
Qed.

Lemma land_mask x k : 0 <= k -> 0 <= Z.land x (2 ^ k - 1) < 2 ^ k.
Proof.
  intros Hk. replace (2 ^ k - 1) with (Z.ones k) by (rewrite Z.ones_equiv; lia).
  rewrite Z.land_ones by auto. apply Z.mod_pos_bound. lia.
Qed.

(** The three positions, as formulas. *)
Definition seg0 (g : geom) (h : Z) : Z := h * g_scl g / two64.
Definition pos1 (g : geom) (h : Z) : Z := seg0 g h.
Definition pos2 (g : geom) (h : Z) : Z :=
  Z.lxor (seg0 g h + g_seglen g) (Z.land (Z.shiftr h 18 mod two32) (g_mask g)).
Definition pos3 (g : geom) (h : Z) : Z :=
  Z.lxor (seg0 g h + g_seglen g + g_seglen g) (Z.land (h mod two32) (g_mask g)).
Definition sl1 (g : geom) (h : Z) : nat := Z.to_nat (pos1 g h).
Definition sl2 (g : geom) (h : Z) : nat := Z.to_nat (pos2 g h).
Definition sl3 (g : geom) (h : Z) : nat := Z.to_nat (pos3 g h).

Lemma positions dbg g h :
  valid_geom g -> is_u64 h ->
  hash_of_hash dbg h (g_seglen g) (g_mask g) (g_scl g) = Ok (pos1 g h, pos2 g h, pos3 g h) /\
  exists s, 0 <= s < g_segcount g /\
    0 <= pos1 g h /\ 0 <= pos2 g h /\ 0 <= pos3 g h /\
    pos1 g h / g_seglen g = s /\ pos2 g h / g_seglen g = s + 1 /\ pos3 g h / g_seglen g = s + 2.
Proof.
  intros (k & Hk & EL & EM & Hc & Es & Ea & Hb) Hu.
  unfold is_u64 in Hu.
  assert (HL : 1 <= 2 ^ k <= 262144).
  { split; [apply (Z.pow_le_mono_r 2 0 k); lia|apply (Z.pow_le_mono_r 2 k 18); lia]. }
  assert (Hscl : 0 < g_scl g < two32) by (rewrite Es; nia).
  assert (H2 : two32 = 4294967296) by reflexivity.
  assert (H6 : two64 = 18446744073709551616) by reflexivity.
  assert (Hs0 : 0 <= seg0 g h < g_scl g).
  { unfold seg0. split; [apply Z.div_pos; nia|]. apply Z.div_lt_upper_bound; nia. }
  assert (Hhi : Z.shiftr (h * g_scl g) 64 mod two64 mod two32 = seg0 g h).
  { rewrite Z.shiftr_div_pow2 by lia. change (2 ^ 64) with two64. fold (seg0 g h).
    rewrite (Z.mod_small (seg0 g h) two64) by lia. apply Z.mod_small. lia. }
  split.
  - unfold hash_of_hash. rewrite Hhi. unfold add32.
    rewrite chk_Ok by nia. cbn [bind]. rewrite chk_Ok by nia. cbn [bind]. reflexivity.
  - exists (seg0 g h / 2 ^ k). rewrite EL.
    assert (Hk0 : 0 <= k) by lia.
    assert (P1 : 0 <= seg0 g h + 2 ^ k) by lia.
    assert (P2 : 0 <= seg0 g h + 2 ^ k + 2 ^ k) by lia.
    assert (P0 : 0 <= seg0 g h) by lia.
    assert (S : 0 <= seg0 g h / 2 ^ k < g_segcount g).
    { split; [apply Z.div_pos; lia|]. apply Z.div_lt_upper_bound; [lia|]. rewrite Es in Hs0. lia. }
    assert (PL : 2 ^ k <> 0) by lia.
    pose proof (lxor_low _ _ k Hk0 (land_mask (Z.shiftr h 18 mod two32) k Hk0) P1) as [Q1 N1].
    pose proof (lxor_low _ _ k Hk0 (land_mask (h mod two32) k Hk0) P2) as [Q2 N2].
    unfold pos1, pos2, pos3. rewrite EL, EM.
    split; [exact S|].
    split; [exact P0|]. split; [exact N1|]. split; [exact N2|]. split; [reflexivity|].
    rewrite Q1, Q2.
    replace (seg0 g h + 2 ^ k) with (seg0 g h + 1 * 2 ^ k) by ring.
    replace (seg0 g h + 1 * 2 ^ k + 2 ^ k) with (seg0 g h + 2 * 2 ^ k) by ring.
    rewrite !Z.div_add by exact PL. split; reflexivity.
Qed.

Lemma slots_ok dbg g h :
  valid_geom g -> is_u64 h ->
  slots dbg g h = Ok (sl1 g h, sl2 g h, sl3 g h) /\
  (sl1 g h < g_arrlen g)%nat /\ (sl2 g h < g_arrlen g)%nat /\ (sl3 g h < g_arrlen g)%nat /\
  sl1 g h <> sl2 g h /\ sl1 g h <> sl3 g h /\ sl2 g h <> sl3 g h.
Proof.
  intros Hg Hu. destruct (positions dbg g h Hg Hu) as (E & s & Hs & N1 & N2 & N3 & D1 & D2 & D3).
  unfold slots. rewrite E. cbn [bind]. split; [reflexivity|].
  destruct Hg as (k & Hk & EL & EM & Hc & Es & Ea & Hb).
  assert (HL : 1 <= 2 ^ k) by (apply (Z.pow_le_mono_r 2 0 k); lia).
  rewrite EL in *. rewrite Ea.
  assert (K : forall p, 0 <= p -> p / 2 ^ k < g_segcount g + 2 -> (Z.to_nat p < Z.to_nat ((g_segcount g + 2) * 2 ^ k))%nat).
  { intros p Hp Hd. apply Z2Nat.inj_lt; [lia|nia|].
    pose proof (Z.div_mod p (2 ^ k) ltac:(lia)). pose proof (Z.mod_pos_bound p (2 ^ k) ltac:(lia)). nia. }
  unfold sl1, sl2, sl3.
  repeat split; try (apply K; lia);
    (intros EE; apply Z2Nat.inj in EE; auto; rewrite EE in *; lia).
Qed.

Lemma mix256_u64 key seed : is_u64 (mix256 key seed).
Proof.
  unfold mix256. generalize (map (mix_word (seed_words seed)) key) as l.
  assert (K : forall l a, is_u64 a -> is_u64 (fold_left wadd64 l a)).
  { induction l as [|x l IH]; intros a Ha; [exact Ha|]. apply IH. apply is_u64_mod. }
  intros l. apply K. unfold is_u64, two64. lia.
Qed.

(** The geometry does not depend on the build profile. *)
Lemma chk_mono m v x : chk true m v = Ok x -> chk false m v = Ok x.
Proof. unfold chk. destruct (_ && _); auto. discriminate. Qed.

Lemma geometry_mono fe n g : geometry true fe n = Ok g -> geometry false fe n = Ok g.
Proof.
  unfold geometry, segment_length, sub32, add32, mul32, divz.
  destruct (_ =? 0); [|destruct (fe_exp fe n <? 32)]; cbn [bind]; try discriminate;
  repeat (match goal with
  | |- bind (chk true ?m ?v) _ = Ok _ -> _ =>
      let E := fresh "E" in destruct (chk true m v) eqn:E; [rewrite (chk_mono _ _ _ E)|discriminate..]
  | |- bind (if ?b then Panic else Ok ?v) _ = Ok _ -> _ => destruct b; [discriminate|]
  | |- bind (if ?b then Ok ?c else chk true ?m ?v) _ = Ok _ -> _ =>
      destruct b; [|let E := fresh "E" in destruct (chk true m v) eqn:E; [rewrite (chk_mono _ _ _ E)|discriminate..]]
  end; cbn [bind]); auto.
Qed.

Lemma geometry_dbg fe n d1 d2 : good_fest fe n -> geometry d1 fe n = geometry d2 fe n.
Proof.
  intros H. destruct (geometry_ok true fe n H) as (g & E & _). pose proof (geometry_mono _ _ _ E).
  destruct d1, d2; congruence.
Qed.
