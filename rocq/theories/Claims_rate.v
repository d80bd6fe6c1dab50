(** C69: false positives of the membership filters. *)
From Verif Require Import Base Hash Fuse3 Xorf Bfuse Fuse Float64 Estimate SpecFilter SpecXorf SpecEst SpecRate Base_facts Float_facts Estimate_facts Geom_facts Filter_facts FilterTop_facts HashInj_facts Peel_facts KeyPeel_facts Bfuse_facts Rate_facts Fill_facts Claims_filter Claims_xorf Claims_estimate.
Local Open Scope Z_scope.

(** ** Shape and range of a built filter *)

Lemma lxor_range w a b : 0 <= a < 2 ^ Z.of_nat w -> 0 <= b < 2 ^ Z.of_nat w -> 0 <= Z.lxor a b < 2 ^ Z.of_nat w.
Proof.
  intros Ha Hb. assert (0 <= Z.lxor a b) by (apply Z.lxor_nonneg; lia). split; [lia|].
  destruct (Z.eq_dec (Z.lxor a b) 0) as [E|N]; [rewrite E; lia|].
  apply Z.log2_lt_pow2; [lia|]. pose proof (Z.log2_lxor a b ltac:(lia) ltac:(lia)).
  assert (X : forall x, 0 <= x < 2 ^ Z.of_nat w -> x <> 0 -> Z.log2 x < Z.of_nat w) by (intros x Hx Nx; apply Z.log2_lt_pow2; lia).
  destruct (Z.eq_dec a 0) as [->|Na], (Z.eq_dec b 0) as [->|Nb].
  - rewrite Z.lxor_0_l in N. lia.
  - rewrite Z.lxor_0_l in *. apply X; auto.
  - rewrite Z.lxor_0_r in *. apply X; auto.
  - pose proof (X a Ha Na). pose proof (X b Hb Nb). lia.
Qed.
Lemma fingerprint_range w h : 0 <= fingerprint w h < 2 ^ Z.of_nat w.
Proof. unfold fingerprint. apply Z.mod_pos_bound. apply Z.pow_pos_nonneg; lia. Qed.

Definition in_w (w : nat) (x : Z) : Prop := 0 <= x < 2 ^ Z.of_nat w.

Lemma idx_Forall {A} (P : A -> Prop) l i x : Forall P l -> idx l i = Ok x -> P x.
Proof. intros F E. unfold idx in E. destruct (nth_error l i) eqn:N; [|discriminate]. injection E as <-. eapply Forall_forall; [exact F|]. eapply nth_error_In; eauto. Qed.
Lemma Forall_upd' {A} (P : A -> Prop) l i x : Forall P l -> P x -> Forall P (upd l i x).
Proof. intros HF Px. revert i. induction HF as [|y l Hy HF IH]; intros [|i]; cbn; auto. Qed.
Lemma set_shape {A} (P : A -> Prop) l i x l' : Forall P l -> P x -> set l i x = Ok l' -> length l' = length l /\ Forall P l'.
Proof.
  intros F Px E. destruct (Nat.lt_ge_cases i (length l)) as [H|H].
  - rewrite set_lt in E by exact H. injection E as <-. split; [apply length_upd|]. now apply Forall_upd'.
  - rewrite set_oob in E by exact H. discriminate.
Qed.

Lemma bf_assign_shape w dbg g fps e fps' : Forall (in_w w) fps -> bf_assign_one w dbg g fps e = Ok fps' ->
  length fps' = length fps /\ Forall (in_w w) fps'.
Proof.
  intros F E. unfold bf_assign_one in E. destruct e as [h f].
  apply bind_Ok in E as ([[i1 i2] i3] & _ & E). apply bind_Ok in E as (s1 & _ & E).
  apply bind_Ok in E as (x1 & X1 & E). apply bind_Ok in E as (s2 & _ & E). apply bind_Ok in E as (x2 & X2 & E).
  apply bind_Ok in E as (s0 & _ & E). apply (set_shape (in_w w)) in E; auto.
  apply lxor_range; [apply lxor_range; [apply fingerprint_range|]|].
  - apply (idx_Forall (in_w w) _ _ _ F X1).
  - apply (idx_Forall (in_w w) _ _ _ F X2).
Qed.

Lemma foldM_shape {A B} (P : B -> Prop) (step : B -> A -> res B) (l : list A) :
  (forall b a b', P b -> step b a = Ok b' -> P b') -> forall b b', P b -> foldM step l b = Ok b' -> P b'.
Proof.
  intros H. induction l as [|a l IH]; intros b b' Pb E; cbn [foldM] in E; [congruence|].
  apply bind_Ok in E as (b1 & E1 & E). eauto.
Qed.

Lemma bfuse_inv mi w dbg fe rnd keys f : bfuse_from_impl mi w dbg fe rnd keys = Ok f ->
  exists g fps, geometry dbg fe (length keys) = Ok g /\
    f = {| bf_seed := bf_seed f; bf_segment_length := g_seglen g; bf_segment_length_mask := g_mask g;
           bf_segment_count_length := g_scl g; bf_fingerprints := fps |} /\
    length fps = g_arrlen g /\ ((forall i, in_w w (rnd i)) -> Forall (in_w w) fps) /\
    exists stack, (forall rnd, bfuse_from_impl mi w dbg fe rnd keys =
      let* fps := foldM (bf_assign_one w dbg g) stack (map rnd (seq 0 (g_arrlen g))) in
      Ok {| bf_seed := bf_seed f; bf_segment_length := g_seglen g; bf_segment_length_mask := g_mask g;
           bf_segment_count_length := g_scl g; bf_fingerprints := fps |}).
Proof.
  unfold bfuse_from_impl. destruct (dbg && _); [discriminate|]. intros E.
  apply bind_Ok in E as (g & Eg & E). destruct (splitmix64 1) as [rng seed].
  apply bind_Ok in E as (bb & Eb & E). apply bind_Ok in E as ([s stack] & Es & E).
  apply bind_Ok in E as (fps & Ef & E). injection E as <-. exists g, fps. cbn [bf_seed].
  split; [exact Eg|]. split; [reflexivity|].
  assert (L : length (map rnd (seq 0 (g_arrlen g))) = g_arrlen g) by now rewrite map_length, seq_length.
  assert (LL : forall b a b', bf_assign_one w dbg g b a = Ok b' -> length b' = length b).
  { intros b [h ff] b' X. unfold bf_assign_one in X. apply bind_Ok in X as ([[i1 i2] i3] & _ & X). apply bind_Ok in X as (s1 & _ & X).
    apply bind_Ok in X as (x1 & X1 & X). apply bind_Ok in X as (s2 & _ & X). apply bind_Ok in X as (x2 & X2 & X).
    apply bind_Ok in X as (s0 & _ & X). apply (set_shape (fun _ => True)) in X; [tauto| |exact I]. apply Forall_forall; auto. }
  split; [|split].
  - apply (foldM_shape (fun b => length b = g_arrlen g) (bf_assign_one w dbg g) stack) with (b := map rnd (seq 0 (g_arrlen g))); auto.
    intros b a b' Hb X. apply LL in X. congruence.
  - intros HR. apply (foldM_shape (Forall (in_w w)) (bf_assign_one w dbg g) stack) with (b := map rnd (seq 0 (g_arrlen g))); auto.
    + intros b a b' Hb X. eapply bf_assign_shape; eauto.
    + apply Forall_map, Forall_forall. auto.
  - exists stack. intros r. rewrite Eg. cbn [bind]. rewrite Eb. cbn [bind]. rewrite Es. reflexivity.
Qed.

(** ** How many hashes are accepted by a given table *)

Section COUNT.
Variable g : geom.
Hypothesis Hg : valid_geom g.
Hypothesis H14 : g_seglen g <= 2 ^ 14.
Variable w : nat.
Hypothesis Hw : (w <= 32)%nat.
Variable fps : list Z.
Notation W := (2 ^ Z.of_nat w).
Notation L := 4294967296.

(** What the three slots hold, from the first slot and the low half of the hash. *)
Definition cell (lo t : Z) : Z :=
  let c1 := Z.to_nat t in
  let c2 := Z.to_nat (Z.lxor (t + g_seglen g) (Z.land (Z.shiftr lo 18) (g_mask g))) in
  let c3 := Z.to_nat (Z.lxor (t + g_seglen g + g_seglen g) (Z.land lo (g_mask g))) in
  Z.lxor (Z.lxor (nth c1 fps 0) (nth c2 fps 0)) (nth c3 fps 0).
Definition top (lo x : Z) : Z := Z.min (g_scl g - 1) ((x * L + lo) * g_scl g / two64).
Definition accepts (h : Z) : bool := x3 (sl1 g) (sl2 g) (sl3 g) fps h =? fingerprint w h.

Lemma W_pos : 0 < W <= L.
Proof. split; [apply Z.pow_pos_nonneg; lia|]. change L with (2 ^ 32). apply Z.pow_le_mono_r; lia. Qed.

Lemma accepts_split x lo : 0 <= x < L -> 0 <= lo < L ->
  accepts (x * L + lo) = (cell lo (top lo x) =? Z.lxor (lo mod W) (x mod W)).
Proof.
  intros Hx Hlo. unfold accepts. pose proof Hg as (k & Hk & EL & EM & Hc & Es & Ea & Hb).
  assert (K14 : k <= 14).
  { destruct (Z.le_gt_cases k 14) as [|K]; auto. exfalso. assert (2 ^ 15 <= 2 ^ k) by (apply Z.pow_le_mono_r; lia).
    rewrite EL in H14. lia. }
  set (h := x * L + lo).
  assert (Hh : 0 <= h < two64) by (unfold h, two64; lia).
  assert (Hscl : 0 < g_scl g) by (rewrite Es; apply Z.mul_pos_pos; [lia|apply Z.pow_pos_nonneg; lia]).
  assert (ET : seg0 g h = top lo x).
  { unfold top, seg0. fold h. rewrite Z.min_r; [reflexivity|].
    assert (h * g_scl g / two64 < g_scl g); [|lia]. apply Z.div_lt_upper_bound; [reflexivity|].
    rewrite (Z.mul_comm two64). rewrite (Z.mul_comm h). apply Z.mul_lt_mono_pos_l; lia. }
  assert (EM' : g_mask g = Z.ones k) by (rewrite EM, Z.ones_equiv; lia).
  assert (E2 : Z.land (Z.shiftr h 18 mod two32) (g_mask g) = Z.land (Z.shiftr lo 18) (g_mask g)).
  { rewrite EM', !Z.land_ones by lia. change two32 with (2 ^ 32).
    rewrite <- Znumtheory.Zmod_div_mod; [|apply Z.pow_pos_nonneg; lia|apply Z.pow_pos_nonneg; lia|].
    2:{ exists (2 ^ (32 - k)). rewrite <- Z.pow_add_r by lia. f_equal. lia. }
    rewrite !Z.shiftr_div_pow2 by lia. unfold h. replace (x * L + lo) with (lo + (x * 2 ^ 14) * 2 ^ 18) by lia.
    rewrite Z.div_add by lia. replace (x * 2 ^ 14) with (x * 2 ^ (14 - k) * 2 ^ k).
    - apply Z_mod_plus_full.
    - rewrite <- Z.mul_assoc, <- Z.pow_add_r by lia. do 2 f_equal. lia. }
  assert (E3 : h mod two32 = lo).
  { unfold h. change two32 with L. rewrite Z.add_comm, Z_mod_plus_full. apply Z.mod_small. exact Hlo. }
  assert (EF : fingerprint w h = Z.lxor (lo mod W) (x mod W)).
  { unfold fingerprint. rewrite <- !Z.land_ones by lia.
    assert (EX : Z.shiftr h 32 = x) by (rewrite Z.shiftr_div_pow2 by lia; change (2 ^ 32) with L; unfold h; rewrite Z.div_add_l by lia; rewrite Z.div_small by lia; lia).
    rewrite EX.
    assert (EH : Z.land h (Z.ones (Z.of_nat w)) = Z.land lo (Z.ones (Z.of_nat w))).
    { rewrite !Z.land_ones by lia. unfold h. replace (x * L) with (x * 2 ^ (32 - Z.of_nat w) * W).
      - rewrite Z.add_comm. apply Z_mod_plus_full.
      - rewrite <- Z.mul_assoc, <- Z.pow_add_r by lia. change L with (2 ^ 32). do 2 f_equal. lia. }
    rewrite <- EH. apply Z.bits_inj'. intros n Hn. rewrite !Z.lxor_spec, !Z.land_spec, !Z.lxor_spec.
    destruct (Z.testbit h n), (Z.testbit x n), (Z.testbit (Z.ones (Z.of_nat w)) n); reflexivity. }
  rewrite EF. f_equal. unfold x3, sl1, sl2, sl3, pos1, pos2, pos3, cell. rewrite E2, E3, ET. reflexivity.
Qed.

Lemma top_mono lo x y : 0 <= x <= y -> top lo x <= top lo y.
Proof.
  intros H. unfold top. apply Z.min_le_compat_l. apply Z.div_le_mono; [reflexivity|].
  pose proof Hg as (k & Hk & EL & EM & Hc & Es & _).
  assert (0 < g_scl g) by (rewrite Es; apply Z.mul_pos_pos; [lia|apply Z.pow_pos_nonneg; lia]).
  apply Z.mul_le_mono_nonneg_r; lia.
Qed.
Lemma top_range lo x : 0 <= lo -> 0 <= x -> 0 <= top lo x <= g_scl g - 1.
Proof.
  intros Hl Hx. unfold top. pose proof Hg as (k & Hk & EL & EM & Hc & Es & _).
  assert (0 < g_scl g) by (rewrite Es; apply Z.mul_pos_pos; [lia|apply Z.pow_pos_nonneg; lia]).
  assert (0 <= (x * L + lo) * g_scl g / two64) by (apply Z.div_pos; [apply Z.mul_nonneg_nonneg; lia|reflexivity]).
  lia.
Qed.

(** One group of hashes: everything fixed but [w] bits. *)
Lemma group lo hi : 0 <= lo < L -> 0 <= hi -> hi * W + (W - 1) < L ->
  let c := how_many (fun j => accepts ((hi * W + j) * L + lo)) W in
  let climb := top lo (hi * W + (W - 1)) - top lo (hi * W) in
  c <= 1 + climb /\ (Forall (in_w w) fps -> 1 - climb <= c).
Proof.
  intros Hlo Hhi Hlast. cbv zeta. pose proof W_pos as [W0 WL].
  assert (HI : 0 <= hi * W) by (apply Z.mul_nonneg_nonneg; lia).
  assert (EA : forall j, 0 <= j < W -> accepts ((hi * W + j) * L + lo) = (cell lo (top lo (hi * W + j)) =? Z.lxor (lo mod W) j)).
  { intros j Hj. rewrite accepts_split by lia. f_equal. f_equal. rewrite Z.add_comm, Z_mod_plus_full. apply Z.mod_small. lia. }
  assert (M : forall j, 0 <= j < W -> top lo (hi * W) <= top lo (hi * W + j) <= top lo (hi * W + (W - 1))).
  { intros j Hj. split; apply top_mono; lia. }
  pose proof (M (W - 1) ltac:(lia)) as ML.
  split.
  - replace (1 + (top lo (hi * W + (W - 1)) - top lo (hi * W))) with (top lo (hi * W + (W - 1)) - top lo (hi * W) + 1) by lia.
    apply (how_many_room _ _ (fun j => top lo (hi * W + j))); [lia|intros j Hj _; apply M; exact Hj|].
    intros i j Hi Hj Pi Pj ET. rewrite EA in Pi, Pj by assumption. apply Z.eqb_eq in Pi, Pj. rewrite ET in Pi.
    assert (XX : Z.lxor (lo mod W) i = Z.lxor (lo mod W) j) by congruence.
    apply (f_equal (Z.lxor (lo mod W))) in XX. rewrite <- !Z.lxor_assoc, Z.lxor_nilpotent, !Z.lxor_0_l in XX. exact XX.
  - intros HF. destruct (Z.eq_dec (top lo (hi * W + (W - 1))) (top lo (hi * W))) as [E|N].
    2:{ pose proof (how_many_pos (fun j => accepts ((hi * W + j) * L + lo)) W). lia. }
    set (t := top lo (hi * W)) in *. set (j := Z.lxor (cell lo t) (lo mod W)).
    assert (RC : in_w w (cell lo t)).
    { assert (RN : forall i, in_w w (nth i fps 0)).
      { intros i. destruct (Nat.lt_ge_cases i (length fps)) as [Hi|Hi].
        - eapply Forall_forall; [exact HF|]. now apply nth_In.
        - rewrite nth_overflow by exact Hi. unfold in_w. lia. }
      unfold cell. apply lxor_range; [apply lxor_range|]; apply RN. }
    assert (Hj : 0 <= j < W) by (apply lxor_range; [exact RC|apply Z.mod_pos_bound; lia]).
    assert (1 <= how_many (fun j => accepts ((hi * W + j) * L + lo)) W); [|lia].
    apply (how_many_one _ _ j Hj). rewrite EA by exact Hj. specialize (M j Hj).
    replace (top lo (hi * W + j)) with t by lia. apply Z.eqb_eq. unfold j.
    rewrite (Z.lxor_comm (cell lo t)), <- Z.lxor_assoc, Z.lxor_nilpotent, Z.lxor_0_l. reflexivity.
Qed.

Lemma count_hashes : let c := how_many accepts (2 ^ 64) in
  c <= 2 ^ (64 - Z.of_nat w) + (g_scl g - 1) * 2 ^ 32 /\
  (Forall (in_w w) fps -> 2 ^ (64 - Z.of_nat w) - (g_scl g - 1) * 2 ^ 32 <= c).
Proof.
  cbv zeta. pose proof W_pos as [W0 WL].
  set (H := 2 ^ (32 - Z.of_nat w)). assert (H0 : 0 < H) by (apply Z.pow_pos_nonneg; lia).
  assert (HWL : H * W = L) by (unfold H; rewrite <- Z.pow_add_r by lia; change L with (2 ^ 32); f_equal; lia).
  assert (E64 : 2 ^ (64 - Z.of_nat w) = H * L).
  { unfold H. change L with (2 ^ 32). rewrite <- Z.pow_add_r by lia. f_equal. lia. }
  assert (EC : how_many accepts (2 ^ 64) =
    zsum (fun lo => zsum (fun hi => how_many (fun j => accepts ((hi * W + j) * L + lo)) W) (Z.to_nat H)) (Z.to_nat L)).
  { rewrite how_many_sum by lia. replace (Z.to_nat (2 ^ 64)) with ((Z.to_nat H * Z.to_nat W) * Z.to_nat L)%nat.
    2:{ rewrite <- !Z2Nat.inj_mul by lia. f_equal. rewrite HWL. reflexivity. }
    rewrite zsum_block, Z2Nat.id by lia. rewrite zsum_swap. apply zsum_ext. intros lo Hlo.
    rewrite zsum_block. apply zsum_ext. intros hi Hhi. rewrite how_many_sum by lia. apply zsum_ext. intros j Hj.
    rewrite Z2Nat.id by lia. reflexivity. }
  rewrite EC, E64.
  assert (Last : forall hi, 0 <= hi < Z.of_nat (Z.to_nat H) -> 0 <= hi /\ hi * W + (W - 1) < L).
  { intros hi Hhi. rewrite Z2Nat.id in Hhi by lia. split; [lia|]. rewrite <- HWL. clear - Hhi W0. nia. }
  assert (Climb : forall lo, 0 <= lo < L ->
     zsum (fun hi => top lo (hi * W + (W - 1)) - top lo (hi * W)) (Z.to_nat H) <= g_scl g - 1).
  { intros lo Hlo. eapply Z.le_trans; [apply (jumps (top lo) W); [lia|intros; apply top_mono; lia]|].
    rewrite Z2Nat.id by lia. pose proof (top_range lo (H * W) ltac:(lia) ltac:(lia)). pose proof (top_range lo 0 ltac:(lia) ltac:(lia)). lia. }
  split.
  - apply Z.le_trans with (zsum (fun _ => H + (g_scl g - 1)) (Z.to_nat L)).
    + apply zsum_le. intros lo Hlo. rewrite Z2Nat.id in Hlo by lia.
      apply Z.le_trans with (zsum (fun hi => 1 + (top lo (hi * W + (W - 1)) - top lo (hi * W))) (Z.to_nat H)).
      * apply zsum_le. intros hi Hhi. destruct (Last hi Hhi) as [A B]. apply group; auto.
      * rewrite zsum_add, zsum_const, Z2Nat.id by lia. specialize (Climb lo Hlo). lia.
    + rewrite zsum_const, Z2Nat.id by lia. change (2 ^ 32) with L. lia.
  - intros HF. apply Z.le_trans with (zsum (fun _ => H - (g_scl g - 1)) (Z.to_nat L)).
    + rewrite zsum_const, Z2Nat.id by lia. change (2 ^ 32) with L. lia.
    + apply zsum_le. intros lo Hlo. rewrite Z2Nat.id in Hlo by lia.
      apply Z.le_trans with (zsum (fun hi => 1 + - (top lo (hi * W + (W - 1)) - top lo (hi * W))) (Z.to_nat H)).
      * rewrite zsum_add, zsum_opp, zsum_const, Z2Nat.id by lia. specialize (Climb lo Hlo). lia.
      * apply zsum_le. intros hi Hhi. destruct (Last hi Hhi) as [A B].
        destruct (group lo hi Hlo A B) as [_ G]. specialize (G HF). lia.
Qed.
End COUNT.

(** @C69 BinaryFuse filters of any fingerprint width up to 32 bits: of the 2^64 keys, the number
    that a built filter accepts differs from 2^64 / 2^width by at most
    (segment_count_length - 1) * 2^32, whatever the keys, the attempt that succeeded and the
    random fill (segments of at most 2^14 slots). *)
Lemma bfuse_accepted_keys : forall max_iter w dbg fe rnd keys f dbg',
  sane_estimates fe (length keys) -> (w <= 32)%nat ->
  bfuse_from_impl max_iter w dbg fe rnd keys = Ok f -> bf_segment_length f <= 2 ^ 14 ->
  let accepted := how_many (fun key => says_yes (bfuse_contains w dbg' f key)) (2 ^ 64) in
  accepted <= 2 ^ (64 - Z.of_nat w) + (bf_segment_count_length f - 1) * 2 ^ 32 /\
  ((forall i, 0 <= rnd i < 2 ^ Z.of_nat w) ->
   2 ^ (64 - Z.of_nat w) - (bf_segment_count_length f - 1) * 2 ^ 32 <= accepted).
Proof.
  intros mi w dbg fe rnd keys f dbg' Hs Hw E H14. cbv zeta.
  destruct (bfuse_inv _ _ _ _ _ _ _ E) as (g & fps & Eg & Ef & Lf & RF & _).
  destruct (geometry_valid _ _ _ _ Hs Eg) as [Hg _].
  rewrite Ef in H14 |- *. cbn [bf_segment_length bf_segment_count_length bf_seed] in *.
  set (seed := bf_seed f) in *.
  rewrite (how_many_ext _ (fun key => accepts g w fps (mix key seed))).
  2:{ intros key Hk. rewrite (x3_contains dbg' g Hg w fps seed key Lf). cbn [says_yes]. unfold accepts.
      destruct (_ =? _); reflexivity. }
  rewrite (how_many_inj (accepts g w fps) (fun key => mix key seed)).
  - destruct (count_hashes g Hg H14 w Hw fps) as [A B]. split; [exact A|]. intros R. apply B, RF. exact R.
  - intros x Hx. pose proof (mix_is_u64 x seed) as U. unfold is_u64, two64 in U. lia.
  - intros x y Hx Hy. apply mix_inj; unfold is_u64, two64; lia.
Qed.

(** ** The documented rates *)

Lemma factor_upper log n K F : reasonable_log log -> (2 <= n)%nat -> Z.of_nat n < 2 ^ 32 ->
  1 <= K -> 2 ^ K <= Z.of_nat n -> 1126 <= F <= 6000 ->
  1000 * 345391 * 10000 <= (F - 876) * (6931 * K) * 100000 ->
  exists c, capacity_of log n = Z.min (two32 - 1) c /\ 1000 * c <= Z.of_nat n * F + 1000.
Proof.
  intros HL H1 H2 HK HN HF HC. destruct (factor_gen log HL n H1 H2) as (q & s & Ff & Bs & q0 & Q2 & _).
  assert (KL : K <= Z.log2 (Z.of_nat n)).
  { apply Z.log2_le_pow2; lia. }
  assert (Q3 : q * (6931 * K) <= q * (6931 * Z.log2 (Z.of_nat n))) by (apply Z.mul_le_mono_nonneg_l; lia).
  set (X := q * (6931 * Z.log2 (Z.of_nat n))) in *. clearbody X.
  assert (Q4 : q * 1000 * 2 ^ 51 <= (F - 876) * 2 ^ 200 * (2 ^ 51 + 1)).
  { apply (Z.mul_le_mono_pos_r _ _ (6931 * K * 100000)); [lia|].
    assert (A : q * (6931 * K) * 100000 * 2 ^ 51 <= 10000 * 345391 * 2 ^ 200 * (2 ^ 51 + 1)) by (clear - Q2 Q3; lia).
    replace (q * 1000 * 2 ^ 51 * (6931 * K * 100000)) with (1000 * (q * (6931 * K) * 100000 * 2 ^ 51)) by ring.
    replace ((F - 876) * 2 ^ 200 * (2 ^ 51 + 1) * (6931 * K * 100000))
      with ((F - 876) * (6931 * K) * 100000 * (2 ^ 200 * (2 ^ 51 + 1))) by ring.
    apply Z.le_trans with (1000 * 345391 * 10000 * (2 ^ 200 * (2 ^ 51 + 1))); [clear - A; lia|].
    apply Z.mul_le_mono_nonneg_r; [discriminate|exact HC]. }
  assert (S1 : 1000 * s <= F * 2 ^ 200) by (clear - Q4 Bs HF; lia).
  set (f := Z.max (9 * 2 ^ 197) s) in *.
  assert (F1 : 2 ^ 197 <= f <= 6 * 2 ^ 200) by (unfold f; clear - S1 HF; lia).
  assert (F2 : 1000 * f <= F * 2 ^ 200) by (unfold f; clear - S1 HF; lia).
  clearbody f. destruct (cap_gen log n f H1 H2 Ff F1) as (c & E & _ & U).
  exists c. split; [exact E|].
  assert (N0 : 0 <= Z.of_nat n) by lia. set (N := Z.of_nat n) in *. clearbody N.
  assert (M : N * (1000 * f) <= N * (F * 2 ^ 200)) by (apply Z.mul_le_mono_nonneg_l; lia).
  assert (NF : N * F <= N * 6000) by (apply Z.mul_le_mono_nonneg_l; lia).
  replace (N * (1000 * f)) with (1000 * (N * f)) in M by ring.
  replace (N * (F * 2 ^ 200)) with (N * F * 2 ^ 200) in M by ring.
  set (Y := N * f) in *. clearbody Y. set (T := N * F) in *. clearbody T. clear - M U NF H2. lia.
Qed.

Lemma seglen_14 log dbg n g : reasonable_log log -> Z.of_nat n < 2 ^ 19 ->
  geometry dbg (f64_estimates log) n = Ok g -> g_seglen g <= 2 ^ 14.
Proof.
  intros HL Hn E. unfold geometry in E. apply bind_Ok in E as (sl0 & Es & E).
  assert (B : sl0 <= 2 ^ 14).
  { unfold segment_length in Es. rewrite Z.mod_small in Es by (unfold two32; lia).
    destruct (Z.eqb_spec (Z.of_nat n) 0) as [Z0|Z0]; [assert (sl0 = 4) by congruence; subst; lia|].
    cbn [f64_estimates fe_exp] in Es.
    assert (X : seglen_exp log n <= 14).
    { destruct (Nat.eq_dec n 1) as [->|N1]; [rewrite (exp_one log HL); lia|].
      destruct (exp_bounds log HL n) as (w & Ew & _ & U & K); try lia. rewrite Ew.
      assert (Z.log2 (Z.of_nat n) < 19) by (apply Z.log2_lt_pow2; lia).
      set (k := Z.log2 (Z.of_nat n)) in *. clearbody k.
      assert (w / 2 ^ 200 < 15); [|lia]. apply Z.div_lt_upper_bound; [reflexivity|]. clear - U K H. lia. }
    rewrite (proj2 (Z.ltb_lt _ _)) in Es by lia. assert (sl0 = 2 ^ seglen_exp log n) as -> by congruence.
    apply Z.pow_le_mono_r; lia. }
  repeat (apply bind_Ok in E as (? & _ & E)). assert (g_seglen g = Z.min sl0 262144) by (injection E as <-; reflexivity). lia.
Qed.

Lemma scl_upper log dbg n g F K N : reasonable_log log -> geometry dbg (f64_estimates log) n = Ok g ->
  Z.of_nat n < 2 ^ 19 -> 0 <= K -> 2 ^ K * 6 + 1 <= N -> 1126 <= F <= 6000 -> 16384 <= N ->
  1000 * 345391 * 10000 <= (F - 876) * (6931 * K) * 100000 -> Z.of_nat n * F + 1000 <= 1000 * N ->
  g_scl g <= N.
Proof.
  intros HL Eg Hn HK HN HF H16 HC HNF.
  pose proof (seglen_14 log dbg n g HL Hn Eg) as S14.
  pose proof (estimates_sane log n HL ltac:(unfold max_keys; lia)) as HS.
  destruct (geometry_shape dbg _ _ HS) as (g' & e & G & He & Esl & _ & (c & Hc & Escl) & Ear & _ & B).
  assert (g' = g) by congruence. subst g'. cbv zeta in B. cbn [f64_estimates fe_cap] in B.
  assert (P0 : 0 < g_seglen g) by (rewrite Esl; apply Z.pow_pos_nonneg; lia).
  destruct (Nat.leb_spec n 1) as [Q|Q].
  - rewrite Z.max_l in B by lia. lia.
  - assert (C : capacity_of log n <= N); [|lia].
    destruct (Z_lt_le_dec (Z.of_nat n) (2 ^ K)) as [S|S].
    + destruct (cap_bounds log HL n) as (c1 & E & _ & U & _); try lia.
    + assert (HK1 : 1 <= K).
      { destruct (Z.eq_dec K 0) as [->|]; [|lia]. exfalso. lia. }
      destruct (factor_upper log n K F HL) as (c1 & E & U); try lia.
Qed.

Lemma fp_le contains keys : false_positives contains keys <= how_many (fun key => says_yes (contains key)) (2 ^ 64).
Proof. apply how_many_le. intros x _ H. now apply andb_true_iff in H. Qed.

(** @C69 BinaryFuse8, as documented: "a false positive rate of <0.4%". For up to 330000 keys, with
    the code's own size computation, fewer than 4 in 1000 of the keys outside the set are
    accepted, whatever the set and the random fill. (For large sets the claim is
    refuted: bfuse_documented_rate_refuted.) *)
Lemma bfuse8_documented_rate_small : forall log max_iter dbg rnd keys f dbg',
  reasonable_log log -> Z.of_nat (length keys) <= 330000 ->
  bfuse_from_impl max_iter 8 dbg (f64_estimates log) rnd keys = Ok f ->
  1000 * false_positives (bfuse_contains 8 dbg' f) keys < 4 * (2 ^ 64 - Z.of_nat (length keys)).
Proof.
  intros log mi dbg rnd keys f dbg' HL Hn E.
  destruct (bfuse_inv _ _ _ _ _ _ _ E) as (g & fps & Eg & Ef & _).
  pose proof (estimates_sane log (length keys) HL ltac:(unfold max_keys; lia)) as HS.
  pose proof (seglen_14 log dbg (length keys) g HL ltac:(lia) Eg) as S14.
  assert (SC : g_scl g <= 393300).
  { apply (scl_upper log dbg (length keys) g 1188 16 393300 HL Eg); lia. }
  destruct (bfuse_accepted_keys mi 8 dbg _ rnd keys f dbg' HS ltac:(lia) E) as [A _].
  { rewrite Ef. exact S14. }
  pose proof (fp_le (bfuse_contains 8 dbg' f) keys) as P.
  replace (bf_segment_count_length f) with (g_scl g) in A by (rewrite Ef; reflexivity).
  revert A P. generalize (how_many (fun key => says_yes (bfuse_contains 8 dbg' f key)) (2 ^ 64)) (false_positives (bfuse_contains 8 dbg' f) keys).
  clear - SC Hn. intros a b A P. change (2 ^ (64 - Z.of_nat 8)) with 72057594037927936 in A. lia.
Qed.

(** @C69 BinaryFuse16: "<0.002%", for up to 16000 keys. (Refuted for large
    sets: bfuse_documented_rate_refuted.) *)
Lemma bfuse16_documented_rate_small : forall log max_iter dbg rnd keys f dbg',
  reasonable_log log -> Z.of_nat (length keys) <= 16000 ->
  bfuse_from_impl max_iter 16 dbg (f64_estimates log) rnd keys = Ok f ->
  100000 * false_positives (bfuse_contains 16 dbg' f) keys < 2 * (2 ^ 64 - Z.of_nat (length keys)).
Proof.
  intros log mi dbg rnd keys f dbg' HL Hn E.
  destruct (bfuse_inv _ _ _ _ _ _ _ E) as (g & fps & Eg & Ef & _).
  pose proof (estimates_sane log (length keys) HL ltac:(unfold max_keys; lia)) as HS.
  pose proof (seglen_14 log dbg (length keys) g HL ltac:(lia) Eg) as S14.
  assert (SC : g_scl g <= 20200).
  { destruct (Z_lt_le_dec (Z.of_nat (length keys)) (2 ^ 13)) as [S|S].
    - apply (scl_upper log dbg (length keys) g 1375 10 20200 HL Eg); lia.
    - pose proof (geometry_shape dbg _ _ HS) as (g' & e & G & He & Esl & _ & (c & Hc & Escl) & Ear & _ & B).
      assert (g' = g) by congruence. subst g'. cbv zeta in B. cbn [f64_estimates fe_cap] in B.
      assert (P0 : 0 < g_seglen g) by (rewrite Esl; apply Z.pow_pos_nonneg; lia).
      destruct (Nat.leb_spec (length keys) 1) as [Q|Q]; [lia|].
      destruct (factor_upper log (length keys) 13 1260 HL) as (c1 & EC & U); try lia. }
  destruct (bfuse_accepted_keys mi 16 dbg _ rnd keys f dbg' HS ltac:(lia) E) as [A _].
  { rewrite Ef. exact S14. }
  pose proof (fp_le (bfuse_contains 16 dbg' f) keys) as P.
  replace (bf_segment_count_length f) with (g_scl g) in A by (rewrite Ef; reflexivity).
  revert A P. generalize (how_many (fun key => says_yes (bfuse_contains 16 dbg' f key)) (2 ^ 64)) (false_positives (bfuse_contains 16 dbg' f) keys).
  clear - SC Hn. intros a b A P. change (2 ^ (64 - Z.of_nat 16)) with 281474976710656 in A. lia.
Qed.

(** ** The random fill *)

Definition refill (rnd : nat -> Z) (i : nat) (v : Z) : nat -> Z := fun j => if Nat.eqb j i then v else rnd j.

Lemma refill_upd rnd i v N : (i < N)%nat -> map (refill rnd i v) (seq 0 N) = upd (map rnd (seq 0 N)) i v.
Proof.
  intros Hi. apply (nth_ext _ _ 0 0); [now rewrite length_upd, !map_length|]. intros k Hk.
  rewrite map_length, seq_length in Hk. rewrite nth_map_seq by exact Hk. unfold refill.
  destruct (Nat.eqb_spec k i) as [->|D].
  - rewrite nth_upd_eq by (rewrite map_length, seq_length; exact Hi). reflexivity.
  - rewrite nth_upd_ne by congruence. now rewrite nth_map_seq.
Qed.

Lemma in_w_idx {A} (B : list A) i N x : length B = N -> idx B i = Ok x -> (i < N)%nat.
Proof. intros L E. destruct (Nat.lt_ge_cases i N) as [|C]; auto. rewrite idx_oob in E by lia. discriminate. Qed.

Lemma fill_outcome {F} (w : nat) N (G : list Z -> list Z) (fill : (nat -> Z) -> F) (contains : F -> res bool)
    (q : res (nat * nat * nat)) (fp : Z) :
  (forall B, length B = N -> length (G B) = N) ->
  (forall j, shifts N (fun B => nth j (G B) 0)) ->
  (forall B, length B = N -> Forall (in_w w) B -> Forall (in_w w) (G B)) -> in_w w fp ->
  (forall rnd, contains (fill rnd) = let* (a, b, c) := q in
     let fps := G (map rnd (seq 0 N)) in
     let* x0 := idx fps a in let* x1 := idx fps b in let* x2 := idx fps c in
     Ok (fp =? Z.lxor (Z.lxor x0 x1) x2)) ->
  (forall rnd rnd', contains (fill rnd) = contains (fill rnd')) \/
  (exists i, forall rnd, (forall j, 0 <= rnd j < 2 ^ Z.of_nat w) ->
     exists v, 0 <= v < 2 ^ Z.of_nat w /\
       forall v', contains (fill (refill rnd i v')) = Ok true <-> v' = v).
Proof.
  intros LG SG RG Rfp HC.
  assert (LN : forall rnd : nat -> Z, length (map rnd (seq 0 N)) = N) by (intros; now rewrite map_length, seq_length).
  destruct q as [[[a b] c]| | |]; cbn [bind] in HC; try (left; intros; rewrite !HC; reflexivity).
  destruct (Nat.lt_ge_cases a N) as [Ha|Ha].
  2:{ left. intros r r'. rewrite !HC. cbv zeta. rewrite !(idx_oob (G _) a) by (rewrite LG by apply LN; exact Ha). reflexivity. }
  destruct (Nat.lt_ge_cases b N) as [Hb|Hb].
  2:{ left. intros r r'. rewrite !HC. cbv zeta. rewrite !(idx_nth (G _) a 0) by (rewrite LG by apply LN; exact Ha). cbn [bind].
      rewrite !(idx_oob (G _) b) by (rewrite LG by apply LN; exact Hb). reflexivity. }
  destruct (Nat.lt_ge_cases c N) as [Hc|Hc].
  2:{ left. intros r r'. rewrite !HC. cbv zeta. rewrite !(idx_nth (G _) a 0) by (rewrite LG by apply LN; exact Ha). cbn [bind].
      rewrite !(idx_nth (G _) b 0) by (rewrite LG by apply LN; exact Hb). cbn [bind].
      rewrite !(idx_oob (G _) c) by (rewrite LG by apply LN; exact Hc). reflexivity. }
  set (Fx := fun B => Z.lxor (Z.lxor (nth a (G B) 0) (nth b (G B) 0)) (nth c (G B) 0)).
  assert (HC' : forall rnd, contains (fill rnd) = Ok (fp =? Fx (map rnd (seq 0 N)))).
  { intros rnd. rewrite HC. cbv zeta. rewrite (idx_nth (G _) a 0) by (rewrite LG by apply LN; exact Ha).
    rewrite (idx_nth (G _) b 0) by (rewrite LG by apply LN; exact Hb).
    rewrite (idx_nth (G _) c 0) by (rewrite LG by apply LN; exact Hc). reflexivity. }
  assert (SF : shifts N Fx).
  { apply (shifts_lxor N (fun B => Z.lxor (nth a (G B) 0) (nth b (G B) 0)) (fun B => nth c (G B) 0)); [|apply SG].
    apply (shifts_lxor N (fun B => nth a (G B) 0) (fun B => nth b (G B) 0)); apply SG. }
  destruct (dichotomy N Fx SF) as [D|(i & Hi & D)].
  - left. intros r r'. rewrite !HC'. do 2 f_equal. apply D; apply LN.
  - right. exists i. intros rnd Hr.
    assert (FB : Forall (in_w w) (map rnd (seq 0 N))) by (apply Forall_map, Forall_forall; intros x _; apply Hr).
    exists (Z.lxor (Z.lxor fp (Fx (map rnd (seq 0 N)))) (rnd i)).
    assert (RN : forall j, in_w w (nth j (G (map rnd (seq 0 N))) 0)).
    { intros j. destruct (Nat.lt_ge_cases j N) as [Hj|Hj].
      - eapply Forall_forall; [apply RG; [apply LN|exact FB]|]. apply nth_In. now rewrite LG by apply LN.
      - rewrite nth_overflow by (rewrite LG by apply LN; exact Hj). unfold in_w. split; [lia|]. apply Z.pow_pos_nonneg; lia. }
    split.
    { apply lxor_range; [apply lxor_range; [exact Rfp|]|apply Hr]. apply lxor_range; [apply lxor_range|]; apply RN. }
    intros v'. rewrite HC', refill_upd by exact Hi. rewrite D by apply LN. rewrite nth_map_seq by exact Hi.
    set (X := Fx _). set (R := rnd i).
    split.
    + intros E. assert (fp = Z.lxor X (Z.lxor R v')) as -> by (apply Z.eqb_eq; congruence).
      symmetry. apply Z.bits_inj'. intros n _. rewrite !Z.lxor_spec. destruct (Z.testbit X n), (Z.testbit R n), (Z.testbit v' n); reflexivity.
    + intros ->. f_equal. apply Z.eqb_eq. apply Z.bits_inj'. intros n _. rewrite !Z.lxor_spec.
      destruct (Z.testbit X n), (Z.testbit R n), (Z.testbit fp n); reflexivity.
Qed.

(** @C69 BinaryFuse filters, one key at a time: whether construction succeeds does not depend on
    the random fill, and for each key either the answer does not depend on it either, or there
    is a random word of which exactly one of the 2^width values makes the filter accept the
    key: a rate of exactly 2^-width over the fill. *)
Lemma bfuse_random_fill : forall max_iter w dbg fe rnd0 keys f0 dbg' key,
  bfuse_from_impl max_iter w dbg fe rnd0 keys = Ok f0 ->
  exists fill, (forall rnd, bfuse_from_impl max_iter w dbg fe rnd keys = Ok (fill rnd)) /\
    ((forall rnd rnd', bfuse_contains w dbg' (fill rnd) key = bfuse_contains w dbg' (fill rnd') key) \/
     (exists i, forall rnd, (forall j, 0 <= rnd j < 2 ^ Z.of_nat w) ->
        exists v, 0 <= v < 2 ^ Z.of_nat w /\
          forall v', bfuse_contains w dbg' (fill (fun j => if Nat.eqb j i then v' else rnd j)) key = Ok true <-> v' = v)).
Proof.
  intros mi w dbg fe rnd0 keys f0 dbg' key E.
  destruct (bfuse_inv _ _ _ _ _ _ _ E) as (g & fps & Eg & Ef & Lf & _ & stack & HB).
  set (N := g_arrlen g) in *. set (seed := bf_seed f0) in *.
  pose proof E as E'. rewrite HB in E'. apply bind_Ok in E' as (B1 & EB & _).
  assert (LN : forall rnd : nat -> Z, length (map rnd (seq 0 N)) = N) by (intros; now rewrite map_length, seq_length).
  destruct (fold_shifts N (Z * Z) (bf_assign_one w dbg g)) with (stack := stack) (B0 := map rnd0 (seq 0 N)) (B0' := B1)
    as (G & HG & SG); [|apply LN|exact EB|].
  { intros [h f] B0 B0' L0 X. unfold bf_assign_one in X. apply bind_Ok in X as ([[i1 i2] i3] & Es & X).
    apply bind_Ok in X as (s1 & E1 & X). apply bind_Ok in X as (x1 & X1 & X).
    apply bind_Ok in X as (s2 & E2 & X). apply bind_Ok in X as (x2 & X2 & X). apply bind_Ok in X as (s0 & E0 & X).
    assert (s1 < N)%nat by (eapply in_w_idx; eauto). assert (s2 < N)%nat by (eapply in_w_idx; eauto).
    assert (s0 < N)%nat.
    { destruct (Nat.lt_ge_cases s0 N) as [|C]; auto. rewrite set_oob in X by lia. discriminate. }
    exists s0, (fun B => Z.lxor (Z.lxor (fingerprint w h) (nth s1 B 0)) (nth s2 B 0)). split.
    - intros B HL. unfold bf_assign_one. rewrite Es. cbn [bind]. rewrite E1. cbn [bind].
      rewrite (idx_nth B s1 0) by lia. cbn [bind]. rewrite E2. cbn [bind]. rewrite (idx_nth B s2 0) by lia. cbn [bind].
      rewrite E0. cbn [bind]. now rewrite set_lt by lia.
    - intros G _ SG. apply (shifts_lxor N (fun B => Z.lxor (fingerprint w h) (nth s1 (G B) 0)) (fun B => nth s2 (G B) 0)); [|apply SG].
      apply (shifts_lxor N (fun _ => fingerprint w h) (fun B => nth s1 (G B) 0)); [apply shifts_const|apply SG]. }
  set (fill := fun rnd : nat -> Z => {| bf_seed := seed; bf_segment_length := g_seglen g; bf_segment_length_mask := g_mask g;
           bf_segment_count_length := g_scl g; bf_fingerprints := G (map rnd (seq 0 N)) |}).
  exists fill. split.
  { intros rnd. rewrite HB. rewrite (proj1 (HG _ (LN rnd))). reflexivity. }
  set (hash := mix key seed).
  apply (fill_outcome w N G fill (fun f => bfuse_contains w dbg' f key)
    (let* (h0, h1, h2) := hash_of_hash dbg' hash (g_seglen g) (g_mask g) (g_scl g) in Ok (Z.to_nat h0, Z.to_nat h1, Z.to_nat h2))
    (fingerprint w hash)).
  - intros B HL. apply HG. exact HL.
  - exact SG.
  - intros B HL FB. destruct (HG B HL) as [X _].
    apply (foldM_shape (Forall (in_w w)) (bf_assign_one w dbg g) stack) with (b := B); auto.
    intros b e b' Fb Y. eapply bf_assign_shape; eauto.
  - apply fingerprint_range.
  - intros rnd. unfold bfuse_contains, fill. cbn [bf_seed bf_segment_length bf_segment_length_mask bf_segment_count_length bf_fingerprints].
    fold hash. destruct (hash_of_hash _ _ _ _ _) as [[[h0 h1] h2]| | |]; cbn [bind]; try reflexivity.
    cbv zeta. destruct (idx _ (Z.to_nat h0)) as [x0| | |]; cbn [bind]; try reflexivity.
    destruct (idx _ (Z.to_nat h1)) as [x1| | |]; cbn [bind]; try reflexivity.
    destruct (idx _ (Z.to_nat h2)) as [x2| | |]; cbn [bind]; try reflexivity.
    f_equal. apply eq_true_iff_eq. rewrite !Z.eqb_eq, Z.lxor_eq_0_iff. reflexivity.
Qed.

Lemma fuse_assign_shape w dbg sl B e B' : Forall (in_w w) B -> fuse_assign_one w dbg sl B e = Ok B' ->
  Forall (in_w w) B'.
Proof.
  intros F E. unfold fuse_assign_one in E. destruct e as [h index].
  apply bind_Ok in E as ([[i1 i2] i3] & _ & E). apply bind_Ok in E as (v & Ev & E).
  assert (in_w w v).
  { destruct (_ =? _)%nat; [|destruct (_ =? _)%nat; [|destruct (_ =? _)%nat; [|discriminate]]];
      apply bind_Ok in Ev as (x & Ex & Ev); apply bind_Ok in Ev as (y & Ey & Ev); injection Ev as <-;
      apply lxor_range; eapply (idx_Forall (in_w w)); eauto. }
  apply (set_shape (in_w w)) in E; [tauto|exact F|]. apply lxor_range; [apply fingerprint_range|exact H].
Qed.

(** @C69 The same for Fuse filters. *)
Lemma fuse_random_fill : forall max_iter w dbg rnd0 keys f0 dbg' key,
  fuse_from_impl max_iter w dbg rnd0 keys = Ok f0 ->
  exists fill, (forall rnd, fuse_from_impl max_iter w dbg rnd keys = Ok (fill rnd)) /\
    ((forall rnd rnd', fuse_contains w dbg' (fill rnd) key = fuse_contains w dbg' (fill rnd') key) \/
     (exists i, forall rnd, (forall j, 0 <= rnd j < 2 ^ Z.of_nat w) ->
        exists v, 0 <= v < 2 ^ Z.of_nat w /\
          forall v', fuse_contains w dbg' (fill (fun j => if Nat.eqb j i then v' else rnd j)) key = Ok true <-> v' = v)).
Proof.
  intros mi w dbg rnd0 keys f0 dbg' key E. unfold fuse_from_impl in *.
  destruct (dbg && _); [discriminate|]. set (N := fuse_capacity (length keys)) in *. set (sl := fuse_segment_length (length keys)) in *.
  destruct (splitmix64 1) as [rng s]. apply bind_Ok in E as ([seed stack] & Es & E). rewrite Es. cbn [bind].
  apply bind_Ok in E as (B1 & EB & _).
  assert (LN : forall rnd : nat -> Z, length (map rnd (seq 0 N)) = N) by (intros; now rewrite map_length, seq_length).
  destruct (fold_shifts N (Z * nat) (fuse_assign_one w dbg sl)) with (stack := stack) (B0 := map rnd0 (seq 0 N)) (B0' := B1)
    as (G & HG & SG); [|apply LN|exact EB|].
  { intros [h index] B0 B0' L0 X. unfold fuse_assign_one in *. apply bind_Ok in X as ([[h0 h1] h2] & Eh & X).
    rewrite Eh. cbn [bind]. apply bind_Ok in X as (v & Ev & X).
    assert (HI : (index < N)%nat).
    { destruct (Nat.lt_ge_cases index N) as [|C]; auto. rewrite set_oob in X by lia. discriminate. }
    assert (P : exists a b, (a < N)%nat /\ (b < N)%nat /\ forall B, length B = N ->
      (if (index =? h0)%nat then let* x := idx B h1 in let* y := idx B h2 in Ok (Z.lxor x y)
       else if (index =? h1)%nat then let* x := idx B h0 in let* y := idx B h2 in Ok (Z.lxor x y)
       else if (index =? h2)%nat then let* x := idx B h0 in let* y := idx B h1 in Ok (Z.lxor x y)
       else Panic) = Ok (Z.lxor (nth a B 0) (nth b B 0))).
    { destruct (index =? h0)%nat; [|destruct (index =? h1)%nat; [|destruct (index =? h2)%nat; [|discriminate]]];
        apply bind_Ok in Ev as (x & Ex & Ev); apply bind_Ok in Ev as (y & Ey & Ev);
        apply (in_w_idx _ _ N) in Ex; auto; apply (in_w_idx _ _ N) in Ey; auto;
        do 2 eexists; (split; [exact Ex|]); (split; [exact Ey|]); intros B HL;
        rewrite !(idx_nth B _ 0) by lia; reflexivity. }
    destruct P as (a & b & Ha & Hb & P).
    exists index, (fun B => Z.lxor (fingerprint w h) (Z.lxor (nth a B 0) (nth b B 0))). split.
    - intros B HL. rewrite (P B HL). cbn [bind]. now rewrite set_lt by lia.
    - intros G _ SG. apply (shifts_lxor N (fun _ => fingerprint w h) (fun B => Z.lxor (nth a (G B) 0) (nth b (G B) 0))); [apply shifts_const|].
      apply (shifts_lxor N (fun B => nth a (G B) 0) (fun B => nth b (G B) 0)); apply SG. }
  set (fill := fun rnd : nat -> Z => {| ff_seed := seed; ff_segment_length := sl; ff_fingerprints := G (map rnd (seq 0 N)) |}).
  exists fill. split.
  { intros rnd. rewrite (proj1 (HG _ (LN rnd))). reflexivity. }
  set (hash := mix key seed).
  apply (fill_outcome w N G fill (fun f => fuse_contains w dbg' f key) (fuse_hset dbg' hash sl) (fingerprint w hash)).
  - intros B HL. apply HG. exact HL.
  - exact SG.
  - intros B HL FB. destruct (HG B HL) as [X _].
    apply (foldM_shape (Forall (in_w w)) (fuse_assign_one w dbg sl) stack) with (b := B); auto.
    intros b e b' Fb Y. eapply fuse_assign_shape; eauto.
  - apply fingerprint_range.
  - intros rnd. unfold fuse_contains, fill. cbn [ff_seed ff_segment_length ff_fingerprints].
    fold hash. destruct (fuse_hset _ _ _) as [[[h0 h1] h2]| | |]; reflexivity.
Qed.

(** @C69 Refuted: "every key outside the set is accepted with probability below 0.4%". The filter of
    the single key 1 accepts 6986 (and with 16-bit fingerprints 1413564) whatever the random
    fill: same slots, same fingerprint. *)
Lemma every_absent_key_refuted : forall dbg rnd,
  (exists f, bfuse_try_from 8 dbg (est 2 12) rnd [1] = Ok f /\ forall dbg', bfuse_contains 8 dbg' f 6986 = Ok true) /\
  (exists f, bfuse_try_from 16 dbg (est 2 12) rnd [1] = Ok f /\ forall dbg', bfuse_contains 16 dbg' f 1413564 = Ok true).
Proof.
  assert (G : forall w x dbg rnd f0, bfuse_try_from w dbg (est 2 12) (fun _ => 0) [1] = Ok f0 ->
    (forall g, geometry dbg (est 2 12) 1 = Ok g ->
       (sl1 g (mix x (bf_seed f0)), sl2 g (mix x (bf_seed f0)), sl3 g (mix x (bf_seed f0)), fingerprint w (mix x (bf_seed f0))) =
       (sl1 g (mix 1 (bf_seed f0)), sl2 g (mix 1 (bf_seed f0)), sl3 g (mix 1 (bf_seed f0)), fingerprint w (mix 1 (bf_seed f0)))) ->
    exists f, bfuse_try_from w dbg (est 2 12) rnd [1] = Ok f /\ forall dbg', bfuse_contains w dbg' f x = Ok true).
  { intros w x dbg rnd f0 E0 H. unfold bfuse_try_from in *. set (mi := Z.to_nat 1000) in *.
    assert (HS : sane_estimates (est 2 12) (length [1])) by (apply est_sane; lia).
    destruct (bfuse_random_fill mi w dbg (est 2 12) _ [1] f0 true 1 E0) as (fill & HF & _).
    exists (fill rnd). split; [apply HF|]. intros dbg'. pose proof (HF rnd) as E.
    destruct (bfuse_inv _ _ _ _ _ _ _ E0) as (g & _ & Eg & _ & _ & _ & stack & HB).
    destruct (bfuse_inv _ _ _ _ _ _ _ E) as (g' & fps & Eg' & Ef & Lf & _ & _).
    assert (g' = g) by congruence. subst g'.
    destruct (geometry_valid _ _ _ _ HS Eg) as [Hg _].
    assert (ES : bf_seed (fill rnd) = bf_seed f0).
    { rewrite (HB rnd) in E. apply bind_Ok in E as (b & _ & E). injection E as <-. reflexivity. }
    rewrite ES in Ef.
    assert (T : bfuse_contains w dbg' (fill rnd) 1 = Ok true).
    { apply (bfuse_no_false_negatives mi w dbg (est 2 12) rnd [1] g (fill rnd) HS Eg); [|exact E|now left].
      right. intros i slots _ HP j.
      unfold load. cbn [filter]. destruct (in_dec _ _ _); cbn [length]; lia. }
    rewrite Ef in T |- *. rewrite (x3_contains dbg' g Hg w fps (bf_seed f0)) in T |- * by exact Lf.
    specialize (H g Eg). assert (H1 := f_equal snd H). assert (H2 := f_equal (fun p => snd (fst p)) H).
    assert (H3 := f_equal (fun p => snd (fst (fst p))) H). assert (H4 := f_equal (fun p => fst (fst (fst p))) H).
    cbn [fst snd] in H1, H2, H3, H4. unfold x3 in *. rewrite H1, H2, H3, H4. exact T. }
  intros dbg rnd. split.
  - destruct dbg; (eapply G; [vm_compute; reflexivity|]; intros g Eg; vm_compute in Eg; injection Eg as <-; vm_compute; reflexivity).
  - destruct dbg; (eapply G; [vm_compute; reflexivity|]; intros g Eg; vm_compute in Eg; injection Eg as <-; vm_compute; reflexivity).
Qed.

(** @C69 example: the hypotheses are met by filters that are really built (8-bit fingerprints,
    three keys), and both cases of the dichotomy occur: with a fill of zeroes the absent key 7
    is rejected; with 141 as the second random word it is accepted. *)
Example rate_example :
  let build v := bfuse_from_impl (Z.to_nat 1000) 8 true (est 3 12) (fun j => if Nat.eqb j 1 then v else 0) [5; 6; 9] in
  (exists f, build 0 = Ok f /\ bf_segment_length f <= 2 ^ 14 /\ bf_segment_count_length f = 8 /\
     bfuse_contains 8 true f 5 = Ok true /\ bfuse_contains 8 true f 7 = Ok false) /\
  (exists f, build 141 = Ok f /\ bfuse_contains 8 true f 5 = Ok true /\ bfuse_contains 8 true f 7 = Ok true) /\
  sane_estimates (est 3 12) 3.
Proof.
  cbv zeta. split; [|split; [|apply est_sane; lia]].
  - eexists. split; [vm_compute; reflexivity|]. split; [vm_compute; discriminate|]. split; [vm_compute; reflexivity|].
    split; vm_compute; reflexivity.
  - eexists. split; [vm_compute; reflexivity|]. split; vm_compute; reflexivity.
Qed.
