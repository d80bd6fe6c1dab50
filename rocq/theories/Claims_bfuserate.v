(** C69: the rates documented for BinaryFuse8 and BinaryFuse16, for large sets. *)
From Coq Require Import Permutation.
From Verif Require Import Base Hash Fuse3 Xorf Bfuse Float64 Estimate SpecFilter SpecXorf SpecEst SpecRate Claims_estimate Base_facts HashInj_facts Window_facts Geom_facts Filter_facts FilterTop_facts Peel_facts KeyPeel_facts Bfuse_facts Rate_facts Claims_filter Claims_xorf Claims_rate Claims_sizes Claims_anysize Claims_xorrate.
Local Open Scope Z_scope.

(** ** The size: 1024 segments of 2^17 *)
Lemma big_geometry log dbg n : reasonable_log log -> Z.of_nat n = 119537056 ->
  exists g, geometry dbg (f64_estimates log) n = Ok g /\ g_seglen g = 2 ^ 17 /\ g_mask g = 2 ^ 17 - 1 /\
    g_scl g = 2 ^ 27 /\ Z.of_nat (g_arrlen g) = 1026 * 2 ^ 17.
Proof.
  intros HL Hz.
  assert (Hmx : Z.of_nat n <= max_keys) by (rewrite Hz; unfold max_keys; lia).
  assert (H1 : (1 <= n)%nat) by (clear - Hz; lia). assert (H2 : (2 <= n)%nat) by (clear - Hz; lia).
  assert (H32 : Z.of_nat n < 2 ^ 32) by (rewrite Hz; reflexivity).
  destruct (exp_bounds log HL n H2 H32) as (w & Ew & L & U & _).
  rewrite Hz in L, U. change (Z.log2 119537056) with 26 in L, U.
  assert (W : w / 2 ^ 200 = 17).
  { symmetry. apply (Z.div_unique _ _ 17 (w - 17 * 2 ^ 200)); clear - L U; lia. }
  destruct (factor_bounds log HL n H2 H32) as (f & Ff & _ & _ & F1). rewrite (F1 ltac:(rewrite Hz; lia)) in Ff.
  destruct (cap_gen log n _ H2 H32 Ff ltac:(lia)) as (c & Ec & C1 & C2). rewrite Hz in C1, C2.
  assert (c = 134479188) by (clear - C1 C2; lia). subst c. change (Z.min (two32 - 1) 134479188) with 134479188 in Ec.
  pose proof (estimates_sane log n HL Hmx) as HS.
  destruct (geometry_shape dbg _ _ HS) as (g & e & G & He & Esl & Em & (cc & Hcc & Escl) & Ear & _ & B).
  exists g. split; [exact G|].
  pose proof (seglen_of_geometry log dbg n g HL H1 H32 G) as SL. rewrite Ew, W in SL.
  change (Z.min (2 ^ Z.min (two32 - 1) 17) 262144) with (2 ^ 17) in SL.
  destruct (Nat.leb_spec n 1) as [Q|Q]; [clear - Q H2; lia|]. cbv zeta in B. cbn [f64_estimates fe_cap] in B. rewrite Ec in B.
  split; [exact SL|]. split; [rewrite Em, SL; reflexivity|].
  rewrite SL in *. clear - B Ear Escl Hcc. lia.
Qed.

(** The hash (with bits 17, 35 and 36 clear) whose slots are [o], [u] and [v] of segments [s],
    [s + 1] and [s + 2]. *)
Definition tri_hash (s o u v : Z) : Z := s * 2 ^ 54 + o * 2 ^ 37 + Z.lxor o u * 2 ^ 18 + Z.lxor o v.

Lemma tri_ok g s o u v : g_seglen g = 2 ^ 17 -> g_mask g = 2 ^ 17 - 1 -> g_scl g = 2 ^ 27 ->
  0 <= s < 1024 -> 0 <= o < 2 ^ 17 -> 0 <= u < 2 ^ 17 -> 0 <= v < 2 ^ 17 ->
  is_u64 (tri_hash s o u v) /\ pos1 g (tri_hash s o u v) = s * 2 ^ 17 + o /\
  pos2 g (tri_hash s o u v) = (s + 1) * 2 ^ 17 + u /\ pos3 g (tri_hash s o u v) = (s + 2) * 2 ^ 17 + v.
Proof.
  intros EL EM ES Hs Ho Hu Hv.
  pose proof (lxor_lt o u 17 ltac:(lia) Ho Hu) as XB. pose proof (lxor_lt o v 17 ltac:(lia) Ho Hv) as XC.
  pose proof (lxor_change (s + 1) o u 17 ltac:(lia) Ho Hu) as CB.
  pose proof (lxor_change (s + 2) o v 17 ltac:(lia) Ho Hv) as CC.
  unfold tri_hash. set (b := Z.lxor o u) in *. set (c := Z.lxor o v) in *. clearbody b c.
  set (h := s * 2 ^ 54 + o * 2 ^ 37 + b * 2 ^ 18 + c).
  split; [unfold is_u64, two64, h; lia|].
  assert (S0 : seg0 g h = s * 2 ^ 17 + o).
  { unfold seg0, two64. rewrite ES. change 18446744073709551616 with (2 ^ 37 * 2 ^ 27). rewrite Z.div_mul_cancel_r by lia.
    symmetry. apply (Z.div_unique_pos _ _ _ (b * 2 ^ 18 + c)); unfold h; lia. }
  unfold pos1, pos2, pos3. rewrite S0, EL, EM. split; [reflexivity|].
  change (2 ^ 17 - 1) with (Z.ones 17). rewrite !Z.land_ones by lia. rewrite Z.shiftr_div_pow2 by lia.
  assert (A1 : (h / 2 ^ 18) mod two32 mod 2 ^ 17 = b).
  { replace (h / 2 ^ 18) with ((s * 2 ^ 17 + o) * 2 ^ 19 + b) by (apply (Z.div_unique_pos _ _ _ c); unfold h; lia).
    change two32 with (2 ^ 32). apply mod_mod_low; [lia|lia|lia|]. exists ((s * 2 ^ 17 + o) * 2). lia. }
  assert (A2 : h mod two32 mod 2 ^ 17 = c).
  { change two32 with (2 ^ 32). apply mod_mod_low; [lia|lia|lia|]. exists (s * 2 ^ 36 + o * 2 ^ 19 + b). unfold h. lia. }
  rewrite A1, A2. split; [rewrite <- CB|rewrite <- CC]; f_equal; lia.
Qed.

(** The fingerprint splits into a part for each slot. *)
Lemma lxor_mul_pow2 a b k : 0 <= k -> Z.lxor a b * 2 ^ k = Z.lxor (a * 2 ^ k) (b * 2 ^ k).
Proof. intros Hk. rewrite <- !Z.shiftl_mul_pow2 by exact Hk. apply Z.shiftl_lxor. Qed.

Lemma tri_fingerprint w s o u v : 0 <= s -> 0 <= o < 2 ^ 17 -> 0 <= u < 2 ^ 17 -> 0 <= v < 2 ^ 17 ->
  let p := fingerprint w in
  p (tri_hash s o u v) = Z.lxor (Z.lxor (Z.lxor (p (s * 2 ^ 54)) (Z.lxor (Z.lxor (p (o * 2 ^ 37)) (p (o * 2 ^ 18))) (p o))) (p (u * 2 ^ 18))) (p v).
Proof.
  intros Hs Ho Hu Hv. cbv zeta.
  assert (E : tri_hash s o u v = Z.lxor (s * 2 ^ 54) (Z.lxor (o * 2 ^ 37) (Z.lxor (Z.lxor (o * 2 ^ 18) (u * 2 ^ 18)) (Z.lxor o v)))).
  { pose proof (lxor_lt o u 17 ltac:(lia) Ho Hu) as XB. pose proof (lxor_lt o v 17 ltac:(lia) Ho Hv) as XC.
    rewrite <- lxor_mul_pow2 by lia. unfold tri_hash. set (b := Z.lxor o u) in *. set (c := Z.lxor o v) in *. clearbody b c.
    rewrite (lxor_add b c 18) by lia. rewrite (lxor_add o _ 37) by lia. rewrite (lxor_add s _ 54) by lia. lia. }
  rewrite E, !fingerprint_lxor.
  repeat match goal with |- context [fingerprint w ?k] => generalize (fingerprint w k); intros ? end.
  apply Z.bits_inj. intros k. rewrite !Z.lxor_spec.
  repeat match goal with |- context [Z.testbit ?x k] => destruct (Z.testbit x k) end; reflexivity.
Qed.

(** A chain through the slots of three segments forces a table that splits in three. *)
Lemma lxor_eq a b c a' : Z.lxor (Z.lxor a b) c = 0 -> Z.lxor (Z.lxor a' b) c = 0 -> a = a'.
Proof.
  intros H1 H2. apply Z.bits_inj. intros k. apply (f_equal (fun x => Z.testbit x k)) in H1, H2.
  rewrite !Z.lxor_spec, Z.bits_0 in *. destruct (Z.testbit a k), (Z.testbit b k), (Z.testbit c k), (Z.testbit a' k); auto.
Qed.
Lemma lxor_eq1 a b c b' : Z.lxor (Z.lxor a b) c = 0 -> Z.lxor (Z.lxor a b') c = 0 -> b = b'.
Proof. intros H1 H2. rewrite (Z.lxor_comm a) in H1, H2. eapply lxor_eq; eassumption. Qed.
Lemma lxor_eq2 a b c c' : Z.lxor (Z.lxor a b) c = 0 -> Z.lxor (Z.lxor a b) c' = 0 -> c = c'.
Proof. intros H1 H2. rewrite (Z.lxor_comm _ c) in H1. rewrite (Z.lxor_comm _ c') in H2. rewrite <- Z.lxor_assoc in H1, H2. eapply lxor_eq; eassumption. Qed.

Lemma chain_forces (D0 D1 D2 : Z -> Z) N :
  (forall i, 0 <= i < N -> Z.lxor (Z.lxor (D0 i) (D1 i)) (D2 i) = 0) ->
  (forall i, 0 <= i < N - 1 -> Z.lxor (Z.lxor (D0 (i + 1)) (D1 i)) (D2 i) = 0) ->
  (forall i, 0 <= i < N - 1 -> Z.lxor (Z.lxor (D0 (i + 1)) (D1 (i + 1))) (D2 i) = 0) ->
  forall o u v, 0 <= o < N -> 0 <= u < N -> 0 <= v < N -> Z.lxor (Z.lxor (D0 o) (D1 u)) (D2 v) = 0.
Proof.
  intros E0 E1 E2.
  assert (C : forall (D : Z -> Z), (forall i, 0 <= i < N - 1 -> D (i + 1) = D i) -> forall i, 0 <= i < N -> D i = D 0).
  { intros D HD i Hi. assert (Hi0 : 0 <= i) by lia. revert Hi. pattern i. apply Z_lt_induction; [|exact Hi0]. intros x IH Hx.
    destruct (Z.eq_dec x 0) as [->|N0]; [reflexivity|]. replace x with (x - 1 + 1) by lia. rewrite HD by lia. apply IH; lia. }
  assert (C0 : forall i, 0 <= i < N -> D0 i = D0 0).
  { apply C. intros i Hi. eapply lxor_eq; [apply E1; lia|apply E0; lia]. }
  assert (C1 : forall i, 0 <= i < N -> D1 i = D1 0).
  { apply C. intros i Hi. eapply lxor_eq1; [apply E2; lia|apply E1; lia]. }
  assert (C2 : forall i, 0 <= i < N -> D2 i = D2 0).
  { apply C. intros i Hi. eapply lxor_eq2; [apply E0; lia|apply E2; lia]. }
  intros o u v Ho Hu Hv. rewrite C0, C1, C2 by assumption. apply E0. lia.
Qed.

(** ** The keys: one chain through each of 304 groups of three segments *)
Definition chain_len : Z := 3 * 2 ^ 17 - 2.
Definition tri_key (i : nat) : Z :=
  let j := Z.of_nat i / chain_len in let t := Z.of_nat i mod chain_len in
  tri_hash (3 * j) ((t + 2) / 3) ((t + 1) / 3) (t / 3).
Definition tri_slot (i : nat) : nat :=
  let j := Z.of_nat i / chain_len in let t := Z.of_nat i mod chain_len in
  Z.to_nat ((3 * j + t mod 3) * 2 ^ 17 + t / 3).

Section KEYS.
Variable g : geom.
Hypothesis EL : g_seglen g = 2 ^ 17.
Hypothesis EM : g_mask g = 2 ^ 17 - 1.
Hypothesis ES : g_scl g = 2 ^ 27.

Lemma tri_key_ok i : Z.of_nat i < 304 * chain_len ->
  exists j t q r, Z.of_nat i = j * chain_len + t /\ 0 <= j < 304 /\ 0 <= t < chain_len /\ 0 <= q /\ t = 3 * q + r /\
    (r = 0 \/ r = 1 \/ r = 2) /\ is_u64 (tri_key i) /\
    Z.of_nat (tri_slot i) = (3 * j + r) * 2 ^ 17 + q /\
    Z.of_nat (sl1 g (tri_key i)) = 3 * j * 2 ^ 17 + q + (if r =? 0 then 0 else 1) /\
    Z.of_nat (sl2 g (tri_key i)) = (3 * j + 1) * 2 ^ 17 + q + (if r =? 2 then 1 else 0) /\
    Z.of_nat (sl3 g (tri_key i)) = (3 * j + 2) * 2 ^ 17 + q.
Proof.
  intros Hi. unfold tri_key, tri_slot. cbv zeta.
  pose proof (Z.div_mod (Z.of_nat i) chain_len ltac:(unfold chain_len; lia)) as D.
  pose proof (Z.mod_pos_bound (Z.of_nat i) chain_len ltac:(unfold chain_len; lia)) as M.
  assert (J : 0 <= Z.of_nat i / chain_len < 304).
  { split; [apply Z.div_pos; unfold chain_len; lia|]. apply Z.div_lt_upper_bound; [unfold chain_len; lia|]. lia. }
  set (j := Z.of_nat i / chain_len) in *. set (t := Z.of_nat i mod chain_len) in *. clearbody j t.
  destruct (zthirds t ltac:(lia)) as (q & r & T0 & Tr & Tq & TD & T1 & T2). rewrite T0, Tr, T1, T2.
  exists j, t, q, r. split; [lia|]. split; [exact J|]. split; [exact M|]. split; [exact Tq|]. split; [lia|]. split; [lia|].
  assert (B : 0 <= q + (if r =? 0 then 0 else 1) < 2 ^ 17 /\ 0 <= q + (if r =? 2 then 1 else 0) < 2 ^ 17 /\ 0 <= q < 2 ^ 17).
  { unfold chain_len in M. clear - M TD Tq. destruct TD as [[-> E]|[[-> E]|[-> E]]]; cbn [Z.eqb Pos.eqb]; lia. }
  destruct B as (B0 & B1 & B2).
  destruct (tri_ok g (3 * j) _ _ _ EL EM ES ltac:(lia) B0 B1 B2) as (U & P1 & P2 & P3).
  split; [exact U|]. split; [apply Z2Nat.id; lia|].
  unfold sl1, sl2, sl3. rewrite P1, P2, P3. clear P1 P2 P3 U.
  split; [rewrite Z2Nat.id by lia; ring|]. split; rewrite Z2Nat.id by lia; ring.
Qed.

Lemma tri_peels n : Z.of_nat n <= 304 * chain_len -> peels (sl1 g) (sl2 g) (sl3 g) (map tri_key (seq 0 n)).
Proof.
  intros Hn. apply (ordered_peels _ _ _ _ tri_slot).
  - intros i Hi. apply inc_iff. destruct (tri_key_ok i ltac:(lia)) as (j & t & q & r & _ & _ & _ & _ & _ & R & _ & S & E1 & E2 & E3).
    destruct R as [->|[->| ->]]; cbn [Z.eqb Pos.eqb] in *; [left|right; left|right; right]; apply Nat2Z.inj; rewrite S, ?E1, ?E2, ?E3; ring.
  - intros i i' Hii Hi'.
    destruct (tri_key_ok i ltac:(lia)) as (j & t & q & r & D & J & M & Q & T & R & _ & S & _).
    destruct (tri_key_ok i' ltac:(lia)) as (j' & t' & q' & r' & D' & J' & M' & Q' & T' & R' & _ & _ & E1 & E2 & E3).
    assert (C : j < j' \/ j = j' /\ t < t').
    { destruct (Z.lt_trichotomy j j') as [|[->|G]]; [now left|right; split; [reflexivity|lia]|exfalso].
      assert (j' * chain_len + chain_len <= j * chain_len) by (unfold chain_len; lia). lia. }
    clear D D'. unfold chain_len in *.
    apply inc_not; intros EE; apply (f_equal Z.of_nat) in EE; rewrite S, ?E1, ?E2, ?E3 in EE; clear E1 E2 E3 S;
      destruct R as [->|[->| ->]], R' as [->|[->| ->]]; cbn [Z.eqb Pos.eqb] in EE; lia.
Qed.

Lemma tri_load n k : Z.of_nat n <= 304 * chain_len -> deg (sl1 g) (sl2 g) (sl3 g) (map tri_key (seq 0 n)) k <= 63.
Proof.
  intros Hn.
  set (J := Z.of_nat k / 2 ^ 17 / 3). set (e := Z.of_nat k mod 2 ^ 17).
  set (C := map (fun d => Z.to_nat (J * chain_len + 3 * e + d)) [-2; -1; 0; 1; 2]).
  apply Z.le_trans with (Z.of_nat (length C)); [|cbv; congruence].
  apply deg_le. intros i Hi I. apply inc_iff in I.
  destruct (tri_key_ok i ltac:(lia)) as (j & t & q & r & D & HJ & M & Q & T & R & _ & _ & E1 & E2 & E3).
  assert (I' : Z.of_nat k = Z.of_nat (sl1 g (tri_key i)) \/ Z.of_nat k = Z.of_nat (sl2 g (tri_key i)) \/ Z.of_nat k = Z.of_nat (sl3 g (tri_key i))) by lia.
  rewrite E1, E2, E3 in I'. clear I E1 E2 E3.
  assert (G : exists m x, 0 <= m < 3 /\ 0 <= x < 2 ^ 17 /\ Z.of_nat k = (3 * j + m) * 2 ^ 17 + x /\ exists d, In d [-2; -1; 0; 1; 2] /\ t = 3 * x + d).
  { unfold chain_len in M. clear D Hi. destruct I' as [I|[I|I]]; [exists 0, (q + (if r =? 0 then 0 else 1))|exists 1, (q + (if r =? 2 then 1 else 0))|exists 2, q];
      (split; [lia|]; split; [destruct R as [->|[->| ->]]; cbn [Z.eqb Pos.eqb]; lia|]; split; [lia|]).
    - destruct R as [->|[->| ->]]; cbn [Z.eqb Pos.eqb]; [exists 0|exists (-2)|exists (-1)]; (split; [cbn [In]; tauto|lia]).
    - destruct R as [->|[->| ->]]; cbn [Z.eqb Pos.eqb]; [exists 0|exists 1|exists (-1)]; (split; [cbn [In]; tauto|lia]).
    - destruct R as [->|[->| ->]]; [exists 0|exists 1|exists 2]; (split; [cbn [In]; tauto|lia]). }
  destruct G as (m & x & Hm & Hx & Ek & d & Hd & Et).
  assert (EJ : J = j).
  { unfold J. rewrite Ek. rewrite Z.div_add_l by lia. rewrite (Z.div_small x) by lia. symmetry. apply (Z.div_unique_pos _ _ _ m); lia. }
  assert (Ee : e = x) by (unfold e; rewrite Ek; symmetry; apply (Z.mod_unique_pos _ _ (3 * j + m)); lia).
  unfold C. apply in_map_iff. exists d. split; [|exact Hd]. rewrite EJ, Ee. rewrite <- (Nat2Z.id i). f_equal. lia.
Qed.

(** Every table that answers for these keys answers for all hashes of the groups (with bits 17,
    35 and 36 clear). *)
Lemma tri_in n s o u v : 304 * chain_len <= Z.of_nat n -> 0 <= s < 304 ->
  (exists q, 0 <= q < 2 ^ 17 /\ (o = q /\ u = q /\ v = q \/ q < 2 ^ 17 - 1 /\ (o = q + 1 /\ u = q /\ v = q \/ o = q + 1 /\ u = q + 1 /\ v = q))) ->
  In (tri_hash (3 * s) o u v) (map tri_key (seq 0 n)).
Proof.
  intros Hn Hs (q & Hq & E).
  assert (G : forall r, (r = 0 \/ q < 2 ^ 17 - 1 /\ (r = 1 \/ r = 2)) ->
     In (tri_hash (3 * s) ((3 * q + r + 2) / 3) ((3 * q + r + 1) / 3) ((3 * q + r) / 3)) (map tri_key (seq 0 n))).
  { intros r Hr. apply in_map_iff. exists (Z.to_nat (s * chain_len + (3 * q + r))).
    assert (B : 0 <= 3 * q + r < chain_len) by (unfold chain_len; lia).
    assert (B2 : s * chain_len + (3 * q + r) < 304 * chain_len) by (unfold chain_len in *; lia).
    assert (B3 : 0 <= s * chain_len + (3 * q + r)) by (unfold chain_len in *; lia).
    split; [|apply in_seq; lia].
    unfold tri_key. rewrite Z2Nat.id by exact B3. cbv zeta.
    replace ((s * chain_len + (3 * q + r)) / chain_len) with s by (apply (Z.div_unique_pos _ _ _ (3 * q + r)); lia).
    replace ((s * chain_len + (3 * q + r)) mod chain_len) with (3 * q + r) by (apply (Z.mod_unique_pos _ _ s); lia). reflexivity. }
  destruct E as [(-> & -> & ->)|(Hq2 & [(-> & -> & ->)|(-> & -> & ->)])].
  - specialize (G 0 ltac:(lia)). replace ((3 * q + 0 + 2) / 3) with q in G by (apply (Z.div_unique_pos _ _ _ 2); lia).
    replace ((3 * q + 0 + 1) / 3) with q in G by (apply (Z.div_unique_pos _ _ _ 1); lia). replace ((3 * q + 0) / 3) with q in G by (apply (Z.div_unique_pos _ _ _ 0); lia). exact G.
  - specialize (G 1 ltac:(lia)). replace ((3 * q + 1 + 2) / 3) with (q + 1) in G by (apply (Z.div_unique_pos _ _ _ 0); lia).
    replace ((3 * q + 1 + 1) / 3) with q in G by (apply (Z.div_unique_pos _ _ _ 2); lia). replace ((3 * q + 1) / 3) with q in G by (apply (Z.div_unique_pos _ _ _ 1); lia). exact G.
  - specialize (G 2 ltac:(lia)). replace ((3 * q + 2 + 2) / 3) with (q + 1) in G by (apply (Z.div_unique_pos _ _ _ 1); lia).
    replace ((3 * q + 2 + 1) / 3) with (q + 1) in G by (apply (Z.div_unique_pos _ _ _ 0); lia). replace ((3 * q + 2) / 3) with q in G by (apply (Z.div_unique_pos _ _ _ 2); lia). exact G.
Qed.

Lemma tri_force n w fps s : 304 * chain_len <= Z.of_nat n ->
  (forall h, In h (map tri_key (seq 0 n)) -> x3 (sl1 g) (sl2 g) (sl3 g) fps h = fingerprint w h) ->
  0 <= s < 304 -> forall o u v, 0 <= o < 2 ^ 17 -> 0 <= u < 2 ^ 17 -> 0 <= v < 2 ^ 17 ->
  x3 (sl1 g) (sl2 g) (sl3 g) fps (tri_hash (3 * s) o u v) = fingerprint w (tri_hash (3 * s) o u v).
Proof.
  intros Hn HK Hs.
  set (p := fingerprint w).
  set (D0 := fun o => Z.lxor (nth (Z.to_nat (3 * s * 2 ^ 17 + o)) fps 0) (Z.lxor (p (3 * s * 2 ^ 54)) (Z.lxor (Z.lxor (p (o * 2 ^ 37)) (p (o * 2 ^ 18))) (p o)))).
  set (D1 := fun u => Z.lxor (nth (Z.to_nat ((3 * s + 1) * 2 ^ 17 + u)) fps 0) (p (u * 2 ^ 18))).
  set (D2 := fun v => Z.lxor (nth (Z.to_nat ((3 * s + 2) * 2 ^ 17 + v)) fps 0) (p v)).
  assert (X : forall o u v, 0 <= o < 2 ^ 17 -> 0 <= u < 2 ^ 17 -> 0 <= v < 2 ^ 17 ->
    Z.lxor (x3 (sl1 g) (sl2 g) (sl3 g) fps (tri_hash (3 * s) o u v)) (p (tri_hash (3 * s) o u v)) = Z.lxor (Z.lxor (D0 o) (D1 u)) (D2 v)).
  { intros o u v Ho Hu Hv. unfold p at 1. rewrite (tri_fingerprint w (3 * s) o u v) by lia. fold p.
    destruct (tri_ok g (3 * s) o u v EL EM ES ltac:(lia) Ho Hu Hv) as (_ & P1 & P2 & P3).
    unfold x3, sl1, sl2, sl3. rewrite P1, P2, P3. unfold D0, D1, D2. clear.
    repeat match goal with |- context [nth ?k fps 0] => generalize (nth k fps 0); intros ? end.
    repeat match goal with |- context [p ?k] => generalize (p k); intros ? end.
    apply Z.bits_inj. intros k. rewrite !Z.lxor_spec.
    repeat match goal with |- context [Z.testbit ?x k] => destruct (Z.testbit x k) end; reflexivity. }
  assert (K : forall o u v, 0 <= o < 2 ^ 17 -> 0 <= u < 2 ^ 17 -> 0 <= v < 2 ^ 17 ->
    (exists q, 0 <= q < 2 ^ 17 /\ (o = q /\ u = q /\ v = q \/ q < 2 ^ 17 - 1 /\ (o = q + 1 /\ u = q /\ v = q \/ o = q + 1 /\ u = q + 1 /\ v = q))) ->
    Z.lxor (Z.lxor (D0 o) (D1 u)) (D2 v) = 0).
  { intros o u v Ho Hu Hv E. rewrite <- X by assumption. unfold p. rewrite HK by (apply tri_in; assumption). apply Z.lxor_nilpotent. }
  intros o u v Ho Hu Hv.
  assert (Z0 : Z.lxor (x3 (sl1 g) (sl2 g) (sl3 g) fps (tri_hash (3 * s) o u v)) (p (tri_hash (3 * s) o u v)) = 0).
  { rewrite X by assumption. apply (chain_forces D0 D1 D2 (2 ^ 17)); try assumption.
    - intros i Hi. apply K; try lia. exists i. split; [lia|]. left. auto.
    - intros i Hi. apply K; try lia. exists i. split; [lia|]. right. split; [lia|]. left. auto.
    - intros i Hi. apply K; try lia. exists i. split; [lia|]. right. split; [lia|]. right. auto. }
  apply Z.lxor_eq in Z0. exact Z0.
Qed.
End KEYS.

(** ** Counting *)
Lemma how_many_inject P f m n : 0 <= m -> (forall x, 0 <= x < m -> 0 <= f x < n) ->
  (forall x y, 0 <= x < m -> 0 <= y < m -> f x = f y -> x = y) ->
  (forall x, 0 <= x < m -> P (f x) = true) -> m <= how_many P n.
Proof.
  intros Hm R I HP. unfold how_many.
  assert (W : forall k x, In x (map Z.of_nat (seq 0 (Z.to_nat k))) <-> 0 <= x < k).
  { intros k x. apply in_words. }
  assert (E : m = Z.of_nat (length (map f (map Z.of_nat (seq 0 (Z.to_nat m)))))) by (rewrite !map_length, seq_length, Z2Nat.id; lia).
  rewrite E at 1. apply inj_le. apply NoDup_incl_length.
  - assert (G : forall l, NoDup l -> (forall x, In x l -> 0 <= x < m) -> NoDup (map f l)).
    { induction l as [|a l IH]; intros N B; [constructor|]. inversion N as [|? ? N1 N2]; subst. cbn [map]. constructor.
      - intros H. apply in_map_iff in H. destruct H as (y & Ey & Hy). apply I in Ey; [subst; contradiction|apply B; now right|apply B; now left].
      - apply IH; [exact N2|intros x Hx; apply B; now right]. }
    apply G; [apply nodup_words|]. intros x Hx. apply W, Hx.
  - intros y Hy. apply in_map_iff in Hy. destruct Hy as (x & <- & Hx). apply W in Hx. apply filter_In. split; [|apply HP, Hx].
    apply W, R, Hx.
Qed.

Definition spread (x : Z) : Z := 3 * (x / 2 ^ 51) * 2 ^ 54 + x / 2 ^ 34 mod 2 ^ 17 * 2 ^ 37 + x / 2 ^ 17 mod 2 ^ 17 * 2 ^ 18 + x mod 2 ^ 17.

Lemma digits x : exists s o b c, x / 2 ^ 51 = s /\ x / 2 ^ 34 mod 2 ^ 17 = o /\ x / 2 ^ 17 mod 2 ^ 17 = b /\ x mod 2 ^ 17 = c /\
  x = s * 2 ^ 51 + o * 2 ^ 34 + b * 2 ^ 17 + c /\ 0 <= o < 2 ^ 17 /\ 0 <= b < 2 ^ 17 /\ 0 <= c < 2 ^ 17.
Proof.
  exists (x / 2 ^ 51), (x / 2 ^ 34 mod 2 ^ 17), (x / 2 ^ 17 mod 2 ^ 17), (x mod 2 ^ 17).
  do 4 (split; [reflexivity|]). split; [|repeat split; apply Z.mod_pos_bound; lia].
  change (2 ^ 51) with (2 ^ 34 * 2 ^ 17). rewrite <- (Z.div_div x (2 ^ 34)) by lia.
  pose proof (Z.div_mod (x / 2 ^ 34) (2 ^ 17) ltac:(lia)) as D1.
  change (2 ^ 34) with (2 ^ 17 * 2 ^ 17) in *. rewrite <- (Z.div_div x (2 ^ 17)) in * by lia.
  pose proof (Z.div_mod (x / 2 ^ 17) (2 ^ 17) ltac:(lia)) as D2. pose proof (Z.div_mod x (2 ^ 17) ltac:(lia)) as D3.
  repeat match goal with |- context [?a / ?b] => let n := fresh in set (n := a / b) in * end. lia.
Qed.

Lemma spread_ok x : 0 <= x < 304 * 2 ^ 51 -> exists s o u v, spread x = tri_hash (3 * s) o u v /\
  0 <= s < 304 /\ 0 <= o < 2 ^ 17 /\ 0 <= u < 2 ^ 17 /\ 0 <= v < 2 ^ 17 /\ 0 <= spread x < 2 ^ 64.
Proof.
  intros Hx. destruct (digits x) as (s & o & b & c & Es & Eo & Eb & Ec & E & Ho & Hb & Hc). unfold spread. rewrite Es, Eo, Eb, Ec.
  exists s, o, (Z.lxor o b), (Z.lxor o c). unfold tri_hash. rewrite <- !Z.lxor_assoc, Z.lxor_nilpotent, !Z.lxor_0_l.
  pose proof (lxor_lt o b 17 ltac:(lia) Ho Hb) as L1. pose proof (lxor_lt o c 17 ltac:(lia) Ho Hc) as L2.
  split; [reflexivity|]. split; [lia|]. split; [exact Ho|]. split; [exact L1|]. split; [exact L2|]. clear L1 L2. lia.
Qed.

Lemma spread_inj x y : spread x = spread y -> x = y.
Proof.
  destruct (digits x) as (s & o & b & c & Es & Eo & Eb & Ec & E & Ho & Hb & Hc).
  destruct (digits y) as (s' & o' & b' & c' & Es' & Eo' & Eb' & Ec' & E' & Ho' & Hb' & Hc').
  unfold spread. rewrite Es, Eo, Eb, Ec, Es', Eo', Eb', Ec'. clear - E E' Ho Hb Hc Ho' Hb' Hc'. lia.
Qed.

(** @C69 Refuted: "Has a false positive rate of <0.4%" (BinaryFuse8) and "<0.002%"
    (BinaryFuse16). There are 119537056 distinct keys for which the BinaryFuse filter is built on
    the first attempt, in both profiles, whatever the fingerprint width and the initial fill, and
    accepts more than 3.7% of the keys outside the set. *)
Lemma bfuse_documented_rate_refuted : forall log, reasonable_log log ->
  exists keys, length keys = Z.to_nat 119537056 /\ NoDup keys /\ Forall is_u64 keys /\
  forall max_iter w dbg rnd, (0 < max_iter)%nat ->
    exists f, bfuse_from_impl max_iter w dbg (f64_estimates log) rnd keys = Ok f /\
      forall dbg', 37 * (2 ^ 64 - Z.of_nat (length keys)) < 1000 * false_positives (bfuse_contains w dbg' f) keys.
Proof.
  intros log HL.
  set (n := Z.to_nat 119537056). assert (Hn : Z.of_nat n = 119537056) by (unfold n; apply Z2Nat.id; lia). clearbody n.
  pose proof (estimates_sane log n HL ltac:(rewrite Hn; unfold max_keys; lia)) as HS.
  assert (HC : Z.of_nat n = 304 * chain_len) by (rewrite Hn; reflexivity).
  set (keys := map (fun i => unmix (tri_key i) (retry_seed 0)) (seq 0 n)). exists keys.
  destruct (big_geometry log true n HL Hn) as (g1 & _ & EL1 & EM1 & ES1 & _).
  assert (L : length keys = n) by (unfold keys; now rewrite map_length, seq_length).
  assert (E : map (fun key => mix key (retry_seed 0)) keys = map tri_key (seq 0 n)).
  { unfold keys. rewrite map_map. apply map_ext_in. intros i Hi. apply in_seq in Hi. apply mix_unmix.
    destruct (tri_key_ok g1 EL1 EM1 ES1 i ltac:(lia)) as (j & t & q & r & _ & _ & _ & _ & _ & _ & U & _). exact U. }
  assert (NH : NoDup (map (fun key => mix key (retry_seed 0)) keys)).
  { rewrite E. exact (apeels_nodup _ _ _ _ (tri_peels g1 EL1 EM1 ES1 n ltac:(lia))). }
  assert (ND : NoDup keys) by (now apply NoDup_map_inv in NH).
  split; [exact L|]. split; [exact ND|]. split.
  { apply Forall_forall. intros k Hk. unfold keys in Hk. apply in_map_iff in Hk. destruct Hk as (i & <- & _). unfold unmix. apply Z.mod_pos_bound. reflexivity. }
  intros mi w dbg rnd Hmi. clearbody keys. subst n.
  destruct (big_geometry log dbg (length keys) HL Hn) as (g & Eg & EL & EM & ES & _).
  pose proof (tri_peels g EL EM ES (length keys) ltac:(lia)) as PP. rewrite <- E in PP.
  destruct (geometry_valid _ _ _ _ HS Eg) as [Hg _].
  destruct (bfuse_construct mi w dbg _ rnd keys g Eg HS (fun _ => ND)) as [(i & fps & Hi & Lf & _ & HX & NP & _ & EE)|[[_ N]|(i & Hi & Hv & N & _)]].
  2:{ exfalso. apply (proj1 (N 0%nat Hmi NH)). exact PP. }
  2:{ exfalso. destruct i as [|i].
      - destruct Hv as (j & _ & Hj). rewrite E in Hj. pose proof (tri_load g EL EM ES (length keys) j ltac:(lia)) as PL. lia.
      - apply (N 0%nat); [lia|exact NH|exact PP]. }
  assert (i = 0%nat).
  { destruct i as [|i]; [reflexivity|]. exfalso. apply (NP 0%nat); [lia|exact NH|exact PP]. }
  subst i. eexists. split; [exact EE|]. intros dbg'.
  assert (HK : forall h, In h (map tri_key (seq 0 (length keys))) -> x3 (sl1 g) (sl2 g) (sl3 g) fps h = fingerprint w h).
  { intros h Hh. rewrite <- E in Hh. apply in_map_iff in Hh. destruct Hh as (k & <- & Hk). apply HX, Hk. }
  set (f := {| bf_seed := retry_seed 0; bf_segment_length := g_seglen g; bf_segment_length_mask := g_mask g; bf_segment_count_length := g_scl g; bf_fingerprints := fps |}).
  assert (ACC : 304 * 2 ^ 51 <= how_many (fun key => says_yes (bfuse_contains w dbg' f key)) (2 ^ 64)).
  { rewrite (how_many_ext _ (fun key => (fun h => x3 (sl1 g) (sl2 g) (sl3 g) fps h =? fingerprint w h) (mix key (retry_seed 0)))).
    2:{ intros key Hk. unfold f. rewrite (x3_contains dbg' g Hg w fps (retry_seed 0) key Lf). cbn [says_yes].
        destruct (_ =? _); reflexivity. }
    rewrite (how_many_inj (fun h => x3 (sl1 g) (sl2 g) (sl3 g) fps h =? fingerprint w h) (fun key => mix key (retry_seed 0)) (2 ^ 64)).
    - apply (how_many_inject _ spread).
      + lia.
      + intros x Hx. destruct (spread_ok x Hx) as (s & o & u & v & _ & _ & _ & _ & _ & B). exact B.
      + intros x y _ _. apply spread_inj.
      + intros x Hx. destruct (spread_ok x Hx) as (s & o & u & v & Ex & Hs & Ho & Hu & Hv & _). rewrite Ex.
        apply Z.eqb_eq. apply (tri_force g EL EM ES (length keys) w fps s ltac:(lia) HK Hs o u v Ho Hu Hv).
    - intros x Hx. pose proof (mix_is_u64 x (retry_seed 0)) as V. unfold is_u64, two64 in V. lia.
    - intros x y Hx Hy. apply mix_inj; unfold is_u64, two64; lia. }
  pose proof (accepted_false_positives (bfuse_contains w dbg' f) keys) as FP.
  set (acc := how_many _ _) in *. set (fpc := false_positives _ _) in *. clearbody acc fpc. clear - ACC FP Hn. lia.
Qed.
