(** C69: the rates documented for Xor8 and Xor16. *)
From Coq Require Import Permutation.
From Verif Require Import Base Hash Xorf Float64 Xor SpecXorf SpecXor SpecRate Base_facts HashInj_facts Window_facts Peel_facts KeyPeel_facts Xor_facts Rate_facts Claims_xor Claims_anysize Claims_rate.
Local Open Scope Z_scope.

(** Few keys are in the set: what is accepted is a false positive or a key. *)
Lemma how_many_keys keys n : how_many (fun k => existsb (Z.eqb k) keys) n <= Z.of_nat (length keys).
Proof.
  unfold how_many. apply Nat2Z.inj_le. apply NoDup_incl_length; [apply NoDup_filter, nodup_words|].
  intros x Hx. apply filter_In in Hx. destruct Hx as [_ Hx]. apply existsb_exists in Hx. destruct Hx as (y & Hy & E).
  apply Z.eqb_eq in E. now subst.
Qed.
Lemma how_many_split P Q n : 0 <= n -> how_many P n <= how_many (fun k => P k && negb (Q k)) n + how_many Q n.
Proof.
  intros Hn. rewrite !how_many_sum by exact Hn. rewrite <- zsum_add. apply zsum_le. intros x _. unfold ind.
  destruct (P x), (Q x); cbn [andb negb]; lia.
Qed.
Lemma accepted_false_positives contains keys :
  how_many (fun k => says_yes (contains k)) (2 ^ 64) <= false_positives contains keys + Z.of_nat (length keys).
Proof.
  unfold false_positives. eapply Z.le_trans; [apply (how_many_split _ (fun k => existsb (Z.eqb k) keys)); lia|].
  pose proof (how_many_keys keys (2 ^ 64)). lia.
Qed.

(** Keys with a private slot may be added to a peelable set. *)
Lemma peels_more {A} s1 s2 s3 (hash : A -> Z) (slot : A -> nat) core : peels s1 s2 s3 core -> forall P, NoDup P ->
  (forall p, In p P -> inc s1 s2 s3 (hash p) (slot p) = true) ->
  (forall p p', In p P -> In p' P -> p <> p' -> inc s1 s2 s3 (hash p') (slot p) = false) ->
  (forall p h, In p P -> In h core -> inc s1 s2 s3 h (slot p) = false) ->
  peels s1 s2 s3 (map hash P ++ core).
Proof.
  intros HC. induction P as [|p P IH]; intros ND H1 H2 H3; [exact HC|]. inversion ND as [|p0 P0 N1 N2]; subst. cbn [map app].
  apply (peels_take _ _ _ (hash p) _ (map hash P ++ core) (slot p)).
  - apply Permutation_refl.
  - apply H1. now left.
  - intros h' Hh. apply in_app_iff in Hh. destruct Hh as [Hh|Hh].
    + apply in_map_iff in Hh. destruct Hh as (p' & <- & Hp). apply H2; [now left|now right|congruence].
    + apply H3; [now left|exact Hh].
  - apply IH; [exact N2|intros; apply H1; now right|intros; apply H2; try (now right); assumption|intros; apply H3; [now right|assumption]].
Qed.

(** ** Slots in blocks of 2^22 *)
Definition zpos (b : nat) (h : Z) : Z :=
  match b with
  | O => h mod 2 ^ 32 / 2 ^ 10
  | S O => h mod 2 ^ 11 * 2 ^ 11 + h / 2 ^ 53
  | _ => h / 2 ^ 32 mod 2 ^ 22
  end.

Lemma fields_of h : is_u64 h -> exists x y z t u v, in_range x y z t u v /\ h = fields x y z t u v.
Proof.
  intros Hh. unfold is_u64, two64 in Hh.
  exists (h / 2 ^ 22 mod 2 ^ 10), (h / 2 ^ 11 mod 2 ^ 11), (h mod 2 ^ 11), (h / 2 ^ 54), (h / 2 ^ 43 mod 2 ^ 11), (h / 2 ^ 32 mod 2 ^ 11).
  split.
  - unfold in_range. repeat match goal with |- _ /\ _ => split end; try (apply Z.mod_pos_bound; reflexivity); try apply Z.mod_pos_bound; try lia.
  - unfold fields.
    replace (2 ^ 54) with (2 ^ 43 * 2 ^ 11) by reflexivity. rewrite <- (Z.div_div h (2 ^ 43)) by lia.
    pose proof (Z.div_mod (h / 2 ^ 43) (2 ^ 11) ltac:(lia)) as D1.
    replace (2 ^ 43) with (2 ^ 32 * 2 ^ 11) in * by reflexivity. rewrite <- (Z.div_div h (2 ^ 32)) in * by lia.
    pose proof (Z.div_mod (h / 2 ^ 32) (2 ^ 11) ltac:(lia)) as D2.
    replace (2 ^ 32) with (2 ^ 22 * 2 ^ 10) in * by reflexivity. rewrite <- (Z.div_div h (2 ^ 22)) in * by lia.
    pose proof (Z.div_mod (h / 2 ^ 22) (2 ^ 10) ltac:(lia)) as D3.
    replace (2 ^ 22) with (2 ^ 11 * 2 ^ 11) in * by reflexivity. rewrite <- (Z.div_div h (2 ^ 11)) in * by lia.
    pose proof (Z.div_mod (h / 2 ^ 11) (2 ^ 11) ltac:(lia)) as D4.
    pose proof (Z.div_mod h (2 ^ 11) ltac:(lia)) as D5.
    repeat match goal with |- context [?a / ?b] => let n := fresh in set (n := a / b) in * end.
    lia.
Qed.

Lemma xpos_z bl b h : Z.of_nat bl = 2 ^ 22 -> (b < 3)%nat -> is_u64 h -> xpos bl b h = Z.to_nat (zpos b h).
Proof.
  intros Hbl Hb Hh. unfold xpos. rewrite Hbl, Z.shiftr_div_pow2 by lia. f_equal.
  assert (G : forall x, x * 2 ^ 22 / 2 ^ 32 = x / 2 ^ 10).
  { intros x. change (2 ^ 32) with (2 ^ 10 * 2 ^ 22). apply Z.div_mul_cancel_r; lia. }
  rewrite G. clear G. destruct (fields_of h Hh) as (x & y & z & t & u & v & R & ->).
  pose proof R as (R1 & R2 & R3 & R4 & R5 & R6). unfold zpos.
  destruct b as [|[|[|b]]]; [| | |lia].
  - f_equal. change (Z.of_nat 0 * 21) with 0. rewrite rotl_0 by (apply fields_u64; exact R). reflexivity.
  - change (Z.of_nat 1 * 21) with 21. rewrite window21 by exact R.
    assert (E1 : fields x y z t u v mod 2 ^ 11 = z).
    { symmetry. apply (Z.mod_unique_pos _ _ (t * 2 ^ 43 + u * 2 ^ 32 + v * 2 ^ 21 + x * 2 ^ 11 + y)); unfold fields; lia. }
    assert (E2 : fields x y z t u v / 2 ^ 53 = t * 2 + u / 2 ^ 10).
    { pose proof (Z.div_mod u (2 ^ 10) ltac:(lia)) as D. pose proof (Z.mod_pos_bound u (2 ^ 10) ltac:(lia)) as M.
      symmetry. apply (Z.div_unique_pos _ _ _ (u mod 2 ^ 10 * 2 ^ 43 + v * 2 ^ 32 + x * 2 ^ 22 + y * 2 ^ 11 + z)); unfold fields; lia. }
    rewrite E1, E2. pose proof (Z.div_mod u (2 ^ 10) ltac:(lia)) as D. pose proof (Z.mod_pos_bound u (2 ^ 10) ltac:(lia)) as M.
    symmetry. apply (Z.div_unique_pos _ _ _ (u mod 2 ^ 10)); lia.
  - change (Z.of_nat 2 * 21) with 42. rewrite window42 by exact R.
    assert (E1 : fields x y z t u v / 2 ^ 32 = t * 2 ^ 22 + u * 2 ^ 11 + v).
    { symmetry. apply (Z.div_unique_pos _ _ _ (x * 2 ^ 22 + y * 2 ^ 11 + z)); unfold fields; lia. }
    rewrite E1. replace ((t * 2 ^ 22 + u * 2 ^ 11 + v) mod 2 ^ 22) with (u * 2 ^ 11 + v) by (apply (Z.mod_unique_pos _ _ t); lia).
    symmetry. apply (Z.div_unique_pos _ _ _ x); lia.
Qed.

Definition key_for (b : nat) (i : Z) : Z :=
  match b with
  | O => i * 2 ^ 10
  | S O => i mod 2 ^ 11 * 2 ^ 53 + i / 2 ^ 11
  | _ => i * 2 ^ 32
  end.

(** The three slots of such a hash. *)
Definition key_slot (b b' : nat) (i : Z) : Z :=
  match b, b' with
  | O, O => i | O, S O => i mod 2 * 2 ^ 21 | O, _ => 0
  | S O, O => i / 2 ^ 21 | S O, S O => i | S O, _ => i mod 2 * 2 ^ 21
  | _, O => 0 | _, S O => i / 2 ^ 21 | _, _ => i
  end.

Lemma key_for_u64 b i : 0 <= i < 2 ^ 22 -> is_u64 (key_for b i).
Proof.
  intros Hi. unfold is_u64, two64.
  pose proof (Z.mod_pos_bound i (2 ^ 11) ltac:(lia)) as M.
  assert (0 <= i / 2 ^ 11 < 2 ^ 11) by (split; [apply Z.div_pos; lia|apply Z.div_lt_upper_bound; lia]).
  destruct b as [|[|b]]; cbn [key_for]; lia.
Qed.

Lemma key_for_slots b b' i : (b < 3)%nat -> (b' < 3)%nat -> 0 <= i < 2 ^ 22 -> zpos b' (key_for b i) = key_slot b b' i.
Proof.
  intros Hb Hb' Hi.
  pose proof (Z.div_mod i (2 ^ 11) ltac:(lia)) as D. pose proof (Z.mod_pos_bound i (2 ^ 11) ltac:(lia)) as M.
  assert (HD : 0 <= i / 2 ^ 11 < 2 ^ 11) by (split; [apply Z.div_pos; lia|apply Z.div_lt_upper_bound; lia]).
  destruct b as [|[|[|b]]], b' as [|[|[|b']]]; try lia; cbn [zpos key_for key_slot].
  - rewrite Z.mod_small by lia. apply Z.div_mul. lia.
  - replace (i * 2 ^ 10 / 2 ^ 53) with 0 by (symmetry; apply Z.div_small; lia).
    replace (2 ^ 11) with (2 * 2 ^ 10) at 1 by reflexivity. rewrite Z.mul_mod_distr_r by lia. change (2 ^ 21) with (2 ^ 10 * 2 ^ 11). lia.
  - rewrite Z.div_small by lia. reflexivity.
  - set (e := i / 2 ^ 11) in *. set (r := i mod 2 ^ 11) in *.
    replace ((r * 2 ^ 53 + e) mod 2 ^ 32) with e by (apply (Z.mod_unique_pos _ _ (r * 2 ^ 21)); lia).
    unfold e. rewrite Z.div_div by lia. reflexivity.
  - set (e := i / 2 ^ 11) in *. set (r := i mod 2 ^ 11) in *.
    replace ((r * 2 ^ 53 + e) mod 2 ^ 11) with e by (apply (Z.mod_unique_pos _ _ (r * 2 ^ 42)); lia).
    replace ((r * 2 ^ 53 + e) / 2 ^ 53) with r by (apply (Z.div_unique_pos _ _ _ e); lia). lia.
  - assert (E2 : i mod 2 = i mod 2 ^ 11 mod 2) by (apply Znumtheory.Zmod_div_mod; try lia; exists (2 ^ 10); reflexivity).
    rewrite E2. set (e := i / 2 ^ 11) in *. set (r := i mod 2 ^ 11) in *.
    replace ((r * 2 ^ 53 + e) / 2 ^ 32) with (r * 2 ^ 21) by (apply (Z.div_unique_pos _ _ _ e); lia).
    change (2 ^ 22) with (2 * 2 ^ 21). now rewrite Z.mul_mod_distr_r by lia.
  - replace (i * 2 ^ 32 mod 2 ^ 32) with 0 by (symmetry; apply Z.mod_mul; lia). reflexivity.
  - replace (i * 2 ^ 32 mod 2 ^ 11) with 0 by (symmetry; change (2 ^ 32) with (2 ^ 21 * 2 ^ 11); rewrite Z.mul_assoc; apply Z.mod_mul; lia).
    change (2 ^ 53) with (2 ^ 21 * 2 ^ 32). rewrite Z.div_mul_cancel_r by lia. lia.
  - rewrite Z.div_mul by lia. apply Z.mod_small. lia.
Qed.

(** Every hash is an exclusive or of five of them. *)
Lemma key_for_decompose h : is_u64 h -> let a := zpos 0 h in let b := zpos 1 h in let c := zpos 2 h in
  a mod 2 = b / 2 ^ 21 /\ b mod 2 = c / 2 ^ 21 /\
  h = Z.lxor (key_for 0 a) (Z.lxor (key_for 1 b) (Z.lxor (key_for 2 c) (Z.lxor (key_for 0 (a mod 2)) (key_for 2 (c / 2 ^ 21 * 2 ^ 21))))).
Proof.
  intros Hh. cbv zeta. unfold is_u64, two64 in Hh.
  (* h = e0 + p 2^10 + e1 2^11 + e2 2^32 + q 2^53 + e3 2^54 *)
  pose proof (Z.div_mod h (2 ^ 10) ltac:(lia)) as D0. pose proof (Z.mod_pos_bound h (2 ^ 10) ltac:(lia)) as M0.
  set (h1 := h / 2 ^ 10) in *. set (e0 := h mod 2 ^ 10) in *.
  pose proof (Z.div_mod h1 2 ltac:(lia)) as D1. pose proof (Z.mod_pos_bound h1 2 ltac:(lia)) as M1.
  set (h2 := h1 / 2) in *. set (p := h1 mod 2) in *.
  pose proof (Z.div_mod h2 (2 ^ 21) ltac:(lia)) as D2. pose proof (Z.mod_pos_bound h2 (2 ^ 21) ltac:(lia)) as M2.
  set (h3 := h2 / 2 ^ 21) in *. set (e1 := h2 mod 2 ^ 21) in *.
  pose proof (Z.div_mod h3 (2 ^ 21) ltac:(lia)) as D3. pose proof (Z.mod_pos_bound h3 (2 ^ 21) ltac:(lia)) as M3.
  set (h4 := h3 / 2 ^ 21) in *. set (e2 := h3 mod 2 ^ 21) in *.
  pose proof (Z.div_mod h4 2 ltac:(lia)) as D4. pose proof (Z.mod_pos_bound h4 2 ltac:(lia)) as M4.
  set (e3 := h4 / 2) in *. set (q := h4 mod 2) in *. clearbody e3 q h4 e2 h3 e1 h2 p h1 e0.
  assert (Hh' : h = e0 + p * 2 ^ 10 + e1 * 2 ^ 11 + e2 * 2 ^ 32 + q * 2 ^ 53 + e3 * 2 ^ 54) by lia.
  assert (M5 : 0 <= e3 < 2 ^ 10) by lia. clear D0 D1 D2 D3 D4 h1 h2 h3 h4.
  assert (EA : zpos 0 h = p + e1 * 2).
  { cbn [zpos]. replace (h mod 2 ^ 32) with (e0 + p * 2 ^ 10 + e1 * 2 ^ 11) by (apply (Z.mod_unique_pos _ _ (e2 + q * 2 ^ 21 + e3 * 2 ^ 22)); lia).
    symmetry. apply (Z.div_unique_pos _ _ _ e0); lia. }
  assert (EB : zpos 1 h = (e0 + p * 2 ^ 10) * 2 ^ 11 + (q + e3 * 2)).
  { cbn [zpos]. replace (h mod 2 ^ 11) with (e0 + p * 2 ^ 10) by (apply (Z.mod_unique_pos _ _ (e1 + e2 * 2 ^ 21 + q * 2 ^ 42 + e3 * 2 ^ 43)); lia).
    replace (h / 2 ^ 53) with (q + e3 * 2) by (apply (Z.div_unique_pos _ _ _ (e0 + p * 2 ^ 10 + e1 * 2 ^ 11 + e2 * 2 ^ 32)); lia). reflexivity. }
  assert (EC : zpos 2 h = e2 + q * 2 ^ 21).
  { cbn [zpos]. replace (h / 2 ^ 32) with (e2 + q * 2 ^ 21 + e3 * 2 ^ 22) by (apply (Z.div_unique_pos _ _ _ (e0 + p * 2 ^ 10 + e1 * 2 ^ 11)); lia).
    symmetry. apply (Z.mod_unique_pos _ _ e3); lia. }
  rewrite EA, EB, EC.
  assert (E1 : (p + e1 * 2) mod 2 = p) by (symmetry; apply (Z.mod_unique_pos _ _ e1); lia).
  assert (E2 : ((e0 + p * 2 ^ 10) * 2 ^ 11 + (q + e3 * 2)) / 2 ^ 21 = p) by (symmetry; apply (Z.div_unique_pos _ _ _ (e0 * 2 ^ 11 + (q + e3 * 2))); lia).
  assert (E3 : ((e0 + p * 2 ^ 10) * 2 ^ 11 + (q + e3 * 2)) mod 2 = q) by (symmetry; apply (Z.mod_unique_pos _ _ ((e0 + p * 2 ^ 10) * 2 ^ 10 + e3)); lia).
  assert (E4 : (e2 + q * 2 ^ 21) / 2 ^ 21 = q) by (symmetry; apply (Z.div_unique_pos _ _ _ e2); lia).
  rewrite E1, E2, E3, E4. split; [reflexivity|]. split; [reflexivity|].
  cbn [key_for].
  replace (((e0 + p * 2 ^ 10) * 2 ^ 11 + (q + e3 * 2)) mod 2 ^ 11) with (q + e3 * 2) by (apply (Z.mod_unique_pos _ _ (e0 + p * 2 ^ 10)); lia).
  replace (((e0 + p * 2 ^ 10) * 2 ^ 11 + (q + e3 * 2)) / 2 ^ 11) with (e0 + p * 2 ^ 10) by (apply (Z.div_unique_pos _ _ _ (q + e3 * 2)); lia).
  (* everything as exclusive ors of aligned fields *)
  assert (F1 : (p + e1 * 2) * 2 ^ 10 = Z.lxor (e1 * 2 ^ 11) (p * 2 ^ 10)) by (rewrite lxor_add by lia; lia).
  assert (F2 : (q + e3 * 2) * 2 ^ 53 + (e0 + p * 2 ^ 10) = Z.lxor (Z.lxor (e3 * 2 ^ 54) (q * 2 ^ 53)) (Z.lxor (p * 2 ^ 10) e0)).
  { rewrite (lxor_add p e0 10) by lia. rewrite (lxor_add e3 (q * 2 ^ 53) 54) by lia.
    replace (e3 * 2 ^ 54 + q * 2 ^ 53) with ((e3 * 2 + q) * 2 ^ 53) by lia. rewrite lxor_add by lia. lia. }
  assert (F3 : (e2 + q * 2 ^ 21) * 2 ^ 32 = Z.lxor (q * 2 ^ 53) (e2 * 2 ^ 32)) by (rewrite lxor_add by lia; lia).
  assert (F4 : q * 2 ^ 21 * 2 ^ 32 = q * 2 ^ 53) by lia.
  assert (F5 : h = Z.lxor (e3 * 2 ^ 54) (Z.lxor (q * 2 ^ 53) (Z.lxor (e2 * 2 ^ 32) (Z.lxor (e1 * 2 ^ 11) (Z.lxor (p * 2 ^ 10) e0))))).
  { rewrite (lxor_add p e0 10) by lia. rewrite (lxor_add e1 _ 11) by lia. rewrite (lxor_add e2 _ 32) by lia.
    rewrite (lxor_add q _ 53) by lia. rewrite (lxor_add e3 _ 54) by lia. lia. }
  rewrite F1, F2, F3, F4. rewrite F5 at 1. clear.
  generalize (e3 * 2 ^ 54) (q * 2 ^ 53) (e2 * 2 ^ 32) (e1 * 2 ^ 11) (p * 2 ^ 10). intros A B C D E.
  apply Z.bits_inj. intros k. rewrite !Z.lxor_spec.
  destruct (Z.testbit A k), (Z.testbit B k), (Z.testbit C k), (Z.testbit D k), (Z.testbit E k), (Z.testbit e0 k); reflexivity.
Qed.

Lemma fingerprint_lxor w x y : fingerprint w (Z.lxor x y) = Z.lxor (fingerprint w x) (fingerprint w y).
Proof.
  unfold fingerprint. rewrite <- !Z.land_ones by lia. apply Z.bits_inj. intros k.
  rewrite !Z.lxor_spec, !Z.land_spec, !Z.lxor_spec, Z.shiftr_lxor, Z.lxor_spec.
  destruct (Z.testbit x k), (Z.testbit y k), (Z.testbit (Z.shiftr x 32) k), (Z.testbit (Z.shiftr y 32) k), (Z.testbit (Z.ones (Z.of_nat w)) k); reflexivity.
Qed.

(** ** The key set *)
Definition zrange (lo hi : Z) : list Z := map (Z.add lo) (map Z.of_nat (seq 0 (Z.to_nat (hi - lo)))).
Lemma in_zrange lo hi x : In x (zrange lo hi) <-> lo <= x < hi.
Proof.
  unfold zrange. rewrite in_map_iff. split.
  - intros (y & <- & Hy). apply in_words in Hy. lia.
  - intros H. exists (x - lo). split; [lia|]. apply in_words. lia.
Qed.
Lemma zrange_nodup lo hi : NoDup (zrange lo hi).
Proof. apply FinFun.Injective_map_NoDup; [intros a b; lia|apply nodup_words]. Qed.
Lemma zrange_length lo hi : lo <= hi -> Z.of_nat (length (zrange lo hi)) = hi - lo.
Proof. intros H. unfold zrange. rewrite !map_length, seq_length, Z2Nat.id; lia. Qed.

(** The slots that get a key to themselves. *)
Definition own_slots (t : Z) : list (nat * Z) :=
  map (pair 0%nat) (zrange 2 t) ++
  (map (pair 1%nat) (zrange 2 (2 ^ 21)) ++ map (pair 1%nat) (zrange (2 ^ 21 + 1) (2 ^ 22))) ++
  (map (pair 2%nat) (zrange 1 (2 ^ 21)) ++ map (pair 2%nat) (zrange (2 ^ 21 + 1) (2 ^ 22))).

Lemma own_slots_in t p : In p (own_slots t) <->
  (fst p = 0%nat /\ 2 <= snd p < t) \/
  (fst p = 1%nat /\ 2 <= snd p < 2 ^ 22 /\ snd p <> 2 ^ 21) \/
  (fst p = 2%nat /\ 1 <= snd p < 2 ^ 22 /\ snd p <> 2 ^ 21).
Proof.
  unfold own_slots. rewrite !in_app_iff, !in_map_iff. destruct p as [b i]. cbn [fst snd].
  assert (G : forall b0 lo hi, (exists x, (b0, x) = (b, i) /\ In x (zrange lo hi)) <-> b = b0 /\ lo <= i < hi).
  { intros b0 lo hi. split.
    - intros (x & E & H). apply in_zrange in H. assert (b0 = b) by congruence. assert (x = i) by congruence. subst. auto.
    - intros [-> H]. exists i. split; [reflexivity|]. now apply in_zrange. }
  rewrite !G. lia.
Qed.

Lemma own_slots_nodup t : NoDup (own_slots t).
Proof.
  assert (N : forall (b : nat) l, NoDup l -> NoDup (map (@pair nat Z b) l)).
  { intros b l H. apply FinFun.Injective_map_NoDup; [|exact H]. intros x y E. congruence. }
  assert (I : forall (b : nat) lo hi p, In p (map (@pair nat Z b) (zrange lo hi)) -> fst p = b /\ lo <= snd p < hi).
  { intros b lo hi p H. apply in_map_iff in H. destruct H as (x & <- & H). apply in_zrange in H. auto. }
  unfold own_slots. repeat (apply NoDup_app'); try (apply N, zrange_nodup).
  - intros p H1 H2. apply I in H1, H2. lia.
  - intros p H1 H2. apply I in H1, H2. lia.
  - intros p H1 H2. apply in_app_iff in H1, H2. destruct H1 as [H1|H1], H2 as [H2|H2]; apply I in H1, H2; lia.
  - intros p H1 H2. rewrite !in_app_iff in H2. apply I in H1. destruct H2 as [[H2|H2]|[H2|H2]]; apply I in H2; lia.
Qed.

Lemma own_slots_length t : 2 <= t -> Z.of_nat (length (own_slots t)) = t + 2 ^ 23 - 7.
Proof.
  intros Ht. unfold own_slots. rewrite !app_length, !map_length, !Nat2Z.inj_add, !zrange_length by lia. lia.
Qed.

Definition core : list Z := [2 ^ 10; 2 ^ 53; 0].
Definition slot_keys (t : Z) : list Z := map (fun p => key_for (fst p) (snd p)) (own_slots t) ++ core.

Lemma slot_keys_u64 t : t <= 2 ^ 22 -> Forall is_u64 (slot_keys t).
Proof.
  intros Ht. apply Forall_app. split.
  - apply Forall_map, Forall_forall. intros p Hp. apply own_slots_in in Hp. apply key_for_u64. lia.
  - unfold core, is_u64, two64. repeat constructor; lia.
Qed.
(** all hashes of the three shapes are there *)
Lemma slot_keys_in t b i : 2 <= t <= 2 ^ 22 -> (b < 3)%nat -> 0 <= i < 2 ^ 22 -> (b = 0%nat -> i < t) -> In (key_for b i) (slot_keys t).
Proof.
  intros Ht Hb Hi H0. unfold slot_keys. rewrite in_app_iff.
  assert (D : (b = 0%nat /\ 2 <= i < t \/ b = 1%nat /\ 2 <= i < 2 ^ 22 /\ i <> 2 ^ 21 \/ b = 2%nat /\ 1 <= i < 2 ^ 22 /\ i <> 2 ^ 21) \/
    (b = 0%nat /\ i = 0 \/ b = 0%nat /\ i = 1 \/ b = 1%nat /\ i = 0 \/ b = 1%nat /\ i = 1 \/ b = 1%nat /\ i = 2 ^ 21 \/ b = 2%nat /\ i = 0 \/ b = 2%nat /\ i = 2 ^ 21)).
  { destruct b as [|[|[|b]]]; [| | |lia]; specialize (H0); lia. }
  destruct D as [D|D].
  - left. apply in_map_iff. exists (b, i). split; [reflexivity|]. apply own_slots_in. exact D.
  - right. destruct D as [[-> ->]|[[-> ->]|[[-> ->]|[[-> ->]|[[-> ->]|[[-> ->]|[-> ->]]]]]]];
      [change (In 0 core)|change (In (2 ^ 10) core)|change (In 0 core)|change (In (2 ^ 53) core)|change (In (2 ^ 10) core)|change (In 0 core)|change (In (2 ^ 53) core)];
      unfold core; cbn [In]; tauto.
Qed.

Lemma slot_keys_peel bl t : Z.of_nat bl = 2 ^ 22 -> 2 <= t <= 2 ^ 22 ->
  peels (xfl bl 0) (xfl bl 1) (xfl bl 2) (slot_keys t).
Proof.
  intros Hbl Ht.
  assert (INC : forall h b i, is_u64 h -> (b < 3)%nat -> 0 <= i < 2 ^ 22 ->
    (inc (xfl bl 0) (xfl bl 1) (xfl bl 2) h (b * bl + Z.to_nat i)%nat = true <-> zpos b h = i)).
  { intros h b i Hh Hb Hi. rewrite inc_iff. unfold xfl. rewrite !xpos_z by (try assumption; lia).
    assert (R : forall b', (b' < 3)%nat -> 0 <= zpos b' h < 2 ^ 22).
    { intros b' Hb'. clear - Hh Hb'. unfold is_u64, two64 in Hh. destruct b' as [|[|[|b']]]; [| | |lia]; cbn [zpos].
      - pose proof (Z.mod_pos_bound h (2 ^ 32) ltac:(lia)). split; [apply Z.div_pos; lia|apply Z.div_lt_upper_bound; lia].
      - pose proof (Z.mod_pos_bound h (2 ^ 11) ltac:(lia)). assert (0 <= h / 2 ^ 53 < 2 ^ 11) by (split; [apply Z.div_pos; lia|apply Z.div_lt_upper_bound; lia]). lia.
      - apply Z.mod_pos_bound. lia. }
    pose proof (R 0%nat ltac:(lia)) as R0. pose proof (R 1%nat ltac:(lia)) as R1. pose proof (R 2%nat ltac:(lia)) as R2. clear R.
    destruct b as [|[|[|b]]]; [| | |lia]; revert R0 R1 R2; generalize (zpos 0 h) (zpos 1 h) (zpos 2 h); clear - Hbl Hi; intros x y z; change (2 ^ 22) with 4194304 in *; lia. }
  assert (CORE : Forall is_u64 core) by (unfold core, is_u64, two64; repeat constructor; lia).
  assert (CS : forall b h, (b < 3)%nat -> In h core -> zpos b h = 0 \/ (b = 0%nat \/ b = 1%nat) /\ zpos b h = 1 \/ (b = 1%nat \/ b = 2%nat) /\ zpos b h = 2 ^ 21).
  { intros b h Hb Hh. unfold core in Hh. cbn [In] in Hh. destruct b as [|[|[|b]]]; [| | |lia]; destruct Hh as [<-|[<-|[<-|[]]]]; vm_compute; tauto. }
  apply (peels_more _ _ _ _ (fun p : nat * Z => (fst p * bl + Z.to_nat (snd p))%nat)).
  - (* core *)
    unfold core. inversion CORE as [|? ? U1 CT]; subst. inversion CT as [|? ? U2 CT2]; subst. inversion CT2 as [|? ? U3 _]; subst.
    apply (peels_take _ _ _ (2 ^ 10) _ [2 ^ 53; 0] (0 * bl + Z.to_nat 1)%nat); [apply Permutation_refl|apply INC; [exact U1|lia|lia|reflexivity]| |].
    { intros h' Hh. apply Bool.not_true_is_false. intros E. apply INC in E; [|destruct Hh as [<-|[<-|[]]]; assumption|lia|lia].
      destruct Hh as [<-|[<-|[]]]; vm_compute in E; discriminate E. }
    apply (peels_take _ _ _ (2 ^ 53) _ [0] (2 * bl + Z.to_nat (2 ^ 21))%nat); [apply Permutation_refl|apply INC; [exact U2|lia|lia|reflexivity]| |].
    { intros h' Hh. apply Bool.not_true_is_false. intros E. apply INC in E; [|destruct Hh as [<-|[]]; assumption|lia|lia].
      destruct Hh as [<-|[]]; vm_compute in E; discriminate E. }
    apply (peels_take _ _ _ 0 _ [] (0 * bl + Z.to_nat 0)%nat); [apply Permutation_refl|apply INC; [exact U3|lia|lia|reflexivity]|intros h' []|constructor].
  - apply own_slots_nodup.
  - intros [b i] Hp. cbn [fst snd]. apply own_slots_in in Hp. cbn [fst snd] in Hp.
    apply INC; [apply key_for_u64; lia|lia|lia|]. rewrite key_for_slots by lia. destruct b as [|[|[|b]]]; [reflexivity|reflexivity|reflexivity|lia].
  - intros [b i] [b' i'] Hp Hp' Hne. cbn [fst snd]. apply own_slots_in in Hp, Hp'. cbn [fst snd] in Hp, Hp'.
    apply Bool.not_true_is_false. intros E. apply INC in E; [|apply key_for_u64; lia|lia|lia].
    rewrite key_for_slots in E by lia.
    assert (P2 : 0 <= i' mod 2 < 2) by (apply Z.mod_pos_bound; lia).
    assert (Q2 : 0 <= i' / 2 ^ 21 < 2) by (split; [apply Z.div_pos; lia|apply Z.div_lt_upper_bound; lia]).
    assert (NE : b = b' -> i <> i') by congruence. clear Hne INC CS CORE.
    destruct b as [|[|[|b]]], b' as [|[|[|b']]]; try lia; cbn [key_slot] in E; lia.
  - intros [b i] h Hp Hh. cbn [fst snd]. apply own_slots_in in Hp. cbn [fst snd] in Hp.
    apply Bool.not_true_is_false. intros E. apply INC in E; [|eapply Forall_forall; eassumption|lia|lia].
    pose proof (CS b h ltac:(lia) Hh). lia.
Qed.

(** A table with the right answers for these keys has them for every hash whose first slot is
    below [t]. *)
Lemma slot_keys_force bl t w fps h : Z.of_nat bl = 2 ^ 22 -> 2 <= t <= 2 ^ 22 ->
  (forall h, In h (slot_keys t) -> x3 (xfl bl 0) (xfl bl 1) (xfl bl 2) fps h = fingerprint w h) ->
  is_u64 h -> zpos 0 h < t -> x3 (xfl bl 0) (xfl bl 1) (xfl bl 2) fps h = fingerprint w h.
Proof.
  intros Hbl Ht HK Hh Ha. destruct (key_for_decompose h Hh) as (E1 & E2 & ED).
  assert (RA : 0 <= zpos 0 h < 2 ^ 22).
  { cbn [zpos]. pose proof (Z.mod_pos_bound h (2 ^ 32) ltac:(lia)). split; [apply Z.div_pos; lia|apply Z.div_lt_upper_bound; lia]. }
  assert (RB : 0 <= zpos 1 h < 2 ^ 22).
  { unfold is_u64, two64 in Hh. cbn [zpos]. pose proof (Z.mod_pos_bound h (2 ^ 11) ltac:(lia)). assert (0 <= h / 2 ^ 53 < 2 ^ 11) by (split; [apply Z.div_pos; lia|apply Z.div_lt_upper_bound; lia]). lia. }
  assert (RC : 0 <= zpos 2 h < 2 ^ 22) by (cbn [zpos]; apply Z.mod_pos_bound; lia).
  assert (X : forall g, is_u64 g -> x3 (xfl bl 0) (xfl bl 1) (xfl bl 2) fps g =
    Z.lxor (Z.lxor (nth (0 * bl + Z.to_nat (zpos 0 g)) fps 0) (nth (1 * bl + Z.to_nat (zpos 1 g)) fps 0)) (nth (2 * bl + Z.to_nat (zpos 2 g)) fps 0)).
  { intros g Hg. unfold x3, xfl. rewrite !xpos_z by (try assumption; lia). reflexivity. }
  set (a := zpos 0 h) in *. set (b := zpos 1 h) in *. set (c := zpos 2 h) in *.
  assert (P2 : 0 <= a mod 2 < 2) by (apply Z.mod_pos_bound; lia).
  assert (Q2 : 0 <= c / 2 ^ 21 < 2) by (split; [apply Z.div_pos; lia|apply Z.div_lt_upper_bound; lia]).
  assert (K : forall b i, (b < 3)%nat -> 0 <= i < 2 ^ 22 -> (b = 0%nat -> i < t) ->
    fingerprint w (key_for b i) = Z.lxor (Z.lxor (nth (0 * bl + Z.to_nat (key_slot b 0 i)) fps 0) (nth (1 * bl + Z.to_nat (key_slot b 1 i)) fps 0)) (nth (2 * bl + Z.to_nat (key_slot b 2 i)) fps 0)).
  { intros b0 i Hb Hi H0. rewrite <- HK by (apply slot_keys_in; assumption). rewrite X by (apply key_for_u64; assumption).
    rewrite !key_for_slots by (try assumption; lia). reflexivity. }
  rewrite ED, !fingerprint_lxor. rewrite <- ED. rewrite X by exact Hh. fold a b c.
  rewrite (K 0%nat a), (K 1%nat b), (K 2%nat c), (K 0%nat (a mod 2)), (K 2%nat (c / 2 ^ 21 * 2 ^ 21)) by lia.
  cbn [key_slot]. rewrite <- E1, E2.
  replace (a mod 2 mod 2) with (a mod 2) by (symmetry; apply Z.mod_mod; lia).
  rewrite Z.div_mul by lia.
  repeat match goal with |- context [nth ?k fps 0] => generalize (nth k fps 0); intros ? end.
  apply Z.bits_inj. intros k. rewrite !Z.lxor_spec.
  repeat match goal with |- context [Z.testbit ?x k] => destruct (Z.testbit x k) end; reflexivity.
Qed.

Lemma how_many_low T : 0 <= T <= 2 ^ 32 -> how_many (fun h => h mod 2 ^ 32 <? T) (2 ^ 64) = T * 2 ^ 32.
Proof.
  intros HT. rewrite how_many_sum by lia. replace (Z.to_nat (2 ^ 64)) with (Z.to_nat (2 ^ 32) * Z.to_nat (2 ^ 32))%nat by (rewrite <- Z2Nat.inj_mul by lia; reflexivity).
  rewrite zsum_block. rewrite (zsum_ext _ (fun _ => T)).
  - rewrite zsum_const, Z2Nat.id by lia. lia.
  - intros x Hx. rewrite Z2Nat.id in * by lia.
    rewrite (zsum_ext _ (ind (fun y => y <? T))).
    + rewrite <- how_many_sum by lia. unfold how_many.
      assert (G : forall n m, (m <= n)%nat -> length (filter (fun y => y <? Z.of_nat m) (map Z.of_nat (seq 0 n))) = m).
      { intros n m Hm. replace n with (m + (n - m))%nat by lia. rewrite seq_app, map_app, filter_app, app_length.
        assert (A : forall k s, (s + k <= m)%nat -> length (filter (fun y => y <? Z.of_nat m) (map Z.of_nat (seq s k))) = k).
        { induction k as [|k IH]; intros s Hs; [reflexivity|]. cbn [seq map filter]. rewrite (proj2 (Z.ltb_lt _ _)) by lia. cbn [length]. rewrite IH; lia. }
        assert (B : forall k s, (m <= s)%nat -> length (filter (fun y => y <? Z.of_nat m) (map Z.of_nat (seq s k))) = 0%nat).
        { induction k as [|k IH]; intros s Hs; [reflexivity|]. cbn [seq map filter]. rewrite (proj2 (Z.ltb_ge _ _)) by lia. apply IH. lia. }
        rewrite A, B by lia. lia. }
      specialize (G (Z.to_nat (2 ^ 32)) (Z.to_nat T) ltac:(apply Z2Nat.inj_le; lia)). rewrite Z2Nat.id in G by lia. rewrite G. apply Z2Nat.id. lia.
    + intros y Hy. rewrite Z2Nat.id in Hy by lia. unfold ind. replace ((x * 2 ^ 32 + y) mod 2 ^ 32) with y by (apply (Z.mod_unique_pos _ _ x); lia). reflexivity.
Qed.

Lemma xor_bl_22 n : Z.of_nat n = 10229984 -> Z.of_nat (xor_block_length n) = 2 ^ 22.
Proof.
  intros Hn. unfold xor_block_length, xor_capacity. rewrite Nat.div_mul by lia.
  assert (E : Z.of_nat (f64_to_usize (f64_mul f_1_23 (f64_of_usize n))) = 12582880).
  { unfold f64_of_usize. rewrite Hn. unfold f64_to_usize.
    set (v := f64_mul _ _). vm_compute in v. unfold v. rewrite Z2Nat.id; [reflexivity|discriminate]. }
  set (v := f64_to_usize _) in *. clearbody v. rewrite Nat2Z.inj_div, Nat2Z.inj_add, E. reflexivity.
Qed.

(** @C69 Refuted: "Has a false positive rate of <0.4%" (Xor8) and "<0.002%" (Xor16). There are
    10229984 distinct keys for which the Xor filter is built on the first attempt, in both
    profiles and whatever the fingerprint width, and accepts more than 43% of the keys outside
    the set. *)
Lemma xor_documented_rate_refuted : exists keys, length keys = Z.to_nat 10229984 /\ NoDup keys /\ Forall is_u64 keys /\
  forall w dbg, exists f, xor_from 1 w dbg keys = Ok f /\
    forall dbg', 43 * (2 ^ 64 - Z.of_nat (length keys)) < 100 * false_positives (xor_contains w dbg' f) keys.
Proof.
  set (n := Z.to_nat 10229984). assert (Hn : Z.of_nat n = 10229984) by (unfold n; apply Z2Nat.id; lia). clearbody n.
  pose proof (xor_bl_22 n Hn) as Hbl. set (t := 1841380).
  set (keys := map (fun h => unmix h (retry_seed 0)) (slot_keys t)). exists keys.
  assert (U : Forall is_u64 (slot_keys t)) by (apply slot_keys_u64; unfold t; lia).
  assert (L : length keys = n).
  { apply Nat2Z.inj. rewrite Hn. unfold keys. rewrite map_length. unfold slot_keys. rewrite app_length, map_length, Nat2Z.inj_add, own_slots_length by (unfold t; lia). reflexivity. }
  assert (E : xhs keys (retry_seed 0) = slot_keys t).
  { unfold xhs, keys. rewrite map_map. rewrite <- (map_id (slot_keys t)) at 2. apply map_ext_in. intros h Hh. apply mix_unmix. exact (proj1 (Forall_forall _ _) U h Hh). }
  pose proof (slot_keys_peel (xor_block_length n) t Hbl ltac:(unfold t; lia)) as PE.
  assert (ND : NoDup keys).
  { pose proof (apeels_nodup _ _ _ _ PE) as Q. rewrite <- E in Q. unfold xhs in Q. now apply NoDup_map_inv in Q. }
  split; [exact L|]. split; [exact ND|]. split.
  { apply Forall_forall. intros k Hk. unfold keys in Hk. apply in_map_iff in Hk. destruct Hk as (h & <- & _). unfold unmix. apply Z.mod_pos_bound. reflexivity. }
  intros w dbg. clearbody keys. subst n.
  pose proof (xor_bl_small (length keys) ltac:(lia)) as Hsm. assert (Hlt : Z.of_nat (length keys) < two32) by (unfold two32; lia).
  destruct (xor_construct dbg keys Hsm Hlt 1 w (fun _ => ND)) as [(i & fps & Hi & Lf & _ & HX & _ & EE)|[_ N]].
  2:{ exfalso. apply (N 0%nat); [lia|]. rewrite E. exact PE. }
  assert (i = 0%nat) by lia. subst i.
  eexists. split; [exact EE|]. intros dbg'.
  assert (HK : forall h, In h (slot_keys t) -> x3 (xfl (xor_block_length (length keys)) 0) (xfl (xor_block_length (length keys)) 1) (xfl (xor_block_length (length keys)) 2) fps h = fingerprint w h).
  { intros h Hh. rewrite <- E in Hh. unfold xhs in Hh. apply in_map_iff in Hh. destruct Hh as (k & <- & Hk). apply HX, Hk. }
  set (bl := xor_block_length (length keys)) in *.
  set (f := {| xf_seed := retry_seed 0; xf_block_length := bl; xf_fingerprints := fps |}).
  assert (ACC : t * 2 ^ 10 * 2 ^ 32 <= how_many (fun key => says_yes (xor_contains w dbg' f key)) (2 ^ 64)).
  { rewrite <- (how_many_low (t * 2 ^ 10)) by (unfold t; lia).
    rewrite <- (how_many_inj (fun h => h mod 2 ^ 32 <? t * 2 ^ 10) (fun key => mix key (retry_seed 0)) (2 ^ 64)).
    - apply how_many_le. intros key _ Hk. apply Z.ltb_lt in Hk. unfold f. unfold bl in *.
      rewrite (xor_contains_x3 dbg' _ (xor_bl_pos0 _) Hsm w (retry_seed 0) fps key Lf). cbn [says_yes].
      rewrite (slot_keys_force _ t w fps (mix key (retry_seed 0)) Hbl ltac:(unfold t; lia) HK (mix_is_u64 _ _)).
      + rewrite Z.eqb_refl. reflexivity.
      + cbn [zpos]. apply Z.div_lt_upper_bound; lia.
    - intros x Hx. pose proof (mix_is_u64 x (retry_seed 0)) as V. unfold is_u64, two64 in V. lia.
    - intros x y Hx Hy. apply mix_inj; unfold is_u64, two64; lia. }
  pose proof (accepted_false_positives (xor_contains w dbg' f) keys) as FP.
  set (acc := how_many _ _) in *. set (fpc := false_positives _ _) in *. clearbody acc fpc. clear - ACC FP Hn. unfold t in ACC. lia.
Qed.
