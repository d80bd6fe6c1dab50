(** The 64-bit mixers are bijections. *)
From Verif Require Import Base Hash Xorf Base_facts.
Local Open Scope Z_scope.

Definition xs (s x : Z) : Z := Z.lxor x (Z.shiftr x s).
Definition unxs (s x : Z) : Z := xs (2 * s) (xs s x).

Lemma xs_u64 s x : 0 <= s -> is_u64 x -> is_u64 (xs s x).
Proof.
  intros Hs [H0 H1]. unfold is_u64, xs. rewrite two64_eq in *.
  assert (N : 0 <= Z.shiftr x s) by (apply Z.shiftr_nonneg; auto).
  assert (B : Z.shiftr x s < 2 ^ 64).
  { rewrite Z.shiftr_div_pow2 by auto. apply Z.le_lt_trans with x; auto.
    apply Z.div_le_upper_bound; [apply Z.pow_pos_nonneg; lia|].
    assert (1 <= 2 ^ s) by (pose proof (Z.pow_pos_nonneg 2 s); lia). nia. }
  split; [apply Z.lxor_nonneg; tauto|].
  destruct (Z.eq_dec (Z.lxor x (Z.shiftr x s)) 0) as [->|NZ]; [lia|].
  apply Z.log2_lt_pow2; [pose proof (proj2 (Z.lxor_nonneg x (Z.shiftr x s))); lia|].
  eapply Z.le_lt_trans; [apply Z.log2_lxor; auto|].
  apply Z.max_lub_lt.
  - destruct (Z.eq_dec x 0) as [->|]; [cbn; lia|]. apply Z.log2_lt_pow2; lia.
  - destruct (Z.eq_dec (Z.shiftr x s) 0) as [->|]; [cbn; lia|]. apply Z.log2_lt_pow2; lia.
Qed.

Lemma xs_twice s x : 0 <= s -> xs s (xs s x) = xs (2 * s) x.
Proof.
  intros Hs. unfold xs. rewrite Z.shiftr_lxor, Z.shiftr_shiftr by auto.
  replace (s + s) with (2 * s) by ring.
  set (a := Z.shiftr x s). rewrite !Z.lxor_assoc. f_equal.
  rewrite <- Z.lxor_assoc, Z.lxor_nilpotent. apply Z.lxor_0_l.
Qed.

Lemma xs_comm s t x : 0 <= s -> 0 <= t -> xs s (xs t x) = xs t (xs s x).
Proof.
  intros Hs Ht. unfold xs. rewrite !Z.shiftr_lxor, !Z.shiftr_shiftr by auto.
  rewrite (Z.add_comm s t). apply Z.bits_inj'. intros n Hn. rewrite !Z.lxor_spec.
  destruct (Z.testbit x n), (Z.testbit (Z.shiftr x t) n), (Z.testbit (Z.shiftr x s) n),
    (Z.testbit (Z.shiftr x (t + s)) n); reflexivity.
Qed.

Lemma xs_high s x : is_u64 x -> 64 <= s -> xs s x = x.
Proof.
  intros [H0 H1] Hs. unfold xs. rewrite Z.shiftr_div_pow2 by lia.
  rewrite Z.div_small; [apply Z.lxor_0_r|]. split; auto. rewrite two64_eq in H1.
  apply Z.lt_le_trans with (2 ^ 64); auto. apply Z.pow_le_mono_r; lia.
Qed.

Lemma unxs_xs s x : 16 <= s -> is_u64 x -> unxs s (xs s x) = x.
Proof.
  intros Hs Hx. unfold unxs. rewrite xs_twice by lia. rewrite xs_twice by lia.
  apply xs_high; auto. lia.
Qed.
Lemma xs_unxs s x : 16 <= s -> is_u64 x -> xs s (unxs s x) = x.
Proof.
  intros Hs Hx. unfold unxs. rewrite xs_comm by lia. apply unxs_xs; auto.
Qed.
Lemma unxs_u64 s x : 0 <= s -> is_u64 x -> is_u64 (unxs s x).
Proof. intros. unfold unxs. apply xs_u64; [lia|]. apply xs_u64; auto. Qed.

Lemma wmul_inv c d x : (c * d) mod two64 = 1 -> is_u64 x -> wmul64 (wmul64 x c) d = x.
Proof.
  intros E Hx. unfold wmul64. rewrite Z.mul_mod_idemp_l by (unfold two64; lia).
  rewrite <- Z.mul_assoc, <- Z.mul_mod_idemp_r, E by (unfold two64; lia).
  rewrite Z.mul_1_r. apply Z.mod_small. exact Hx.
Qed.
Lemma wmul_u64 x c : is_u64 (wmul64 x c).
Proof. apply is_u64_mod. Qed.

(** ** mix64 *)
Lemma mix64_eq k : mix64 k = xs 33 (wmul64 (xs 33 (wmul64 (xs 33 k) 0xff51afd7ed558ccd)) 0xc4ceb9fe1a85ec53).
Proof. reflexivity. Qed.
Definition unmix64 (k : Z) : Z :=
  unxs 33 (wmul64 (unxs 33 (wmul64 (unxs 33 k) 0x9cb4b2f8129337db)) 0x4f74430c22a54005).

Lemma mix64_is_u64 k : is_u64 (mix64 k).
Proof. rewrite mix64_eq. apply xs_u64; [lia|]. apply wmul_u64. Qed.
Lemma unmix64_is_u64 k : is_u64 (unmix64 k).
Proof. unfold unmix64. apply unxs_u64; [lia|]. apply wmul_u64. Qed.

Lemma unmix64_mix64 k : is_u64 k -> unmix64 (mix64 k) = k.
Proof.
  intros Hk. rewrite mix64_eq. unfold unmix64.
  rewrite unxs_xs by (try lia; apply wmul_u64).
  rewrite wmul_inv by first [reflexivity|apply xs_u64; [lia|apply wmul_u64]].
  rewrite unxs_xs by (try lia; apply wmul_u64).
  rewrite wmul_inv by first [reflexivity|apply xs_u64; [lia|auto]].
  apply unxs_xs; [lia|auto].
Qed.
Lemma mix64_unmix64 k : is_u64 k -> mix64 (unmix64 k) = k.
Proof.
  intros Hk. rewrite mix64_eq. unfold unmix64.
  rewrite xs_unxs by (try lia; apply wmul_u64).
  rewrite wmul_inv by first [reflexivity|apply unxs_u64; [lia|apply wmul_u64]].
  rewrite xs_unxs by (try lia; apply wmul_u64).
  rewrite wmul_inv by first [reflexivity|apply unxs_u64; [lia|auto]].
  apply xs_unxs; [lia|auto].
Qed.

Lemma wadd_inv_l a b : is_u64 a -> wadd64 (wadd64 a b) (- b) = a.
Proof.
  intros Ha. unfold wadd64. rewrite Z.add_mod_idemp_l by (unfold two64; lia).
  replace (a + b + - b) with a by ring. apply Z.mod_small. exact Ha.
Qed.

Definition unmix (h seed : Z) : Z := wadd64 (unmix64 h) (- seed).
Lemma mix_is_u64 k s : is_u64 (mix k s). Proof. apply mix64_is_u64. Qed.
Lemma unmix_mix k s : is_u64 k -> unmix (mix k s) s = k.
Proof.
  intros Hk. unfold unmix, mix. rewrite unmix64_mix64 by apply is_u64_mod. apply wadd_inv_l; auto.
Qed.
Lemma mix_unmix h s : is_u64 h -> mix (unmix h s) s = h.
Proof.
  intros Hh. unfold unmix, mix.
  replace (wadd64 (wadd64 (unmix64 h) (- s)) s) with (unmix64 h).
  - apply mix64_unmix64; auto.
  - symmetry. replace s with (- - s) at 2 by ring. apply wadd_inv_l. apply unmix64_is_u64.
Qed.
Lemma mix_inj s a b : is_u64 a -> is_u64 b -> mix a s = mix b s -> a = b.
Proof. intros Ha Hb E. rewrite <- (unmix_mix a s), <- (unmix_mix b s), E; auto. Qed.

Lemma mix_nodup keys s : Forall is_u64 keys -> NoDup keys -> NoDup (map (fun k => mix k s) keys).
Proof.
  intros HF ND. induction ND as [|k keys N ND IH]; [constructor|].
  apply Forall_cons_iff in HF. destruct HF as [Hk HF]. cbn [map]. constructor; auto.
  rewrite in_map_iff. intros (k' & E & Hin). apply N. rewrite Forall_forall in HF.
  apply mix_inj in E; auto. now subst.
Qed.

(** ** splitmix64 *)
Definition sm_step : Z := 0x9e3779b97f4a7c15.
Definition sm_out (z : Z) : Z :=
  xs 31 (wmul64 (xs 27 (wmul64 (xs 30 z) 0xbf58476d1ce4e5b9)) 0x94d049bb133111eb).
Definition sm_unout (y : Z) : Z :=
  unxs 30 (wmul64 (unxs 27 (wmul64 (unxs 31 y) 0x319642b2d24d8ec3)) 0x96de1b173f119089).
Lemma splitmix64_eq r : splitmix64 r = (wadd64 r sm_step, sm_out (wadd64 r sm_step)).
Proof. reflexivity. Qed.
Lemma sm_unout_out z : is_u64 z -> sm_unout (sm_out z) = z.
Proof.
  intros Hk. unfold sm_out, sm_unout.
  rewrite unxs_xs by (try lia; apply wmul_u64).
  rewrite wmul_inv by first [reflexivity|apply xs_u64; [lia|apply wmul_u64]].
  rewrite unxs_xs by (try lia; apply wmul_u64).
  rewrite wmul_inv by first [reflexivity|apply xs_u64; [lia|auto]].
  apply unxs_xs; [lia|auto].
Qed.
Lemma sm_out_unout z : is_u64 z -> sm_out (sm_unout z) = z.
Proof.
  intros Hk. unfold sm_out, sm_unout.
  rewrite xs_unxs by (try lia; apply wmul_u64).
  rewrite wmul_inv by first [reflexivity|apply unxs_u64; [lia|apply wmul_u64]].
  rewrite xs_unxs by (try lia; apply wmul_u64).
  rewrite wmul_inv by first [reflexivity|apply unxs_u64; [lia|auto]].
  apply xs_unxs; [lia|auto].
Qed.
Lemma sm_out_u64 z : is_u64 (sm_out z).
Proof. apply xs_u64; [lia|apply wmul_u64]. Qed.
Lemma sm_unout_u64 z : is_u64 (sm_unout z).
Proof. apply unxs_u64; [lia|apply wmul_u64]. Qed.

(** ** The hash of one word of a 256-bit key, as a function of the seed *)

Lemma mix64_inj a b : is_u64 a -> is_u64 b -> mix64 a = mix64 b -> a = b.
Proof.
  intros Ha Hb E. apply (mix_inj 0 a b Ha Hb). unfold mix, wadd64. rewrite !Z.add_0_r, !Z.mod_small by assumption. exact E.
Qed.

Lemma mix_seed_inj k a b : is_u64 a -> is_u64 b -> mix k a = mix k b -> a = b.
Proof.
  intros Ha Hb. unfold mix, wadd64. rewrite (Z.add_comm k a), (Z.add_comm k b). apply (mix_inj k a b Ha Hb).
Qed.

Lemma wadd64_inj_l c a b : is_u64 a -> is_u64 b -> wadd64 a c = wadd64 b c -> a = b.
Proof.
  unfold is_u64, wadd64. intros Ha Hb E.
  rewrite <- (Z.mod_small a two64), <- (Z.mod_small b two64) by assumption.
  replace a with (a + c - c) by ring. replace b with (b + c - c) by ring.
  rewrite Zminus_mod, E, <- Zminus_mod. reflexivity.
Qed.

Lemma Forall_firstn' n (l : list Z) : Forall is_u8 l -> Forall is_u8 (firstn n l).
Proof. intros H. apply Forall_forall. intros x Hx. rewrite Forall_forall in H. apply H. rewrite <- (firstn_skipn n l). apply in_or_app. now left. Qed.
Lemma Forall_skipn' n (l : list Z) : Forall is_u8 l -> Forall is_u8 (skipn n l).
Proof. intros H. apply Forall_forall. intros x Hx. rewrite Forall_forall in H. apply H. rewrite <- (firstn_skipn n l). apply in_or_app. now right. Qed.

Lemma skipn_twice (a b : nat) (l : list Z) : skipn a (skipn b l) = skipn (a + b) l.
Proof.
  revert l. induction b as [|b IH]; intros l; [now rewrite Nat.add_0_r|].
  destruct l as [|x l]; [now rewrite !skipn_nil|]. rewrite Nat.add_succ_r. cbn [skipn]. apply IH.
Qed.

Definition absorb (k mixed s : Z) : Z := mix64 (wadd64 mixed (mix k s)).
Lemma absorb_inj_l k post : forall a b, is_u64 a -> is_u64 b ->
  fold_left (absorb k) post a = fold_left (absorb k) post b -> a = b.
Proof.
  induction post as [|s t IH]; intros a b Ha Hb E; [exact E|]. cbn [fold_left] in E.
  apply IH in E; [|apply mix64_is_u64|apply mix64_is_u64]. unfold absorb in E.
  apply mix64_inj in E; [|apply is_u64_mod|apply is_u64_mod]. now apply wadd64_inj_l in E.
Qed.

Lemma absorb_inj k post m a b : is_u64 a -> is_u64 b ->
  fold_left (absorb k) post (absorb k m a) = fold_left (absorb k) post (absorb k m b) -> a = b.
Proof.
  intros Ha Hb E. apply absorb_inj_l in E; [|apply mix64_is_u64|apply mix64_is_u64]. unfold absorb in E.
  apply mix64_inj in E; [|apply is_u64_mod|apply is_u64_mod].
  unfold wadd64 in E. rewrite (Z.add_comm m), (Z.add_comm m) in E. apply wadd64_inj_l in E; [|apply mix_is_u64|apply mix_is_u64].
  now apply mix_seed_inj in E.
Qed.

Lemma word_u64 l : Forall is_u8 l -> (length l <= 8)%nat -> is_u64 (of_le_bytes l).
Proof.
  intros H L. pose proof (of_le_bytes_range l H) as [A B]. split; [exact A|]. rewrite two64_eq.
  eapply Z.lt_le_trans; [exact B|]. change (2 ^ 64) with (256 ^ 8). apply Z.pow_le_mono_r; lia.
Qed.

Lemma le_inj a b : Forall is_u8 a -> Forall is_u8 b -> length a = length b -> of_le_bytes a = of_le_bytes b -> a = b.
Proof. intros Ha Hb L E. rewrite <- (le_of_le_bytes a Ha), <- (le_of_le_bytes b Hb), E, L. reflexivity. Qed.

Lemma mix_word_fold seeds k : mix_word seeds k = fold_left (absorb k) seeds 0.
Proof. reflexivity. Qed.

Lemma four_words k (f g : nat -> Z) i : (forall j, is_u64 (f j)) -> (forall j, is_u64 (g j)) -> (i < 4)%nat ->
  (forall j, (j < 4)%nat -> j <> i -> f j = g j) ->
  mix_word (map f (seq 0 4)) k = mix_word (map g (seq 0 4)) k -> f i = g i.
Proof.
  intros Uf Ug Hi Same E. rewrite !mix_word_fold in E.
  replace (seq 0 4) with (seq 0 i ++ i :: seq (S i) (3 - i)) in E
    by (destruct i as [|[|[|[|i]]]]; try reflexivity; exfalso; clear - Hi; lia).
  rewrite !map_app, !fold_left_app in E. cbn [map fold_left] in E.
  rewrite (map_ext_in f g (seq 0 i)), (map_ext_in f g (seq (S i) (3 - i))) in E.
  - apply absorb_inj in E; auto.
  - intros j Hj. apply in_seq in Hj. apply Same; lia.
  - intros j Hj. apply in_seq in Hj. apply Same; lia.
Qed.

