(** Lemmas about Mat.v and Lwe.v. *)
From Verif Require Import Base Base_facts Mat Lwe Spec.
From Coq Require Import ZifyBool ZifyNat.
Local Open Scope Z_scope.
Ltac Zify.zify_post_hook ::= Z.div_mod_to_equations.

Lemma two32_pos : 0 < two32. Proof. reflexivity. Qed.

(** ** dot *)
Lemma dot_nil_r a : dot a [] = 0. Proof. now destruct a. Qed.
Lemma dot_app a1 a2 b1 b2 :
  length a1 = length b1 -> dot (a1 ++ a2) (b1 ++ b2) = dot a1 b1 + dot a2 b2.
Proof.
  revert b1; induction a1 as [|x a1 IH]; intros [|y b1] H; try discriminate; auto.
  cbn [app dot]. rewrite IH by (simpl in H; lia). lia.
Qed.

Lemma dot_comm a b : dot a b = dot b a.
Proof. revert b; induction a as [|x a IH]; intros [|y b]; auto. cbn [dot]. rewrite IH. lia. Qed.

Lemma dot_cong a b c d :
  length a = length c -> length b = length d ->
  (forall i, (i < length a)%nat -> nth i a 0 mod two32 = nth i c 0 mod two32) ->
  (forall i, (i < length b)%nat -> nth i b 0 mod two32 = nth i d 0 mod two32) ->
  dot a b mod two32 = dot c d mod two32.
Proof.
  revert b c d; induction a as [|x a IH]; intros [|y b] [|z c] [|w d] H1 H2 H3 H4;
    try discriminate; auto.
  cbn [dot]. rewrite (Zplus_mod (x * y)), (Zplus_mod (z * w)).
  rewrite (IH b c d).
  - do 2 f_equal. rewrite (Zmult_mod x y), (Zmult_mod z w).
    pose proof (H3 0%nat ltac:(simpl; lia)) as E3. pose proof (H4 0%nat ltac:(simpl; lia)) as E4.
    cbn [nth] in E3, E4. now rewrite E3, E4.
  - simpl in *; lia.
  - simpl in *; lia.
  - intros i Hi. apply (H3 (S i)). simpl; lia.
  - intros i Hi. apply (H4 (S i)). simpl; lia.
Qed.

Lemma dot_map_add (f g : nat -> Z) n b :
  length b = n ->
  dot (map (fun i => f i + g i) (seq 0 n)) b = dot (map f (seq 0 n)) b + dot (map g (seq 0 n)) b.
Proof.
  intros <-. induction b as [|y b IH] using rev_ind; auto.
  rewrite app_length. simpl length. rewrite Nat.add_1_r, seq_S', !map_app.
  rewrite !dot_app by (now rewrite map_length, seq_length). rewrite IH. simpl. lia.
Qed.

Lemma vec_mult_closed row col :
  vec_mult_u32_u32 row col =
  if (length row =? length col)%nat then Ok (dot row col mod two32) else Err EInputSize.
Proof.
  unfold vec_mult_u32_u32. destruct (Nat.eqb_spec (length row) (length col)) as [H|H]; auto.
  cbn [negb].
  enough (E : forall k, (k <= length row)%nat ->
     foldM (fun acc i => let* r := idx row i in let* c := idx col i in
                         Ok (wadd32 acc (wmul32 r c))) (seq 0 k) 0
     = Ok (dot (firstn k row) (firstn k col) mod two32)).
  { rewrite E by lia. rewrite firstn_all, H, firstn_all. reflexivity. }
  induction k as [|k IH]; intros Hk; [reflexivity|].
  rewrite seq_S', foldM_app, IH by lia. cbn [bind foldM Nat.add].
  rewrite (idx_nth row k 0), (idx_nth col k 0) by lia. cbn [bind]. f_equal.
  assert (Hf : forall l : list Z, (k < length l)%nat -> firstn (S k) l = firstn k l ++ [nth k l 0]).
  { clear. intros l. revert k. induction l as [|x l IH]; intros [|k] H; simpl in *; try lia; auto.
    f_equal. apply IH. lia. }
  rewrite !Hf by lia. rewrite dot_app by (rewrite !firstn_length; lia).
  unfold wadd32, wmul32. cbn [dot]. rewrite Z.add_0_r.
  rewrite <- Zplus_mod. reflexivity.
Qed.

(** ** Transposition *)
Definition transpose (M : list (list Z)) (w : nat) : list (list Z) :=
  map (fun j => map (fun r => nth j r 0) M) (seq 0 w).

Lemma swap_push_ok width acc row :
  length acc = width -> (width <= length row)%nat ->
  swap_push width acc row = Ok (map (fun i => nth i acc [] ++ [nth i row 0]) (seq 0 width)).
Proof.
  intros Ha Hr. unfold swap_push.
  enough (E : forall k, (k <= width)%nat ->
    foldM (fun sw i => let* x := idx row i in let* r := idx sw i in set sw i (r ++ [x]))
      (seq 0 k) acc
    = Ok (map (fun i => if (i <? k)%nat then nth i acc [] ++ [nth i row 0] else nth i acc [])
              (seq 0 width))).
  { rewrite E by lia. f_equal. apply map_ext_in. intros i Hi. apply in_seq in Hi.
    destruct (Nat.ltb_spec i width); auto. lia. }
  induction k as [|k IH]; intros Hk.
  - simpl. f_equal. rewrite <- Ha. symmetry. apply map_nth_seq.
  - rewrite seq_S', foldM_app, IH by lia. cbn [bind foldM Nat.add].
    rewrite (idx_nth row k 0) by lia. cbn [bind].
    rewrite (idx_nth _ k []) by (rewrite map_length, seq_length; lia). cbn [bind].
    rewrite nth_map_seq by lia. destruct (Nat.ltb_spec k k); [lia|].
    rewrite set_lt by (rewrite map_length, seq_length; lia). cbn [bind]. f_equal.
    apply (list_eq_nth _ _ []).
    + now rewrite length_upd, !map_length, !seq_length.
    + intros i Hi. rewrite length_upd, map_length, seq_length in Hi.
      rewrite nth_upd by (rewrite map_length, seq_length; lia).
      rewrite !nth_map_seq by lia.
      destruct (Nat.eqb_spec i k) as [->|Hne].
      * destruct (Nat.ltb_spec k (S k)); [reflexivity|lia].
      * destruct (Nat.ltb_spec i k), (Nat.ltb_spec i (S k)); auto; lia.
Qed.

Lemma swap_push_panic width acc row :
  length acc = width -> (length row < width)%nat -> swap_push width acc row = Panic.
Proof.
  intros Ha Hr. unfold swap_push.
  replace width with (length row + S (width - length row - 1))%nat by lia.
  rewrite seq_app, foldM_app.
  pose proof (swap_push_ok (length row) (firstn (length row) acc) row) as _.
  assert (E : forall k, (k <= length row)%nat -> exists acc',
    foldM (fun sw i => let* x := idx row i in let* r := idx sw i in set sw i (r ++ [x]))
      (seq 0 k) acc = Ok acc' /\ length acc' = width).
  { induction k as [|k IH]; intros Hk; [exists acc; auto|].
    destruct IH as (acc' & E & L); [lia|].
    rewrite seq_S', foldM_app, E. cbn [bind foldM Nat.add].
    rewrite (idx_nth row k 0), (idx_nth acc' k []) by lia. cbn [bind].
    rewrite set_lt by lia. cbn [bind]. eexists; split; [reflexivity|].
    now rewrite length_upd. }
  destruct (E (length row)) as (acc' & -> & L); [lia|].
  cbn [bind seq foldM Nat.add]. rewrite idx_oob by lia. reflexivity.
Qed.

Lemma swap_fold width M acc :
  length acc = width -> Forall (fun r => (width <= length r)%nat) M ->
  foldM (swap_push width) M acc
  = Ok (map (fun j => nth j acc [] ++ map (fun r => nth j r 0) M) (seq 0 width)).
Proof.
  intros Ha HM; revert acc Ha. induction HM as [|r M Hr _ IH]; intros acc Ha.
  - simpl. f_equal. rewrite <- (map_nth_seq acc []), Ha at 1. apply map_ext.
    intros; now rewrite app_nil_r.
  - cbn [foldM]. rewrite swap_push_ok by auto. cbn [bind].
    rewrite IH by (now rewrite map_length, seq_length). f_equal.
    apply map_ext_in. intros j Hj. apply in_seq in Hj. rewrite nth_map_seq by lia.
    rewrite <- app_assoc. reflexivity.
Qed.

Lemma swap_fold_panic width M acc :
  length acc = width -> Exists (fun r => (length r < width)%nat) M ->
  foldM (swap_push width) M acc = Panic.
Proof.
  intros Ha HM; revert acc Ha. induction HM as [r M Hr|r M _ IH]; intros acc Ha; cbn [foldM].
  - now rewrite swap_push_panic.
  - destruct (Nat.lt_ge_cases (length r) width).
    + now rewrite swap_push_panic.
    + rewrite swap_push_ok by auto. cbn [bind]. apply IH. now rewrite map_length, seq_length.
Qed.

Lemma nth_repeat_nil {A} i n : nth i (repeat (@nil A) n) [] = [].
Proof.
  destruct (nth_in_or_default i (repeat (@nil A) n) []) as [H|H]; auto.
  now apply repeat_spec in H.
Qed.

Lemma swap_matrix_ok r0 M :
  Forall (fun r => (length r0 <= length r)%nat) M ->
  swap_matrix_fmt (r0 :: M) = Ok (transpose (r0 :: M) (length r0)).
Proof.
  intros H. unfold swap_matrix_fmt. cbn [idx nth_error bind]. unfold idx; cbn [nth_error bind].
  rewrite swap_fold; [|apply repeat_length|constructor; auto].
  f_equal. unfold transpose. apply map_ext_in. intros j _. now rewrite nth_repeat_nil.
Qed.

Lemma swap_matrix_short r0 M :
  Exists (fun r => (length r < length r0)%nat) M -> swap_matrix_fmt (r0 :: M) = Panic.
Proof.
  intros H. unfold swap_matrix_fmt, idx; cbn [nth_error bind].
  apply swap_fold_panic; [apply repeat_length|now apply Exists_cons_tl].
Qed.

Lemma swap_matrix_nil : swap_matrix_fmt [] = Panic. Proof. reflexivity. Qed.

Lemma shape_nth M h w i : shape M h w -> (i < h)%nat -> length (nth i M []) = w.
Proof.
  intros [Hl HF] Hi. rewrite Forall_forall in HF. apply HF. apply nth_In. lia.
Qed.

Lemma transpose_shape M w : shape (transpose M w) w (length M).
Proof.
  unfold transpose, shape. rewrite map_length, seq_length. split; auto.
  apply Forall_map, Forall_forall. intros; now rewrite map_length.
Qed.

Lemma transpose_at M w i j :
  (i < length M)%nat -> (j < w)%nat -> mat_at (transpose M w) j i = mat_at M i j.
Proof.
  intros Hi Hj. unfold mat_at, transpose. rewrite nth_map_seq by auto.
  now rewrite (nth_map' _ _ _ _ []) by auto.
Qed.

Lemma mat_ext M N h w :
  shape M h w -> shape N h w ->
  (forall i j, (i < h)%nat -> (j < w)%nat -> mat_at M i j = mat_at N i j) -> M = N.
Proof.
  intros HM HN H. apply (list_eq_nth _ _ []).
  - destruct HM, HN; congruence.
  - intros i Hi. destruct HM as [HMl HMF] eqn:EM. rewrite HMl in Hi.
    apply (list_eq_nth _ _ 0).
    + rewrite (shape_nth M h w), (shape_nth N h w); auto; now split.
    + intros j Hj. rewrite (shape_nth M h w) in Hj by auto. now apply H.
Qed.

Lemma swap_matrix_rect M h w :
  shape M h w -> (0 < h)%nat -> swap_matrix_fmt M = Ok (transpose M w).
Proof.
  intros [Hl HF] Hh. destruct M as [|r0 M]; [simpl in Hl; lia|].
  inversion_clear HF as [|? ? H0 HF']. subst w. apply swap_matrix_ok.
  eapply Forall_impl; [|exact HF']. simpl. intros; lia.
Qed.

Lemma swap_swap M h w :
  shape M h w -> (0 < h)%nat -> (0 < w)%nat ->
  (let* t := swap_matrix_fmt M in swap_matrix_fmt t) = Ok M.
Proof.
  intros HM Hh Hw. rewrite (swap_matrix_rect M h w) by auto. cbn [bind].
  pose proof (transpose_shape M w) as HT.
  rewrite (swap_matrix_rect _ w (length M)) by auto. f_equal.
  pose proof (transpose_shape (transpose M w) (length M)) as HTT.
  destruct HM as [Hl HF]. destruct HT as [HTl HTF]. rewrite HTl in HTT.
  apply (mat_ext _ _ (length M) w); auto; [split; auto|].
  intros i j Hi Hj. rewrite transpose_at by (rewrite ?HTl; auto). now apply transpose_at.
Qed.

(** ** Ternary sampling *)
Lemma ternary_values v : ternary_of v = 0 \/ ternary_of v = 1 \/ ternary_of v = two32 - 1.
Proof.
  unfold ternary_of. destruct (_ && _); auto. destruct (_ <? _); auto.
Qed.

(** ** LWE parameters *)
Lemma pow_pb_bounds pb : (pb <= 31)%nat -> 1 <= 2 ^ Z.of_nat pb <= 2147483648.
Proof.
  intros H. split.
  - change 1 with (2 ^ 0). apply Z.pow_le_mono_r; lia.
  - change 2147483648 with (2 ^ 31). apply Z.pow_le_mono_r; lia.
Qed.

Lemma get_plaintext_size_ok dbg pb : (pb <= 31)%nat -> get_plaintext_size dbg pb = Ok (2 ^ Z.of_nat pb).
Proof.
  intros H. unfold get_plaintext_size. pose proof (pow_pb_bounds pb H).
  rewrite (Z.mod_small (Z.of_nat pb)) by (unfold two32; lia).
  apply chk_Ok. unfold two32; lia.
Qed.

Lemma pow_split pb : (pb <= 32)%nat -> two32 = 2 ^ Z.of_nat pb * 2 ^ (32 - Z.of_nat pb).
Proof.
  intros H. rewrite <- Z.pow_add_r by lia. rewrite two32_eq. f_equal. lia.
Qed.

Lemma get_rounding_factor_ok dbg pb :
  (1 <= pb <= 31)%nat -> get_rounding_factor dbg pb = Ok (2 ^ (32 - Z.of_nat pb)).
Proof.
  intros H. unfold get_rounding_factor. rewrite get_plaintext_size_ok by lia. cbn [bind].
  pose proof (pow_pb_bounds pb ltac:(lia)). rewrite divz_pos by lia. cbn [bind]. f_equal.
  unfold MODULUS. rewrite (pow_split pb) at 1 by lia.
  rewrite Z.mul_comm, Z.div_mul by lia. apply Z.mod_small.
  split; [apply Z.pow_nonneg; lia|]. rewrite two32_eq. apply Z.pow_lt_mono_r; lia.
Qed.

Lemma get_rounding_floor_ok dbg pb :
  (1 <= pb <= 31)%nat -> get_rounding_floor dbg pb = Ok (2 ^ (31 - Z.of_nat pb)).
Proof.
  intros H. unfold get_rounding_floor. rewrite get_rounding_factor_ok by auto. cbn [bind].
  f_equal. replace (32 - Z.of_nat pb) with (Z.succ (31 - Z.of_nat pb)) by lia.
  rewrite Z.pow_succ_r by lia. rewrite Z.mul_comm. apply Z.div_mul. lia.
Qed.
