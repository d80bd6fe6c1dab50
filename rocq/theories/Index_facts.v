(** Lemmas about the index protocol: Db.v (index part) and Api.v (index part). *)
From Verif Require Import Base Base_facts Fmt Fmt_facts Mat Mat_facts Lwe Db Api Spec
  Codec_facts.
From Coq Require Import ZifyBool ZifyNat.
Local Open Scope Z_scope.
Ltac Zify.zify_post_hook ::= Z.div_mod_to_equations.

(** ** Rounding *)
Definition half (pb : nat) : Z := 2 ^ (31 - Z.of_nat pb).
Definition delta (pb : nat) : Z := 2 ^ (32 - Z.of_nat pb).
Definition psize (pb : nat) : Z := 2 ^ Z.of_nat pb.

Lemma delta_half pb : (pb <= 31)%nat -> delta pb = 2 * half pb.
Proof.
  intros H. unfold delta, half. replace (32 - Z.of_nat pb) with (Z.succ (31 - Z.of_nat pb)) by lia.
  now rewrite Z.pow_succ_r by lia.
Qed.
Lemma half_pos pb : (pb <= 31)%nat -> 1 <= half pb.
Proof. intros. unfold half. change 1 with (2 ^ 0). apply Z.pow_le_mono_r; lia. Qed.
Lemma psize_pos pb : 1 <= psize pb.
Proof. intros. unfold psize. change 1 with (2 ^ 0). apply Z.pow_le_mono_r; lia. Qed.
Lemma two32_split pb : (pb <= 31)%nat -> two32 = psize pb * delta pb.
Proof. intros. apply pow_split. lia. Qed.

Lemma round_up u d h : d = 2 * h -> 1 <= h ->
  (if h <? u mod d then u / d + 1 else u / d) = (u + h - 1) / d.
Proof.
  intros Hd Hh. assert (0 < d) by lia.
  pose proof (Z.div_mod u d ltac:(lia)) as E. pose proof (Z.mod_pos_bound u d ltac:(lia)) as B.
  destruct (Z.ltb_spec h (u mod d)).
  - apply Z.div_unique with (u mod d + h - 1 - d); [left; lia|lia].
  - apply Z.div_unique with (u mod d + h - 1); [left; lia|lia].
Qed.

Lemma round_word_closed dbg l r pb :
  (1 <= pb <= 31)%nat ->
  round_word dbg l r (delta pb) (half pb) = Ok ((wsub32 l r + half pb - 1) / delta pb).
Proof.
  intros Hpb. unfold round_word. pose proof (half_pos pb ltac:(lia)).
  pose proof (delta_half pb ltac:(lia)) as Hd.
  rewrite divz_pos, remz_pos by lia. cbn [bind].
  rewrite <- (round_up (wsub32 l r) (delta pb) (half pb)) by auto.
  set (u := wsub32 l r).
  assert (Hu : 0 <= u < two32) by apply is_u32_mod.
  destruct (half pb <? u mod delta pb) eqn:E; auto.
  unfold add32. apply chk_Ok.
  rewrite (two32_split pb) in Hu by lia. pose proof (psize_pos pb).
  assert (u / delta pb < psize pb) by (apply Z.div_lt_upper_bound; lia).
  assert (0 <= u / delta pb) by (apply Z.div_pos; lia).
  pose proof (pow_pb_bounds pb ltac:(lia)) as Hp. unfold psize in *. unfold two32. lia.
Qed.

(** What one decoded word is. *)
Definition decode_word (pb : nat) (l r : Z) : Z :=
  ((l - r) mod two32 + half pb - 1) / delta pb mod psize pb.

Lemma decode_noise pb l r D E :
  (1 <= pb <= 31)%nat ->
  l mod two32 = (r + delta pb * D + E) mod two32 ->
  decode_word pb l r = (D + (E + half pb - 1) / delta pb) mod psize pb.
Proof.
  intros Hpb Hl. unfold decode_word.
  pose proof (half_pos pb ltac:(lia)). pose proof (delta_half pb ltac:(lia)) as Hd.
  pose proof (psize_pos pb). pose proof (two32_split pb ltac:(lia)) as Hs.
  assert (Dp : delta pb <> 0) by lia. assert (Sp : psize pb <> 0) by lia.
  assert (Hu : (l - r) mod two32 = (delta pb * D + E) mod two32).
  { rewrite Zminus_mod, Hl, <- Zminus_mod. f_equal. lia. }
  rewrite Hu. set (v := delta pb * D + E).
  pose proof (Z.div_mod v two32 ltac:(discriminate)) as Ev.
  rewrite (Z.mod_eq v two32) by discriminate.
  set (k := v / two32) in *. rewrite Hs. unfold v.
  replace (delta pb * D + E - psize pb * delta pb * k + half pb - 1)
    with ((E + half pb - 1) + (D - psize pb * k) * delta pb) by ring.
  rewrite Z.div_add by exact Dp.
  replace ((E + half pb - 1) / delta pb + (D - psize pb * k))
    with (D + (E + half pb - 1) / delta pb + (- k) * psize pb) by ring.
  apply Z.mod_add. exact Sp.
Qed.

Lemma decode_noise_iff pb D E :
  (1 <= pb <= 31)%nat -> 0 <= D < psize pb ->
  ((D + (E + half pb - 1) / delta pb) mod psize pb = D <->
   congruent_in E (- half pb) (half pb)).
Proof.
  intros Hpb HD. pose proof (half_pos pb ltac:(lia)). pose proof (delta_half pb ltac:(lia)) as Hd.
  pose proof (psize_pos pb). pose proof (two32_split pb ltac:(lia)) as Hs.
  set (f := (E + half pb - 1) / delta pb). unfold congruent_in. rewrite <- two32_eq.
  pose proof (Z.div_mod (E + half pb - 1) (delta pb) ltac:(lia)) as Ef. fold f in Ef.
  pose proof (Z.mod_pos_bound (E + half pb - 1) (delta pb) ltac:(lia)) as Bf.
  split.
  - intros H1.
    assert (Hf : f mod psize pb = 0).
    { pose proof (Z.div_mod (D + f) (psize pb) ltac:(lia)) as E1. rewrite H1 in E1.
      replace f with ((D + f) / psize pb * psize pb) by lia. apply Z.mod_mul. lia. }
    pose proof (Z.div_mod f (psize pb) ltac:(lia)) as Ek. rewrite Hf in Ek.
    exists (E - f / psize pb * two32), (f / psize pb). split; [lia|].
    assert (f / psize pb * two32 = delta pb * f) by (rewrite Hs; nia).
    lia.
  - intros (e & k & He & Hb).
    assert (Hf : f = k * psize pb).
    { unfold f. symmetry. apply Z.div_unique with (e + half pb - 1); [left; lia|].
      rewrite He, Hs. nia. }
    rewrite Hf, Z.mod_add by lia. apply Z.mod_small. lia.
Qed.

(** ** mapM over a range, first failure *)
Lemma mapM_seq_panic {B} (f : nat -> res B) n k :
  (k < n)%nat -> (forall i, (i < k)%nat -> exists b, f i = Ok b) -> f k = Panic ->
  mapM f (seq 0 n) = Panic.
Proof.
  intros Hk Hok Hp. replace (seq 0 n) with (seq 0 k ++ k :: seq (S k) (n - S k)).
  - rewrite mapM_first_fail, Hp; auto. intros i Hi. apply in_seq in Hi. apply Hok. lia.
  - change (k :: seq (S k) (n - S k)) with (seq k (S (n - S k))).
    rewrite <- seq_app. f_equal. lia.
Qed.

(** ** Parsing *)
Lemma index_parse_closed dbg qp resp w :
  (1 <= qp_plaintext_bits qp <= 31)%nat ->
  is_ceil_div (qp_elem_size qp) (qp_plaintext_bits qp) w ->
  (w <= length (qp_rhs qp))%nat -> (w <= length resp)%nat ->
  index_parse_resp_as_row dbg qp resp =
  Ok (map (fun i => decode_word (qp_plaintext_bits qp) (nth i resp 0) (nth i (qp_rhs qp) 0))
          (seq 0 w)).
Proof.
  intros Hpb Hw Hr Hl. unfold index_parse_resp_as_row. set (pb := qp_plaintext_bits qp) in *.
  rewrite get_rounding_factor_ok, get_rounding_floor_ok, get_plaintext_size_ok by lia.
  cbn [bind]. destruct (get_row_width_pos (qp_elem_size qp) pb) as (w' & -> & Hw'); [lia|].
  rewrite (is_ceil_div_unique _ _ _ _ Hw' Hw). cbn [bind].
  apply mapM_Ok. intros i Hi. apply in_seq in Hi.
  rewrite (idx_nth resp i 0), (idx_nth (qp_rhs qp) i 0) by lia. cbn [bind].
  fold (delta pb) (half pb) (psize pb). rewrite round_word_closed by auto. cbn [bind].
  pose proof (psize_pos pb). rewrite remz_pos by lia. reflexivity.
Qed.

Lemma index_parse_short dbg qp resp w :
  (1 <= qp_plaintext_bits qp <= 31)%nat ->
  is_ceil_div (qp_elem_size qp) (qp_plaintext_bits qp) w ->
  (w <= length (qp_rhs qp))%nat -> (length resp < w)%nat ->
  index_parse_resp_as_row dbg qp resp = Panic.
Proof.
  intros Hpb Hw Hr Hl. unfold index_parse_resp_as_row. set (pb := qp_plaintext_bits qp) in *.
  rewrite get_rounding_factor_ok, get_rounding_floor_ok, get_plaintext_size_ok by lia.
  cbn [bind]. destruct (get_row_width_pos (qp_elem_size qp) pb) as (w' & -> & Hw'); [lia|].
  rewrite (is_ceil_div_unique _ _ _ _ Hw' Hw). cbn [bind].
  apply (mapM_seq_panic _ _ (length resp)); auto.
  - intros i Hi. rewrite (idx_nth resp i 0), (idx_nth (qp_rhs qp) i 0) by lia. cbn [bind].
    fold (delta pb) (half pb) (psize pb). rewrite round_word_closed by auto. cbn [bind].
    pose proof (psize_pos pb). rewrite remz_pos by lia. eauto.
  - rewrite idx_oob by lia. reflexivity.
Qed.

(** ** Tape *)
Lemma tern_accept v : (TERNARY_REJECTION_SAMPLING_MAX <? v) = negb (accepted_word v).
Proof. unfold accepted_word. change TERNARY_REJECTION_SAMPLING_MAX with 4294967292. lia. Qed.

Lemma tern_class v : ternary_of v = ternary_class v mod two32.
Proof.
  unfold ternary_of, ternary_class. change TERNARY_INTERVAL_SIZE with 1431655764.
  destruct (Z.leb_spec v 1431655764); [|destruct (Z.leb_spec v 2863311528)].
  - replace ((1431655764 <? v) && (v <=? 1431655764 * 2)) with false by lia.
    now replace (1431655764 * 2 <? v) with false by lia.
  - now replace ((1431655764 <? v) && (v <=? 1431655764 * 2)) with true by lia.
  - replace ((1431655764 <? v) && (v <=? 1431655764 * 2)) with false by lia.
    now replace (1431655764 * 2 <? v) with true by lia.
Qed.

Lemma random_ternary_draws tape :
  match draws tape with
  | [] => random_ternary tape = Hang
  | d :: ds => exists rest, random_ternary tape = Ok (d mod two32, rest) /\ draws rest = ds
  end.
Proof.
  induction tape as [|v t IH]; [reflexivity|].
  unfold draws. cbn [filter random_ternary]. rewrite tern_accept.
  destruct (accepted_word v) eqn:E; cbn [negb].
  - cbn [map]. exists t. now rewrite tern_class.
  - exact IH.
Qed.

Lemma random_ternary_vector_draws n tape :
  if (n <=? length (draws tape))%nat
  then exists rest, random_ternary_vector n tape
         = Ok (map (fun d => d mod two32) (firstn n (draws tape)), rest)
       /\ draws rest = skipn n (draws tape)
  else random_ternary_vector n tape = Hang.
Proof.
  revert tape; induction n as [|n IH]; intros tape.
  - exists tape. auto.
  - pose proof (random_ternary_draws tape) as H1. cbn [random_ternary_vector].
    destruct (draws tape) as [|d ds] eqn:E.
    + simpl. now rewrite H1.
    + destruct H1 as (rest & H1 & H2). rewrite H1. cbn [bind length].
      specialize (IH rest). rewrite H2 in IH. cbn [Nat.leb].
      destruct (n <=? length ds)%nat.
      * destruct IH as (rest' & H3 & H4). rewrite H3. cbn [bind]. exists rest'. auto.
      * now rewrite IH.
Qed.

(** ** mult_left *)
Definition masked_lhs (cp : list (list Z)) (s es : list Z) : list Z :=
  map (fun i => (dot s (nth i cp []) + nth i es 0) mod two32) (seq 0 (length cp)).

Lemma mult_left_ok cp s tape :
  Forall (fun c => length c = length s) cp -> (length cp <= length (draws tape))%nat ->
  exists rest, mult_left cp s tape = Ok (masked_lhs cp s (draws tape), rest)
               /\ draws rest = skipn (length cp) (draws tape).
Proof.
  intros HF Hl. unfold mult_left, masked_lhs.
  enough (E : forall k, (k <= length cp)%nat -> exists rest,
    foldM (fun (st : list Z * list Z) i =>
           let (acc, tape) := st in
           let* col := idx cp i in
           let* s_a := vec_mult_u32_u32 s col in
           let* (e, tape') := random_ternary tape in
           Ok (acc ++ [wadd32 s_a e], tape')) (seq 0 k) ([], tape)
    = Ok (map (fun i => (dot s (nth i cp []) + nth i (draws tape) 0) mod two32) (seq 0 k), rest)
    /\ draws rest = skipn k (draws tape)) by (apply E; lia).
  induction k as [|k IH]; intros Hk.
  - exists tape. auto.
  - destruct IH as (rest & H1 & H2); [lia|].
    rewrite seq_S', foldM_app, H1. cbn [bind foldM Nat.add].
    rewrite (idx_nth cp k []) by lia. cbn [bind]. rewrite vec_mult_closed.
    rewrite Forall_forall in HF. rewrite (HF (nth k cp [])) by (apply nth_In; lia).
    rewrite Nat.eqb_refl. cbn [bind].
    pose proof (random_ternary_draws rest) as H3. rewrite H2 in H3.
    assert (Hsk : skipn k (draws tape) = nth k (draws tape) 0 :: skipn (S k) (draws tape)).
    { clear - Hl Hk. revert k Hk Hl. generalize (draws tape) as l. intros l k Hk Hl.
      assert (Hkl : (k < length l)%nat) by lia. clear - Hkl. revert k Hkl.
      induction l as [|x l IH]; intros [|k] H; simpl in *; try lia; auto. apply IH; lia. }
    rewrite Hsk in H3. destruct H3 as (rest' & H3 & H4). rewrite H3. cbn [bind].
    exists rest'. split; auto. do 2 f_equal. rewrite map_app. f_equal. cbn [map Nat.add].
    unfold wadd32. now rewrite <- Zplus_mod.
Qed.

Lemma mult_left_length cp s tape lhs rest :
  mult_left cp s tape = Ok (lhs, rest) -> length lhs = length cp.
Proof.
  unfold mult_left. intros H.
  enough (E : forall k st, foldM (fun (st : list Z * list Z) i =>
           let (acc, tape) := st in
           let* col := idx cp i in
           let* s_a := vec_mult_u32_u32 s col in
           let* (e, tape') := random_ternary tape in
           Ok (acc ++ [wadd32 s_a e], tape')) (seq 0 k) ([], tape) = Ok st -> length (fst st) = k).
  { now apply E in H. }
  induction k as [|k IH]; intros st H1.
  - now injection H1 as <-.
  - rewrite seq_S', foldM_app in H1. apply bind_Ok in H1 as (st' & H1 & H2).
    apply IH in H1. destruct st' as [acc tp]. cbn [foldM bind Nat.add] in H2.
    apply bind_Ok in H2 as (x & H2 & [= <-]).
    apply bind_Ok in H2 as (col & _ & H2). apply bind_Ok in H2 as (sa & _ & H2).
    apply bind_Ok in H2 as ([e t'] & _ & H2). injection H2 as <-.
    cbn [fst] in *. rewrite app_length. simpl; lia.
Qed.

(** Inversion: success implies the lengths agree and the tape sufficed. *)
Lemma mult_left_inv cp s tape lhs rest :
  mult_left cp s tape = Ok (lhs, rest) ->
  Forall (fun c => length c = length s) cp /\ (length cp <= length (draws tape))%nat.
Proof.
  unfold mult_left. intros H.
  enough (E : forall k st, (k <= length cp)%nat -> foldM (fun (st : list Z * list Z) i =>
           let (acc, tape) := st in
           let* col := idx cp i in
           let* s_a := vec_mult_u32_u32 s col in
           let* (e, tape') := random_ternary tape in
           Ok (acc ++ [wadd32 s_a e], tape')) (seq 0 k) ([], tape) = Ok st ->
           Forall (fun c => length c = length s) (firstn k cp) /\ (k <= length (draws tape))%nat
           /\ draws (snd st) = skipn k (draws tape)).
  { apply E in H as (H1 & H2 & _); auto. rewrite firstn_all in H1. auto. }
  induction k as [|k IH]; intros st Hk H1.
  - injection H1 as <-. simpl. repeat split; auto; lia.
  - rewrite seq_S', foldM_app in H1. apply bind_Ok in H1 as (st' & H1 & H2).
    apply IH in H1 as (HF & Hd & Hr); [|lia].
    destruct st' as [acc tp]. cbn [foldM bind Nat.add snd] in H2, Hr.
    apply bind_Ok in H2 as (x & H2 & [= <-]).
    apply bind_Ok in H2 as (col & Hc & H2). apply bind_Ok in H2 as (sa & Hv & H2).
    apply bind_Ok in H2 as ([e t'] & Ht & H2). injection H2 as <-. cbn [snd].
    rewrite vec_mult_closed in Hv.
    destruct (Nat.eqb_spec (length s) (length col)) as [Hlen|]; [|discriminate].
    pose proof (random_ternary_draws tp) as Hrt. rewrite Hr in Hrt.
    assert (Hf : firstn (S k) cp = firstn k cp ++ [col]).
    { apply idx_Ok in Hc. clear - Hc. revert k Hc. induction cp as [|c cp IH]; intros [|k] Hc;
        simpl in *; try discriminate; [now injection Hc as ->|]. f_equal. now apply IH. }
    rewrite Hf. destruct (skipn k (draws tape)) as [|d ds] eqn:Es; [congruence|].
    destruct Hrt as (r' & Hr1 & Hr2). rewrite Ht in Hr1. injection Hr1 as -> ->.
    assert (Hsl : length (skipn k (draws tape)) = S (length ds)) by now rewrite Es.
    rewrite skipn_length in Hsl. repeat split.
    + apply Forall_app. split; auto.
    + lia.
    + rewrite Hr2. replace (S k) with (k + 1)%nat by lia.
      rewrite <- (skipn_skipn' (draws tape) 1 k), Es. reflexivity.
Qed.

(** ** mult_right *)
Lemma mult_right_ok rhs s :
  Forall (fun c => length c = length s) rhs ->
  mult_right rhs s = Ok (map (fun c => dot s c mod two32) rhs).
Proof.
  intros HF. unfold mult_right. rewrite (mapM_Ok _ (fun i => dot s (nth i rhs []) mod two32)).
  - f_equal. rewrite <- (map_nth_seq rhs []) at 2. now rewrite map_map.
  - intros i Hi. apply in_seq in Hi. rewrite (idx_nth rhs i []) by lia. cbn [bind].
    rewrite vec_mult_closed. rewrite Forall_forall in HF.
    rewrite (HF (nth i rhs [])) by (apply nth_In; lia). now rewrite Nat.eqb_refl.
Qed.

(** ** Bilinearity *)
Lemma dot_scale_add s f g n x :
  length s = n ->
  dot s (map (fun k => f k * x + g k) (seq 0 n)) =
  dot s (map f (seq 0 n)) * x + dot s (map g (seq 0 n)).
Proof.
  intros <-. induction s as [|y s IH] using rev_ind; [simpl; lia|].
  rewrite app_length. simpl length. rewrite Nat.add_1_r, seq_S', !map_app.
  rewrite !dot_app by (now rewrite map_length, seq_length). rewrite IH. simpl. lia.
Qed.

Lemma dot_zeros s n : dot s (map (fun _ => 0) (seq 0 n)) = 0.
Proof.
  revert n; induction s as [|x s IH]; intros n; auto.
  destruct n; auto. cbn [seq map dot].
  replace (map (fun _ : nat => 0) (seq 1 n)) with (map (fun _ : nat => 0) (seq 0 n)).
  - rewrite IH. lia.
  - rewrite (map_seq_shift _ 1). reflexivity.
Qed.

Lemma dot_transpose A s d :
  Forall (fun r => length r = length s) A -> length d = length A ->
  dot s (map (fun r => dot r d) (transpose A (length s))) = dot (map (dot s) A) d.
Proof.
  intros HA; revert d. induction HA as [|a A Ha _ IH]; intros d Hd.
  - destruct d; [|discriminate]. simpl. unfold transpose. rewrite map_map. cbn [map dot].
    apply dot_zeros.
  - destruct d as [|x d]; [discriminate|]. cbn [map dot].
    rewrite <- IH by (simpl in Hd; lia).
    unfold transpose. rewrite !map_map. cbn [map dot].
    rewrite dot_scale_add by auto.
    rewrite <- Ha at 1. now rewrite map_nth_seq.
Qed.

Lemma dot_upd l r v d :
  (r < length l)%nat -> length l = length d ->
  dot (upd l r v) d = dot l d + (v - nth r l 0) * nth r d 0.
Proof.
  revert r d; induction l as [|x l IH]; intros [|r] [|y d] Hr Hl; simpl in *; try lia.
  rewrite IH by lia. lia.
Qed.
