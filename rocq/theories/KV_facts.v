(** The key-value protocol as a whole. *)
From Coq Require Import Permutation.
From Verif Require Import Base Base_facts Fmt Fmt_facts Mat Mat_facts Lwe Db Api Spec
  Codec_facts Index_facts IndexProto_facts Hash Fuse3 Bfusep SpecFilter Geom_facts Filter_facts
  FilterTop_facts Claims_filter.
Local Open Scope Z_scope.


(** ** Construction *)
Definition fp_of (seed : list Z) (g : geom) : filter_params :=
  {| fp_seed := seed; fp_segment_length := g_seglen g; fp_segment_length_mask := g_mask g;
     fp_segment_count_length := g_scl g |}.

Lemma kv_ptxt_mod_ok dbg pb : (pb <= 31)%nat -> kv_ptxt_mod dbg pb = Ok (2 ^ Z.of_nat pb).
Proof.
  intros H. unfold kv_ptxt_mod. rewrite Z.mod_small by (unfold two32; lia).
  apply chk_Ok. pose proof (pow_pb_bounds pb H). unfold two64. lia.
Qed.

Lemma unwrap_Ok {A} (r : res A) a : unwrap r = Ok a <-> r = Ok a.
Proof. destruct r; cbn; split; intros; congruence. Qed.

Lemma geom_pos g : valid_geom g -> (0 < g_arrlen g)%nat.
Proof.
  intros (k & Hk & _ & _ & H1 & _ & -> & _).
  assert (1 <= 2 ^ k) by (apply (Z.pow_le_mono_r 2 0 k); lia). nia.
Qed.

(** What a successful construction gives: for every column the filter built for it. *)
Lemma kv_db_inv dbg fe rnd seed kvs m es pb db :
  (pb <= 31)%nat ->
  kv_db_new dbg fe rnd seed kvs m es pb = Ok db ->
  exists kv0 g, nth_error kvs 0 = Some kv0 /\ geometry dbg fe (length kvs) = Ok g /\
    kd_m db = m /\ kd_elem_size db = es /\ kd_plaintext_bits db = pb /\
    kd_filter_params db = fp_of seed g /\
    shape (kd_entries db) (length (kv_value kv0)) (g_arrlen g) /\
    (0 < length (kv_value kv0))%nat /\
    Forall (fun kv => (length (kv_value kv0) <= length (kv_value kv))%nat) kvs /\
    forall c, (c < length (kv_value kv0))%nat -> exists f,
      from_slice dbg fe (rnd c) seed (map kv_key kvs)
        (map (fun kv => nth c (kv_value kv) 0) kvs) (Z.of_nat c) (2 ^ Z.of_nat pb) = Ok f /\
      get_fingerprints_mod f = Ok (nth c (kd_entries db) []) /\
      bp_seed f = seed /\ bp_segment_length f = g_seglen g /\ bp_segment_length_mask f = g_mask g /\
      bp_segment_count_length f = g_scl g /\ length (bp_fingerprints f) = g_arrlen g.
Proof.
  intros Hpb H. unfold kv_db_new in H. apply bind_Ok in H as (kv0 & H0 & H).
  apply idx_Ok in H0. apply bind_Ok in H as ([fs fp] & Hf & H). apply bind_Ok in H as (ents & He & H).
  injection H as <-. cbn [kd_m kd_elem_size kd_plaintext_bits kd_filter_params kd_entries].
  set (W := length (kv_value kv0)) in *.
  unfold from_kvs in Hf. apply bind_Ok in Hf as (fs' & Hfs & Hf). apply bind_Ok in Hf as (f0 & Hf0 & Hf).
  injection Hf as -> <-.
  set (fd := {| bp_seed := []; bp_segment_length := 0; bp_segment_length_mask := 0;
                bp_segment_count_length := 0; bp_fingerprints := []; bp_ptxt_mod := 0 |}).
  pose proof (idx_lt _ _ _ Hf0) as Hpos. rewrite (idx_nth _ _ fd) in Hf0 by auto. injection Hf0 as Hf0.
  apply (mapM_seq_Ok _ _ _ fd) in Hfs as [Lf Hfs]. rewrite Lf in Hpos.
  assert (HC : forall c, (c < W)%nat ->
     from_slice dbg fe (rnd c) seed (map kv_key kvs)
        (map (fun kv => nth c (kv_value kv) 0) kvs) (Z.of_nat c) (2 ^ Z.of_nat pb) = Ok (nth c fs fd) /\
     Forall (fun kv => (c < length (kv_value kv))%nat) kvs).
  { intros c Hc. specialize (Hfs c Hc). apply bind_Ok in Hfs as (col & Ecol & Hfs).
    rewrite kv_ptxt_mod_ok in Hfs by auto. cbn [bind] in Hfs. apply (proj1 (unwrap_Ok _ _)) in Hfs.
    assert (HF : Forall (fun kv => (c < length (kv_value kv))%nat) kvs).
    { apply mapM_Ok_inv in Ecol. clear - Ecol.
      induction Ecol as [|kv x kvs' xs E _ IH]; constructor; auto. eapply idx_lt; eauto. }
    split; auto. rewrite <- Hfs. f_equal.
    rewrite (mapM_Ok _ (fun kv => nth c (kv_value kv) 0)) in Ecol.
    - congruence.
    - intros kv Hkv. apply idx_nth. rewrite Forall_forall in HF. auto. }
  assert (HG : exists g, geometry dbg fe (length kvs) = Ok g).
  { destruct (HC 0%nat Hpos) as [E _]. unfold from_slice in E. destruct (negb _); [discriminate|].
    apply from_impl_length in E as (g & Eg & _). rewrite map_length in Eg. eauto. }
  destruct HG as (g & Eg). exists kv0, g.
  assert (HS : forall c, (c < W)%nat -> bp_seed (nth c fs fd) = seed /\
     bp_segment_length (nth c fs fd) = g_seglen g /\ bp_segment_length_mask (nth c fs fd) = g_mask g /\
      bp_segment_count_length (nth c fs fd) = g_scl g /\ length (bp_fingerprints (nth c fs fd)) = g_arrlen g).
  { intros c Hc. destruct (HC c Hc) as [E _]. unfold from_slice in E. destruct (negb _); [discriminate|].
    apply from_impl_length in E as (g' & Eg' & E1 & _ & E2 & E3 & E4 & E5). rewrite map_length in Eg'.
    assert (g' = g) by congruence. subst g'. auto. }
  assert (HE : length ents = W /\ forall c, (c < W)%nat ->
     get_fingerprints_mod (nth c fs fd) = Ok (nth c ents [])).
  { pose proof (mapM_length _ _ _ He) as Le. split; [congruence|].
    intros c Hc. apply mapM_Ok_inv in He. apply (Forall2_nth _ _ _ fd []) in He as [_ He]. apply He. lia. }
  destruct HE as [Le HE].
  split; auto. split; auto. split; auto. split; auto. split; auto. split.
  { destruct (HS 0%nat Hpos) as (_ & E1 & E2 & E3 & _). unfold fp_of. rewrite <- Hf0. congruence. }
  split.
  { split; auto. apply Forall_forall. intros col Hin.
    apply In_nth with (d := []) in Hin. destruct Hin as (c & Hc & <-). rewrite Le in Hc.
    specialize (HE c Hc). unfold get_fingerprints_mod in HE. apply mapM_length in HE. rewrite HE.
    now destruct (HS c Hc) as (_ & _ & _ & _ & ?). }
  split; auto. split.
  { destruct (HC (W - 1)%nat ltac:(lia)) as [_ HF]. eapply Forall_impl; [|exact HF]. cbn. lia. }
  intros c Hc. exists (nth c fs fd). destruct (HC c Hc) as [E _]. split; auto.
Qed.

(** ** Public parameters *)
Definition kv_rhs_of (A : list (list Z)) (dim : nat) (ent : list (list Z)) (w : nat) :=
  map (fun c => map (fun r => dot r (nth c ent []) mod two32) (transpose A dim)) (seq 0 w).

Lemma kv_vec_mult_closed db q c :
  (c < length (kd_entries db))%nat ->
  kv_vec_mult db q c = if (length q =? length (nth c (kd_entries db) []))%nat
                       then Ok (dot q (nth c (kd_entries db) []) mod two32) else Panic.
Proof.
  intros Hc. unfold kv_vec_mult. rewrite (idx_nth _ _ []) by auto. cbn [bind].
  rewrite vec_mult_closed. destruct (_ =? _)%nat; reflexivity.
Qed.

Definition kv_params_of prg pseed dim db (H w : nat) : kv_params :=
  {| kp_dim := dim; kp_m := H; kp_public_seed := pseed;
     kp_rhs := kv_rhs_of (pubmat prg pseed dim H) dim (kd_entries db) w;
     kp_elem_size := kd_elem_size db; kp_plaintext_bits := kd_plaintext_bits db;
     kp_filter_params := kd_filter_params db |}.

Lemma kv_height_ok db W H :
  shape (kd_entries db) W H -> (0 < W)%nat -> kv_matrix_height db = Ok H.
Proof.
  intros S HW. unfold kv_matrix_height. pose proof S as [L _].
  rewrite (idx_nth _ _ []) by lia. cbn [bind]. f_equal. now apply (shape_nth _ W).
Qed.

Lemma kv_shard_of_db_ok prg pseed db dim W H w :
  (1 <= kd_plaintext_bits db)%nat -> is_ceil_div (kd_elem_size db) (kd_plaintext_bits db) w ->
  shape (kd_entries db) W H -> (0 < W)%nat -> (0 < H)%nat -> (w <= W)%nat ->
  kv_shard_of_db prg pseed db dim
  = Ok {| ks_db := db; ks_params := kv_params_of prg pseed dim db H w |}.
Proof.
  intros Hpb Hw S HW HH Hle. unfold kv_shard_of_db, kv_params_new, generate_params_rhs.
  rewrite (kv_height_ok db W H) by auto. cbn [bind]. fold (pubmat prg pseed dim H).
  pose proof (pubmat_shape prg pseed dim H) as HA.
  rewrite (swap_matrix_rect _ H dim) by auto. cbn [bind].
  unfold kv_row_width_self.
  destruct (get_row_width_pos (kd_elem_size db) (kd_plaintext_bits db)) as (w' & -> & Hw'); [lia|].
  rewrite (is_ceil_div_unique _ _ _ _ Hw' Hw). cbn [bind].
  rewrite (mapM_Ok _ (fun c => map (fun r => dot r (nth c (kd_entries db) []) mod two32)
                                   (transpose (pubmat prg pseed dim H) dim))).
  - reflexivity.
  - intros c Hc. apply in_seq in Hc. apply mapM_Ok. intros r Hr.
    pose proof S as [L _]. rewrite kv_vec_mult_closed by lia.
    rewrite (shape_nth _ W H) by (auto; lia).
    pose proof (transpose_shape (pubmat prg pseed dim H) dim) as [_ HF].
    rewrite Forall_forall in HF. rewrite (HF r Hr). destruct HA as [-> _]. now rewrite Nat.eqb_refl.
Qed.

(** ** Query parameters *)
Definition kv_qp_of A dim (ent : list (list Z)) H es pb w fp tape : query_params :=
  {| qp_lhs := masked_lhs A (words (secret dim tape)) (noise dim H tape);
     qp_rhs := map (fun c => dot (words (secret dim tape)) c mod two32) (kv_rhs_of A dim ent w);
     qp_elem_size := es; qp_plaintext_bits := pb; qp_extra := Some fp; qp_used := false |}.

Lemma kv_rhs_lengths A dim ent w :
  Forall (fun c => length c = dim) (kv_rhs_of A dim ent w).
Proof.
  unfold kv_rhs_of. apply Forall_map, Forall_forall. intros. rewrite map_length.
  unfold transpose. now rewrite map_length, seq_length.
Qed.

Lemma kv_gen_qp_inv prg pseed dim db H w tape qp rest :
  let p := kv_params_of prg pseed dim db H w in
  generate_kv_query_params (kv_common_params prg p) p tape = Ok (qp, rest) ->
  (dim + H <= length (draws tape))%nat /\
  qp = kv_qp_of (pubmat prg pseed dim H) dim (kd_entries db) H (kd_elem_size db)
         (kd_plaintext_bits db) w (kd_filter_params db) tape.
Proof.
  intros p E. unfold p, generate_kv_query_params, kv_common_params in E.
  cbn [kp_dim kp_m kp_public_seed kp_rhs kp_elem_size kp_plaintext_bits kp_filter_params kv_params_of] in E.
  fold (pubmat prg pseed dim H) in E.
  pose proof (random_ternary_vector_draws dim tape) as H1.
  destruct (Nat.leb_spec dim (length (draws tape))) as [Hd|Hd]; [|rewrite H1 in E; discriminate].
  destruct H1 as (t1 & E1 & H2). rewrite E1 in E. cbn [bind] in E.
  fold (secret dim tape) in E. fold (words (secret dim tape)) in E.
  pose proof (pubmat_shape prg pseed dim H) as [HAl HAF].
  assert (Hs : length (words (secret dim tape)) = dim).
  { rewrite words_length. unfold secret. rewrite firstn_length. lia. }
  apply bind_Ok in E as ([lhs t2] & E2 & E). pose proof E2 as E2'.
  apply mult_left_inv in E2 as [_ E2]. rewrite H2, skipn_length, HAl in E2.
  split; [lia|].
  destruct (mult_left_ok (pubmat prg pseed dim H) (words (secret dim tape)) t1) as (t2' & E3 & H3).
  { eapply Forall_impl; [|exact HAF]. simpl. intros; congruence. }
  { rewrite H2, skipn_length. lia. }
  rewrite E3 in E2'. injection E2' as <- <-.
  rewrite mult_right_ok in E by (rewrite Hs; apply kv_rhs_lengths).
  cbn [bind] in E. injection E as <- _. unfold kv_qp_of. f_equal.
  now rewrite masked_lhs_firstn, H2, HAl.
Qed.

(** ** Query *)
Definition add_at (D : Z) (l : list Z) (r : nat) : list Z := upd l r (wadd32 (nth r l 0) D).

Lemma add_at_length D l r : length (add_at D l r) = length l.
Proof. apply length_upd. Qed.

Lemma nth_add_at D l r j :
  (r < length l)%nat ->
  nth j (add_at D l r) 0 = if (j =? r)%nat then (nth j l 0 + D) mod two32 else nth j l 0.
Proof.
  intros Hr. unfold add_at. destruct (Nat.eqb_spec j r) as [->|N].
  - now rewrite nth_upd_eq.
  - apply nth_upd_ne. auto.
Qed.

Lemma upd_u32 l r x : Forall is_u32 l -> is_u32 x -> Forall is_u32 (upd l r x).
Proof.
  intros H Hx. revert r. induction H as [|y l Hy H IH]; intros [|r]; cbn [upd]; constructor; auto.
Qed.

Lemma add_at_u32 D l r : Forall is_u32 l -> Forall is_u32 (add_at D l r).
Proof. intros H. apply upd_u32; auto. apply is_u32_mod. Qed.

Lemma dot_add_at D l r d :
  (r < length l)%nat -> length l = length d ->
  dot (add_at D l r) d mod two32 = (dot l d + D * nth r d 0) mod two32.
Proof.
  intros Hr Hl. unfold add_at. rewrite dot_upd by auto. unfold wadd32.
  set (x := nth r l 0).
  pose proof (Z.div_mod (x + D) two32 ltac:(discriminate)) as Ex.
  replace ((x + D) mod two32 - x) with (D + (- ((x + D) / two32)) * two32) by lia.
  rewrite Z.mul_add_distr_r.
  replace (- ((x + D) / two32) * two32 * nth r d 0)
    with ((- ((x + D) / two32) * nth r d 0) * two32) by ring.
  now rewrite Z.add_assoc, Z.mod_add by discriminate.
Qed.

Definition add3 (D : Z) (l : list Z) (a b c : nat) := add_at D (add_at D (add_at D l a) b) c.

Lemma kv_query_closed dbg qp fp key a b c :
  (1 <= qp_plaintext_bits qp <= 31)%nat -> qp_used qp = false -> qp_extra qp = Some fp ->
  get_hash_evals dbg fp key = Ok [a; b; c] ->
  (a < length (qp_lhs qp))%nat -> (b < length (qp_lhs qp))%nat -> (c < length (qp_lhs qp))%nat ->
  kv_generate_query dbg qp key =
    (set_used true qp, Ok (add3 (delta (qp_plaintext_bits qp)) (qp_lhs qp) a b c)).
Proof.
  intros Hpb Hu Hx Hev Ha Hb Hc. unfold kv_generate_query. rewrite Hu, Hx. f_equal.
  rewrite get_rounding_factor_ok by auto. cbn [bind]. fold (delta (qp_plaintext_bits qp)).
  rewrite Hev. cbn [bind foldM].
  rewrite (idx_nth _ a 0) by auto. cbn [bind]. rewrite set_lt by auto. cbn [bind].
  rewrite (idx_nth _ b 0) by (rewrite length_upd; auto). cbn [bind].
  rewrite set_lt by (rewrite length_upd; auto). cbn [bind].
  rewrite (idx_nth _ c 0) by (rewrite !length_upd; auto). cbn [bind].
  rewrite set_lt by (rewrite !length_upd; auto). reflexivity.
Qed.

Lemma dot_add3 D l a b c d :
  (a < length l)%nat -> (b < length l)%nat -> (c < length l)%nat -> length l = length d ->
  dot (add3 D l a b c) d mod two32
  = (dot l d + D * (nth a d 0 + nth b d 0 + nth c d 0)) mod two32.
Proof.
  intros Ha Hb Hc Hl. unfold add3.
  rewrite dot_add_at by (rewrite !add_at_length; auto).
  rewrite <- Zplus_mod_idemp_l, dot_add_at by (rewrite !add_at_length; auto).
  rewrite Zplus_mod_idemp_l.
  rewrite <- Z.add_assoc, <- Zplus_mod_idemp_l, dot_add_at by auto.
  rewrite Zplus_mod_idemp_l. f_equal. ring.
Qed.

Lemma kv_response_word A s es d D a b c :
  Forall (fun c => length c = length s) A -> length d = length A -> length es = length A ->
  (a < length A)%nat -> (b < length A)%nat -> (c < length A)%nat ->
  dot (add3 D (masked_lhs A s es) a b c) d mod two32
  = (dot s (map (fun c => dot c d mod two32) (transpose A (length s))) mod two32
     + D * (nth a d 0 + nth b d 0 + nth c d 0) + dot es d) mod two32.
Proof.
  intros HA Hd He Ha Hb Hc. rewrite dot_add3 by (rewrite masked_lhs_length; auto).
  rewrite <- Zplus_mod_idemp_l, masked_dot, client_rhs by auto.
  rewrite Zplus_mod_idemp_l.
  rewrite <- (Z.add_assoc (dot (map (dot s) A) d mod two32)), Zplus_mod_idemp_l. f_equal. lia.
Qed.

(** ** Response *)
Lemma kv_respond_closed sh q W H w :
  (1 <= kd_plaintext_bits (ks_db sh))%nat ->
  is_ceil_div (kd_elem_size (ks_db sh)) (kd_plaintext_bits (ks_db sh)) w ->
  shape (kd_entries (ks_db sh)) W H -> (w <= W)%nat -> length q = H ->
  kv_shard_respond sh q
  = Ok (bincode_ser_vec_u32 (map (fun c => dot q (nth c (kd_entries (ks_db sh)) []) mod two32) (seq 0 w))).
Proof.
  intros Hpb Hw S Hle Hq. unfold kv_shard_respond, kv_row_width_self.
  destruct (get_row_width_pos (kd_elem_size (ks_db sh)) (kd_plaintext_bits (ks_db sh))) as (w' & -> & Hw'); [lia|].
  rewrite (is_ceil_div_unique _ _ _ _ Hw' Hw). cbn [bind].
  rewrite (mapM_Ok _ (fun c => dot q (nth c (kd_entries (ks_db sh)) []) mod two32)); [reflexivity|].
  intros c Hc. apply in_seq in Hc. pose proof S as [L _]. rewrite kv_vec_mult_closed by lia.
  rewrite (shape_nth _ W H) by (auto; lia). now rewrite Hq, Nat.eqb_refl.
Qed.

Lemma kv_respond_bad sh q W H w :
  (1 <= kd_plaintext_bits (ks_db sh))%nat ->
  is_ceil_div (kd_elem_size (ks_db sh)) (kd_plaintext_bits (ks_db sh)) w ->
  shape (kd_entries (ks_db sh)) W H -> (0 < w <= W)%nat -> length q <> H ->
  kv_shard_respond sh q = Panic.
Proof.
  intros Hpb Hw S Hle Hq. unfold kv_shard_respond, kv_row_width_self.
  destruct (get_row_width_pos (kd_elem_size (ks_db sh)) (kd_plaintext_bits (ks_db sh))) as (w' & -> & Hw'); [lia|].
  rewrite (is_ceil_div_unique _ _ _ _ Hw' Hw). cbn [bind].
  rewrite (mapM_seq_panic _ _ 0); auto; [lia|intros; lia|].
  pose proof S as [L _]. rewrite kv_vec_mult_closed by lia.
  rewrite (shape_nth _ W H) by (auto; lia).
  destruct (Nat.eqb_spec (length q) H); [contradiction|reflexivity].
Qed.

(** ** Parsing *)
Lemma kv_unmask pb l r fp :
  (1 <= pb <= 31)%nat ->
  wadd32 (((wsub32 l r + half pb - 1) / delta pb)) (fp mod two32) mod psize pb
  = (decode_word pb l r + fp) mod psize pb.
Proof.
  intros Hpb. unfold wadd32, decode_word, wsub32.
  pose proof (psize_pos pb). rewrite (two32_split pb) at 2 3 by lia.
  assert (M : forall x, (x mod (psize pb * delta pb)) mod psize pb = x mod psize pb).
  { intros x. pose proof (half_pos pb ltac:(lia)). pose proof (delta_half pb ltac:(lia)).
    rewrite Z.rem_mul_r by lia. rewrite Z.mul_comm, Z.mod_add by lia. apply Zmod_mod. }
  rewrite M, Zplus_mod, M, <- Zplus_mod. now rewrite Zplus_mod_idemp_l.
Qed.

Lemma kv_parse_closed dbg qp fp resp key w :
  (1 <= qp_plaintext_bits qp <= 31)%nat -> qp_extra qp = Some fp ->
  is_ceil_div (qp_elem_size qp) (qp_plaintext_bits qp) w ->
  (w <= length (qp_rhs qp))%nat -> (w <= length resp)%nat ->
  kv_parse_resp_as_row dbg qp resp key =
  Ok (map (fun i => (decode_word (qp_plaintext_bits qp) (nth i resp 0) (nth i (qp_rhs qp) 0)
                     + get_key_fingerprint key (fp_seed fp) (Z.of_nat i)) mod psize (qp_plaintext_bits qp))
          (seq 0 w)).
Proof.
  intros Hpb Hx Hw Hr Hl. unfold kv_parse_resp_as_row. set (pb := qp_plaintext_bits qp) in *.
  rewrite get_rounding_factor_ok, get_rounding_floor_ok, get_plaintext_size_ok by lia.
  rewrite Hx. cbn [bind].
  destruct (get_row_width_pos (qp_elem_size qp) pb) as (w' & -> & Hw'); [lia|].
  rewrite (is_ceil_div_unique _ _ _ _ Hw' Hw). cbn [bind].
  apply mapM_Ok. intros i Hi. apply in_seq in Hi.
  rewrite (idx_nth resp i 0), (idx_nth (qp_rhs qp) i 0) by lia. cbn [bind].
  fold (delta pb) (half pb) (psize pb). rewrite round_word_closed by auto. cbn [bind].
  pose proof (psize_pos pb). rewrite remz_pos by lia. f_equal. unfold unmask_value.
  now apply kv_unmask.
Qed.

Lemma kv_parse_short dbg qp fp resp key w :
  (1 <= qp_plaintext_bits qp <= 31)%nat -> qp_extra qp = Some fp ->
  is_ceil_div (qp_elem_size qp) (qp_plaintext_bits qp) w ->
  (w <= length (qp_rhs qp))%nat -> (length resp < w)%nat ->
  kv_parse_resp_as_row dbg qp resp key = Panic.
Proof.
  intros Hpb Hx Hw Hr Hl. unfold kv_parse_resp_as_row. set (pb := qp_plaintext_bits qp) in *.
  rewrite get_rounding_factor_ok, get_rounding_floor_ok, get_plaintext_size_ok by lia.
  rewrite Hx. cbn [bind].
  destruct (get_row_width_pos (qp_elem_size qp) pb) as (w' & -> & Hw'); [lia|].
  rewrite (is_ceil_div_unique _ _ _ _ Hw' Hw). cbn [bind].
  apply (mapM_seq_panic _ _ (length resp)); auto.
  - intros i Hi. rewrite (idx_nth resp i 0), (idx_nth (qp_rhs qp) i 0) by lia. cbn [bind].
    fold (delta pb) (half pb) (psize pb). rewrite round_word_closed by auto. cbn [bind].
    pose proof (psize_pos pb). rewrite remz_pos by lia. eauto.
  - rewrite idx_oob by lia. reflexivity.
Qed.

(** ** The whole exchange: each decoded entry is the sum of the three filter entries and the
    key's fingerprint, shifted by the rounded noise. *)
Lemma kv_protocol_row prg dbg pseed dim db fp H W w tape key a b c :
  let A := pubmat prg pseed dim H in
  let es := kd_elem_size db in let pb := kd_plaintext_bits db in
  let qp := kv_qp_of A dim (kd_entries db) H es pb w fp tape in
  (1 <= pb <= 31)%nat -> is_ceil_div es pb w -> shape (kd_entries db) W H -> (w <= W)%nat ->
  (dim + H <= length (draws tape))%nat -> (a < H)%nat -> (b < H)%nat -> (c < H)%nat ->
  let q := add3 (delta pb) (qp_lhs qp) a b c in
  let resp := map (fun c => dot q (nth c (kd_entries db) []) mod two32) (seq 0 w) in
  kv_parse_resp_as_row dbg qp resp key
  = Ok (map (fun i => let col := nth i (kd_entries db) [] in
             (nth a col 0 + nth b col 0 + nth c col 0 + get_key_fingerprint key (fp_seed fp) (Z.of_nat i)
              + (dot (noise dim H tape) col + half pb - 1) / delta pb) mod psize pb) (seq 0 w)).
Proof.
  intros A es pb qp Hpb Hw S Hle Ht Ha Hb Hc q resp.
  assert (Hrl : length (qp_rhs qp) = w).
  { unfold qp, kv_qp_of, kv_rhs_of. cbn [qp_rhs]. now rewrite !map_length, seq_length. }
  rewrite (kv_parse_closed dbg qp fp resp key w); auto; try lia.
  2:{ unfold resp. now rewrite map_length, seq_length. }
  f_equal. apply map_ext_in. intros i Hi. apply in_seq in Hi.
  cbn [qp_plaintext_bits qp kv_qp_of]. cbv zeta.
  set (col := nth i (kd_entries db) []).
  pose proof (pubmat_shape prg pseed dim H) as [HAl HAF]. fold A in HAl, HAF.
  assert (Hs : length (words (secret dim tape)) = dim).
  { rewrite words_length. unfold secret. rewrite firstn_length. lia. }
  assert (Hn : length (noise dim H tape) = H).
  { unfold noise. rewrite firstn_length, skipn_length. lia. }
  assert (HAF' : Forall (fun c => length c = length (words (secret dim tape))) A).
  { eapply Forall_impl; [|exact HAF]. simpl. intros; congruence. }
  assert (Hcol : length col = H) by (apply (shape_nth _ W); auto; lia).
  rewrite (decode_noise pb _ _ (nth a col 0 + nth b col 0 + nth c col 0) (dot (noise dim H tape) col)); auto.
  - rewrite Zplus_mod_idemp_l. f_equal. ring.
  - unfold resp. rewrite nth_map_seq by lia. rewrite Zmod_mod. fold col. unfold q, qp.
    cbn [qp_lhs qp_rhs kv_qp_of].
    rewrite kv_response_word by congruence.
    f_equal. f_equal. f_equal.
    unfold kv_rhs_of. rewrite map_map, nth_map_seq by lia. now rewrite Hs.
Qed.

(** ** Construction from strings *)
Lemma map_all_inv {A B} (f : A -> res B) l rs :
  map_all f l = Ok rs ->
  Forall2 (fun x r => f x = match r with inr b => Ok b | inl e => Err e end) l rs.
Proof.
  revert rs; induction l as [|x l IH]; intros rs H; cbn [map_all] in H.
  - injection H as <-. constructor.
  - destruct (f x) eqn:E; try discriminate; apply bind_Ok in H as (r & H & [= <-]); constructor; auto.
Qed.

Lemma collect_Ok {B} (rs : list (error + B)) bs : collect_results rs = Ok bs -> rs = map inr bs.
Proof.
  revert bs; induction rs as [|[e|b] rs IH]; intros bs H; cbn [collect_results] in H; try discriminate.
  - now injection H as <-.
  - apply bind_Ok in H as (r & H & [= <-]). cbn [map]. now rewrite (IH r H).
Qed.

Lemma map_all_total {A B} (f : A -> res B) l :
  (forall x, In x l -> (exists b, f x = Ok b) \/ (exists e, f x = Err e)) ->
  exists rs, map_all f l = Ok rs.
Proof.
  induction l as [|x l IH]; intros H; cbn [map_all]; [eauto|].
  destruct IH as (rs & E); [intros; apply H; now right|].
  destruct (H x (or_introl eq_refl)) as [(b & Eb)|(e & Ee)]; [rewrite Eb|rewrite Ee]; rewrite E; cbn [bind]; eauto.
Qed.

Lemma collect_total {B} (rs : list (error + B)) :
  (exists bs, collect_results rs = Ok bs) \/ (exists e, collect_results rs = Err e).
Proof.
  induction rs as [|[e|b] rs [(bs & IH)|(e' & IH)]]; cbn [collect_results]; eauto; rewrite IH; cbn [bind]; eauto.
Qed.

Lemma collect_err {B} (rs : list (error + B)) e : In (inl e) rs -> exists e', collect_results rs = Err e'.
Proof.
  intros H. destruct (collect_total rs) as [(bs & E)|E]; auto. exfalso.
  apply collect_Ok in E. subst rs. apply in_map_iff in H. destruct H as (? & ? & _). discriminate.
Qed.

Definition kd0 : key_value := {| kv_key := []; kv_value := [] |}.

Lemma kv_strings_inv sha dbg fe rnd fseed keys values m es pb db :
  kv_db_from_base64_strings sha dbg fe rnd fseed keys values m es pb = Ok db ->
  length keys = length values /\ exists kvs, length kvs = length keys /\
    kv_db_new dbg fe rnd fseed kvs m es pb = Ok db /\
    forall i, (i < length keys)%nat ->
      kv_from_base64_strings sha dbg (nth i keys []) (nth i values []) es pb = Ok (nth i kvs kd0).
Proof.
  unfold kv_db_from_base64_strings. destruct (Nat.eqb_spec (length keys) (length values)) as [EL|]; [|discriminate].
  cbn [negb]. intros H. split; auto. apply bind_Ok in H as (rs & Hrs & H).
  destruct (collect_results rs) as [kvs| | |] eqn:Ec; try discriminate.
  apply collect_Ok in Ec. subst rs. apply map_all_inv in Hrs.
  pose proof (Forall2_len _ _ _ Hrs) as L. rewrite map_length, seq_length in L.
  exists kvs. split; auto. split; auto. intros i Hi.
  apply (Forall2_nth _ _ _ 0%nat (inr kd0)) in Hrs as [_ Hrs].
  specialize (Hrs i ltac:(rewrite seq_length; auto)). rewrite seq_nth in Hrs by auto. cbn [Nat.add] in Hrs.
  rewrite map_nth in Hrs. rewrite (idx_nth keys i []), (idx_nth values i []) in Hrs by lia.
  exact Hrs.
Qed.

Lemma kv_from_strings_inv sha dbg k v es pb w kv :
  (1 <= pb <= 32)%nat -> is_ceil_div es pb w ->
  kv_from_base64_strings sha dbg k v es pb = Ok kv ->
  sha256_into_u64_sized sha k = Ok (kv_key kv) /\
  exists b, b64_decode v = Ok b /\ (w * pb <= 8 * length b + pb)%nat /\
            kv_value kv = map (chunk b pb) (seq 0 w).
Proof.
  intros Hpb Hw H. unfold kv_from_base64_strings in H. apply bind_Ok in H as (key & Hk & H).
  apply bind_Ok in H as (val & Hv & [= <-]). cbn [kv_key kv_value]. split; auto.
  unfold kv_construct_row in Hv.
  destruct (get_row_width_pos es pb) as (w' & E & Hw'); [lia|]. rewrite E in Hv.
  rewrite (is_ceil_div_unique _ _ _ _ Hw' Hw) in Hv. cbn [bind] in Hv.
  apply (construct_row_inv dbg v pb w val Hpb). exact Hv.
Qed.

Lemma fingerprints_mod_range f k F :
  0 <= k <= 31 -> bp_ptxt_mod f = 2 ^ k -> get_fingerprints_mod f = Ok F -> Forall (fun x => 0 <= x < 2 ^ k) F.
Proof.
  intros Hk Ep H. unfold get_fingerprints_mod in H. rewrite Ep, p_small in H by auto.
  rewrite (mapM_Ok _ (fun x => x mod 2 ^ k)) in H by (intros; apply remz_pos, p_pos; auto).
  injection H as <-. apply Forall_map, Forall_forall. intros x _. apply Z.mod_pos_bound, p_pos; auto.
Qed.

Lemma from_slice_mod dbg fe rnd seed keys data label p f :
  from_slice dbg fe rnd seed keys data label p = Ok f -> bp_ptxt_mod f = p.
Proof.
  unfold from_slice. destruct (negb _); [discriminate|]. intros H.
  now apply from_impl_length in H as (g & _ & _ & ? & _).
Qed.
