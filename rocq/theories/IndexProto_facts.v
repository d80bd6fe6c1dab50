(** The index protocol as a whole. *)
From Verif Require Import Base Base_facts Fmt Fmt_facts Mat Mat_facts Lwe Db Api Spec
  Codec_facts Index_facts.
From Coq Require Import ZifyBool ZifyNat.
Local Open Scope Z_scope.
Ltac Zify.zify_post_hook ::= Z.div_mod_to_equations.

(** [stored strs m pb w elems]: the first m strings decode to [elems], each long enough to
    be cut into w chunks of pb bits. *)
Definition stored (strs : list (list Z)) (m pb w : nat) (elems : list (list Z)) : Prop :=
  length elems = m /\ (m <= length strs)%nat /\
  forall i, (i < m)%nat ->
    b64_decode (nth i strs []) = Ok (nth i elems []) /\
    (w * pb <= 8 * length (nth i elems []) + pb)%nat.

Definition db_of (elems : list (list Z)) (m es pb w : nat) : index_db :=
  {| id_entries := map (column elems pb) (seq 0 w); id_m := m; id_elem_size := es;
     id_plaintext_bits := pb |}.

Lemma row_of_bits_chunk b pb w :
  row_of_bits (bytes_to_bits_le b) pb w = map (chunk b pb) (seq 0 w).
Proof. unfold row_of_bits, chunk. now rewrite bytes_to_bits_spec. Qed.

Lemma construct_row_ok dbg s b pb w :
  (1 <= pb <= 32)%nat -> b64_decode s = Ok b -> (w * pb <= 8 * length b + pb)%nat ->
  index_construct_row dbg s pb w = Ok (map (chunk b pb) (seq 0 w)).
Proof.
  intros Hpb Hd Hl. unfold index_construct_row. rewrite Hd. cbn [bind].
  rewrite chunk_row_closed by (rewrite ?bytes_to_bits_length; auto).
  f_equal. apply row_of_bits_chunk.
Qed.

Lemma construct_row_inv dbg s pb w row :
  (1 <= pb <= 32)%nat -> index_construct_row dbg s pb w = Ok row ->
  exists b, b64_decode s = Ok b /\ (w * pb <= 8 * length b + pb)%nat /\
            row = map (chunk b pb) (seq 0 w).
Proof.
  intros Hpb H. unfold index_construct_row in H. apply bind_Ok in H as (b & Hb & H).
  exists b. split; auto.
  destruct (Nat.le_gt_cases (w * pb) (8 * length b + pb)) as [Hl|Hl].
  - split; auto. rewrite chunk_row_closed in H by (rewrite ?bytes_to_bits_length; auto).
    injection H as <-. apply row_of_bits_chunk.
  - rewrite chunk_row_panic in H by (rewrite ?bytes_to_bits_length; auto). discriminate.
Qed.

Lemma columns_transpose elems pb w :
  transpose (map (fun b => map (chunk b pb) (seq 0 w)) elems) w = map (column elems pb) (seq 0 w).
Proof.
  unfold transpose. apply map_ext_in. intros j Hj. apply in_seq in Hj.
  unfold column. rewrite map_map. apply map_ext. intros b. now rewrite nth_map_seq by lia.
Qed.

Lemma index_db_new_ok dbg strs m es pb w elems :
  (1 <= pb <= 32)%nat -> is_ceil_div es pb w -> (0 < m)%nat -> stored strs m pb w elems ->
  index_db_new dbg strs m es pb = Ok (db_of elems m es pb w).
Proof.
  intros Hpb Hw Hm (Hl & Hls & Hst). unfold index_db_new, construct_rows.
  destruct (get_row_width_pos es pb) as (w' & -> & Hw'); [lia|].
  rewrite (is_ceil_div_unique _ _ _ _ Hw' Hw). cbn [bind].
  rewrite (mapM_Ok _ (fun i => map (chunk (nth i elems []) pb) (seq 0 w))).
  2:{ intros i Hi. apply in_seq in Hi. rewrite (idx_nth strs i []) by lia. cbn [bind].
      destruct (Hst i) as [H1 H2]; [lia|]. now apply construct_row_ok. }
  cbn [bind]. subst m.
  replace (map (fun i => map (chunk (nth i elems []) pb) (seq 0 w)) (seq 0 (length elems)))
    with (map (fun b => map (chunk b pb) (seq 0 w)) elems).
  2:{ rewrite <- (map_nth_seq elems []) at 1. now rewrite map_map. }
  rewrite (swap_matrix_rect _ (length elems) w); [|split|lia].
  - cbn [bind]. rewrite columns_transpose. reflexivity.
  - apply map_length.
  - apply Forall_map, Forall_forall. intros. now rewrite map_length, seq_length.
Qed.

Lemma index_db_new_inv dbg strs m es pb w db :
  (1 <= pb <= 32)%nat -> is_ceil_div es pb w -> index_db_new dbg strs m es pb = Ok db ->
  (0 < m)%nat /\ exists elems, stored strs m pb w elems /\ db = db_of elems m es pb w.
Proof.
  intros Hpb Hw H. pose proof H as H0. unfold index_db_new in H.
  apply bind_Ok in H as (rows & Hr & H). apply bind_Ok in H as (ents & He & H).
  unfold construct_rows in Hr.
  destruct (get_row_width_pos es pb) as (w' & E & Hw'); [lia|]. rewrite E in Hr.
  rewrite (is_ceil_div_unique _ _ _ _ Hw' Hw) in Hr. cbn [bind] in Hr.
  assert (Hm : (0 < m)%nat).
  { destruct m; [|lia]. simpl in Hr. injection Hr as <-. discriminate He. }
  split; auto.
  apply (mapM_seq_Ok _ _ _ []) in Hr as [Hlen Hr].
  assert (Hex : exists elems, length elems = m /\ forall i, (i < m)%nat ->
     b64_decode (nth i strs []) = Ok (nth i elems []) /\
    (w * pb <= 8 * length (nth i elems []) + pb)%nat /\ (i < length strs)%nat).
  { assert (Hi : forall i, (i < m)%nat -> exists b, b64_decode (nth i strs []) = Ok b /\
               (w * pb <= 8 * length b + pb)%nat /\ (i < length strs)%nat).
    { intros i Hi. specialize (Hr i Hi). apply bind_Ok in Hr as (s & Hs & Hr).
      pose proof (idx_lt _ _ _ Hs) as Hlt. rewrite (idx_nth _ _ []) in Hs by auto.
      injection Hs as <-. apply construct_row_inv in Hr as (b & ? & ? & _); eauto. }
    clear - Hi. induction m as [|m IH].
    - exists []. split; auto. intros; lia.
    - destruct IH as (el & L & IH); [intros; apply Hi; lia|].
      destruct (Hi m) as (b & Hb); [lia|]. exists (el ++ [b]).
      rewrite app_length. simpl. split; [lia|]. intros i Him.
      destruct (Nat.eq_dec i m) as [->|].
      + rewrite app_nth2 by lia. rewrite L, Nat.sub_diag. exact Hb.
      + rewrite app_nth1 by lia. apply IH. lia. }
  destruct Hex as (elems & L & Hel). exists elems.
  assert (Hst : stored strs m pb w elems).
  { split; auto. split; [|intros i Hi; destruct (Hel i Hi) as (? & ? & ?); auto].
    destruct (Hel (m - 1)%nat) as (_ & _ & ?); lia. }
  split; auto.
  rewrite (index_db_new_ok dbg strs m es pb w elems) in H0 by auto. now injection H0.
Qed.

(** ** Public parameters *)
Definition pubmat (prg : list Z -> nat -> Z) seed dim m := generate_lwe_matrix_from_seed prg seed dim m.

Lemma pubmat_shape prg seed dim m : shape (pubmat prg seed dim m) m dim.
Proof.
  unfold pubmat, generate_lwe_matrix_from_seed, shape. rewrite map_length, seq_length. split; auto.
  apply Forall_map, Forall_forall. intros. now rewrite map_length, seq_length.
Qed.

Lemma column_length elems pb c : length (column elems pb c) = length elems.
Proof. apply map_length. Qed.

Lemma db_of_col elems m es pb w c :
  (c < w)%nat -> idx (id_entries (db_of elems m es pb w)) c = Ok (column elems pb c).
Proof.
  intros H. rewrite (idx_nth _ _ []) by (simpl; rewrite map_length, seq_length; auto).
  simpl. f_equal. now rewrite nth_map_seq.
Qed.

Lemma index_vec_mult_ok elems m es pb w q c :
  length elems = m -> (c < w)%nat -> length q = m ->
  index_vec_mult (db_of elems m es pb w) q c = Ok (dot q (column elems pb c) mod two32).
Proof.
  intros Hm Hc Hq. unfold index_vec_mult. rewrite db_of_col by auto. cbn [bind].
  rewrite column_length. replace (length q =? length elems)%nat with true by lia. cbn [negb].
  rewrite vec_mult_closed, column_length. replace (length q =? length elems)%nat with true by lia.
  reflexivity.
Qed.

Lemma index_vec_mult_panic elems m es pb w q c :
  length elems = m -> (c < w)%nat -> length q <> m ->
  index_vec_mult (db_of elems m es pb w) q c = Panic.
Proof.
  intros Hm Hc Hq. unfold index_vec_mult. rewrite db_of_col by auto. cbn [bind].
  rewrite column_length. now replace (length q =? length elems)%nat with false by lia.
Qed.

Definition rhs_of (A : list (list Z)) (dim : nat) (elems : list (list Z)) (pb w : nat) :=
  map (fun c => map (fun r => dot r (column elems pb c) mod two32) (transpose A dim)) (seq 0 w).

Definition params_of prg seed dim elems m es pb w : index_params :=
  {| ip_dim := dim; ip_m := m; ip_public_seed := seed;
     ip_rhs := rhs_of (pubmat prg seed dim m) dim elems pb w;
     ip_elem_size := es; ip_plaintext_bits := pb |}.

Lemma index_params_new_ok prg elems m es pb w dim seed :
  (1 <= pb)%nat -> is_ceil_div es pb w -> length elems = m -> (0 < m)%nat ->
  index_params_new prg (db_of elems m es pb w) dim seed
  = Ok (params_of prg seed dim elems m es pb w).
Proof.
  intros Hpb Hw Hl Hm. unfold index_params_new, generate_params_rhs.
  cbn [index_matrix_height bind id_m db_of].
  fold (pubmat prg seed dim m).
  pose proof (pubmat_shape prg seed dim m) as HA.
  rewrite (swap_matrix_rect _ m dim) by auto. cbn [bind].
  unfold index_row_width_self. cbn [id_elem_size id_plaintext_bits db_of].
  destruct (get_row_width_pos es pb) as (w' & -> & Hw'); [lia|].
  rewrite (is_ceil_div_unique _ _ _ _ Hw' Hw). cbn [bind].
  fold (db_of elems m es pb w).
  rewrite (mapM_Ok _ (fun c => map (fun r => dot r (column elems pb c) mod two32)
                                   (transpose (pubmat prg seed dim m) dim))).
  - reflexivity.
  - intros c Hc. apply in_seq in Hc. apply mapM_Ok. intros r Hr.
    apply index_vec_mult_ok; auto; [lia|].
    pose proof (transpose_shape (pubmat prg seed dim m) dim) as [_ HF].
    rewrite Forall_forall in HF. rewrite (HF r Hr). apply HA.
Qed.

Definition shard_of prg seed dim elems m es pb w : shard :=
  {| sh_db := db_of elems m es pb w; sh_params := params_of prg seed dim elems m es pb w |}.

Lemma shard_ok prg dbg seed strs dim m es pb w elems :
  (1 <= pb <= 32)%nat -> is_ceil_div es pb w -> (0 < m)%nat -> stored strs m pb w elems ->
  shard_from_base64_strings prg dbg seed strs dim m es pb
  = Ok (shard_of prg seed dim elems m es pb w).
Proof.
  intros Hpb Hw Hm Hst. unfold shard_from_base64_strings.
  rewrite (index_db_new_ok dbg strs m es pb w elems) by auto. cbn [bind].
  rewrite index_params_new_ok by (auto; try lia; apply Hst). reflexivity.
Qed.

Lemma shard_inv prg dbg seed strs dim m es pb w sh :
  (1 <= pb <= 32)%nat -> is_ceil_div es pb w ->
  shard_from_base64_strings prg dbg seed strs dim m es pb = Ok sh ->
  (0 < m)%nat /\ exists elems, stored strs m pb w elems /\
     sh = shard_of prg seed dim elems m es pb w.
Proof.
  intros Hpb Hw H. unfold shard_from_base64_strings in H.
  apply bind_Ok in H as (db & Hdb & H).
  apply (index_db_new_inv _ _ _ _ _ w) in Hdb as (Hm & elems & Hst & ->); auto.
  split; auto. exists elems. split; auto.
  rewrite index_params_new_ok in H by (auto; try lia; apply Hst).
  cbn [bind] in H. now injection H as <-.
Qed.

(** ** Query parameters *)
Definition secret (dim : nat) (tape : list Z) : list Z := firstn dim (draws tape).
Definition noise (dim m : nat) (tape : list Z) : list Z := firstn m (skipn dim (draws tape)).

Definition words (l : list Z) : list Z := map (fun d => d mod two32) l.

Lemma words_length l : length (words l) = length l. Proof. apply map_length. Qed.

Definition qp_of A dim (elems : list (list Z)) m es pb w tape : query_params :=
  {| qp_lhs := masked_lhs A (words (secret dim tape)) (noise dim m tape);
     qp_rhs := map (fun c => dot (words (secret dim tape)) c mod two32) (rhs_of A dim elems pb w);
     qp_elem_size := es; qp_plaintext_bits := pb; qp_extra := None; qp_used := false |}.

Lemma masked_lhs_firstn cp s es :
  masked_lhs cp s es = masked_lhs cp s (firstn (length cp) es).
Proof.
  unfold masked_lhs. apply map_ext_in. intros i Hi. apply in_seq in Hi.
  now rewrite nth_firstn' by lia.
Qed.

Lemma rhs_of_lengths A dim elems pb w :
  Forall (fun c => length c = dim) (rhs_of A dim elems pb w).
Proof.
  unfold rhs_of. apply Forall_map, Forall_forall. intros. rewrite map_length.
  unfold transpose. now rewrite map_length, seq_length.
Qed.

Lemma gen_qp_ok prg seed dim elems m es pb w tape :
  (dim + m <= length (draws tape))%nat ->
  exists rest,
  generate_index_query_params (index_common_params prg (params_of prg seed dim elems m es pb w))
    (params_of prg seed dim elems m es pb w) tape
  = Ok (qp_of (pubmat prg seed dim m) dim elems m es pb w tape, rest).
Proof.
  intros Ht. unfold generate_index_query_params, index_common_params.
  cbn [ip_dim ip_m ip_public_seed ip_rhs ip_elem_size ip_plaintext_bits params_of].
  fold (pubmat prg seed dim m).
  pose proof (random_ternary_vector_draws dim tape) as H1.
  replace (dim <=? length (draws tape))%nat with true in H1 by lia.
  destruct H1 as (t1 & -> & H2). cbn [bind].
  fold (secret dim tape). fold (words (secret dim tape)).
  pose proof (pubmat_shape prg seed dim m) as [HAl HAF].
  assert (Hs : length (words (secret dim tape)) = dim).
  { rewrite words_length. unfold secret. rewrite firstn_length. lia. }
  destruct (mult_left_ok (pubmat prg seed dim m) (words (secret dim tape)) t1) as (t2 & -> & H3).
  { eapply Forall_impl; [|exact HAF]. simpl. intros; congruence. }
  { rewrite H2, skipn_length. lia. }
  cbn [bind]. rewrite mult_right_ok.
  2:{ rewrite Hs. apply rhs_of_lengths. }
  cbn [bind]. exists t2. unfold qp_of. do 3 f_equal.
  rewrite masked_lhs_firstn, H2, HAl. reflexivity.
Qed.

Lemma gen_qp_inv prg seed dim elems m es pb w tape qp rest :
  generate_index_query_params (index_common_params prg (params_of prg seed dim elems m es pb w))
    (params_of prg seed dim elems m es pb w) tape = Ok (qp, rest) ->
  (dim + m <= length (draws tape))%nat /\
  qp = qp_of (pubmat prg seed dim m) dim elems m es pb w tape.
Proof.
  intros H.
  assert (Ht : (dim + m <= length (draws tape))%nat).
  { unfold generate_index_query_params, index_common_params in H.
    cbn [ip_dim ip_m ip_public_seed ip_rhs ip_elem_size ip_plaintext_bits params_of] in H.
    fold (pubmat prg seed dim m) in H.
    pose proof (random_ternary_vector_draws dim tape) as H1.
    destruct (Nat.leb_spec dim (length (draws tape))) as [Hd|Hd]; [|rewrite H1 in H; discriminate].
    destruct H1 as (t1 & E & H2). rewrite E in H. cbn [bind] in H.
    apply bind_Ok in H as ([lhs t2] & H & _). apply mult_left_inv in H as [_ H].
    rewrite H2, skipn_length in H.
    pose proof (pubmat_shape prg seed dim m) as [HAl _]. lia. }
  split; auto.
  destruct (gen_qp_ok prg seed dim elems m es pb w tape Ht) as (r' & E).
  rewrite E in H. now injection H.
Qed.

(** ** Query *)
Lemma index_query_inv dbg qp r q :
  (1 <= qp_plaintext_bits qp <= 31)%nat ->
  snd (index_generate_query dbg qp r) = Ok q ->
  qp_used qp = false /\ (r < length (qp_lhs qp))%nat /\
  nth r (qp_lhs qp) 0 + delta (qp_plaintext_bits qp) < two32 /\
  q = upd (qp_lhs qp) r ((nth r (qp_lhs qp) 0 + delta (qp_plaintext_bits qp)) mod two32).
Proof.
  intros Hpb H. unfold index_generate_query in H. destruct (qp_used qp); [discriminate|].
  cbn [snd] in H. rewrite get_rounding_factor_ok in H by auto. cbn [bind] in H.
  fold (delta (qp_plaintext_bits qp)) in H.
  apply bind_Ok in H as (x & Hx & H). pose proof (idx_lt _ _ _ Hx) as Hlt.
  rewrite (idx_nth _ _ 0) in Hx by auto. injection Hx as <-.
  destruct (Z.leb_spec two32 (nth r (qp_lhs qp) 0 + delta (qp_plaintext_bits qp)));
    cbn [negb] in H; [discriminate|].
  apply set_Ok in H as [_ ->]. auto.
Qed.

(** ** Algebra of one column *)
Lemma nth_words l i : nth i (words l) 0 = nth i l 0 mod two32.
Proof.
  unfold words. destruct (Nat.lt_ge_cases i (length l)).
  - now rewrite (nth_map' _ _ _ _ 0).
  - rewrite !nth_overflow; auto. now rewrite map_length.
Qed.

Lemma masked_lhs_length cp s es : length (masked_lhs cp s es) = length cp.
Proof. unfold masked_lhs. now rewrite map_length, seq_length. Qed.

Lemma masked_dot A s es d :
  length d = length A -> length es = length A ->
  dot (masked_lhs A s es) d mod two32 = (dot (map (dot s) A) d + dot es d) mod two32.
Proof.
  intros Hd He.
  rewrite (dot_cong _ d (map (fun i => dot s (nth i A []) + nth i es 0) (seq 0 (length A))) d).
  - rewrite dot_map_add by auto. do 2 f_equal.
    + f_equal. rewrite <- (map_nth_seq A []) at 2. now rewrite map_map.
    + f_equal. rewrite <- He. apply map_nth_seq.
  - now rewrite masked_lhs_length, map_length, seq_length.
  - reflexivity.
  - intros i Hi. rewrite masked_lhs_length in Hi. unfold masked_lhs.
    rewrite !nth_map_seq by auto. now rewrite Zmod_mod.
  - auto.
Qed.

Lemma client_rhs A s d :
  Forall (fun r => length r = length s) A -> length d = length A ->
  dot s (map (fun r => dot r d mod two32) (transpose A (length s))) mod two32
  = dot (map (dot s) A) d mod two32.
Proof.
  intros HA Hd. rewrite <- dot_transpose by auto.
  apply dot_cong; auto.
  - now rewrite !map_length.
  - intros i Hi. rewrite map_length in Hi.
    rewrite !(nth_map' _ _ _ _ []) by auto. apply Zmod_mod.
Qed.

Lemma response_word A s es d r D :
  Forall (fun c => length c = length s) A -> length d = length A -> length es = length A ->
  (r < length A)%nat ->
  dot (upd (masked_lhs A s es) r ((nth r (masked_lhs A s es) 0 + D) mod two32)) d mod two32
  = (dot s (map (fun c => dot c d mod two32) (transpose A (length s))) mod two32
     + D * nth r d 0 + dot es d) mod two32.
Proof.
  intros HA Hd He Hr.
  rewrite dot_upd by (rewrite masked_lhs_length; auto).
  set (x := nth r (masked_lhs A s es) 0).
  assert (E : (dot (masked_lhs A s es) d + ((x + D) mod two32 - x) * nth r d 0) mod two32
            = (dot (masked_lhs A s es) d mod two32 + D * nth r d 0) mod two32).
  { pose proof (Z.div_mod (x + D) two32 ltac:(discriminate)) as Ex.
    replace ((x + D) mod two32 - x) with (D + (- ((x + D) / two32)) * two32) by lia.
    rewrite Z.mul_add_distr_r.
    replace (- ((x + D) / two32) * two32 * nth r d 0)
      with ((- ((x + D) / two32) * nth r d 0) * two32) by lia.
    rewrite Z.add_assoc, Z.mod_add by discriminate. now rewrite Zplus_mod_idemp_l. }
  rewrite E, masked_dot, client_rhs by auto.
  rewrite Zplus_mod_idemp_l.
  rewrite <- (Z.add_assoc (dot (map (dot s) A) d mod two32)), Zplus_mod_idemp_l. f_equal. lia.
Qed.

(** ** Response *)
Lemma shard_respond_ok prg seed dim elems m es pb w q :
  (1 <= pb)%nat -> is_ceil_div es pb w -> length elems = m -> length q = m ->
  shard_respond (shard_of prg seed dim elems m es pb w) q
  = Ok (bincode_ser_vec_u32 (map (fun c => dot q (column elems pb c) mod two32) (seq 0 w))).
Proof.
  intros Hpb Hw Hm Hq. unfold shard_respond, index_row_width_self.
  cbn [sh_db shard_of id_elem_size id_plaintext_bits db_of].
  destruct (get_row_width_pos es pb) as (w' & -> & Hw'); [lia|].
  rewrite (is_ceil_div_unique _ _ _ _ Hw' Hw). cbn [bind]. fold (db_of elems m es pb w).
  rewrite (mapM_Ok _ (fun c => dot q (column elems pb c) mod two32)).
  - reflexivity.
  - intros c Hc. apply in_seq in Hc. apply index_vec_mult_ok; auto. lia.
Qed.

Lemma shard_respond_bad prg seed dim elems m es pb w q :
  (1 <= pb)%nat -> is_ceil_div es pb w -> (0 < w)%nat -> length elems = m -> length q <> m ->
  shard_respond (shard_of prg seed dim elems m es pb w) q = Panic.
Proof.
  intros Hpb Hw Hw0 Hm Hq. unfold shard_respond, index_row_width_self.
  cbn [sh_db shard_of id_elem_size id_plaintext_bits db_of].
  destruct (get_row_width_pos es pb) as (w' & -> & Hw'); [lia|].
  rewrite (is_ceil_div_unique _ _ _ _ Hw' Hw). cbn [bind]. fold (db_of elems m es pb w).
  rewrite (mapM_seq_panic _ _ 0); auto; [intros; lia|].
  apply index_vec_mult_panic; auto.
Qed.

Lemma chunk_range b pb c : 0 <= chunk b pb c < psize pb.
Proof.
  unfold chunk, psize. set (l := firstn pb _).
  pose proof (bits_value_range l) as H. assert (length l <= pb)%nat by apply firstn_le_length.
  split; [lia|]. apply Z.lt_le_trans with (1 := proj2 H). apply Z.pow_le_mono_r; lia.
Qed.

Lemma draws_ternary tape : Forall (fun d => d = 0 \/ d = 1 \/ d = -1) (draws tape).
Proof.
  unfold draws. apply Forall_map, Forall_forall. intros v _. unfold ternary_class.
  destruct (_ <=? _); auto. destruct (_ <=? _); auto.
Qed.

(** The parsed row: every entry is the stored chunk shifted by the rounded noise. *)
Lemma index_protocol_row prg dbg seed dim elems m es pb w tape r q :
  (1 <= pb <= 31)%nat -> is_ceil_div es pb w -> length elems = m ->
  (dim + m <= length (draws tape))%nat -> (r < m)%nat ->
  let A := pubmat prg seed dim m in
  let qp := qp_of A dim elems m es pb w tape in
  q = upd (qp_lhs qp) r ((nth r (qp_lhs qp) 0 + delta pb) mod two32) ->
  let resp := map (fun c => dot q (column elems pb c) mod two32) (seq 0 w) in
  index_parse_resp_as_row dbg qp resp
  = Ok (map (fun c => (chunk (nth r elems []) pb c +
                       (dot (noise dim m tape) (column elems pb c) + half pb - 1) / delta pb)
                      mod psize pb) (seq 0 w)).
Proof.
  intros Hpb Hw Hm Ht Hr A qp Hq resp.
  assert (Hrl : length (qp_rhs qp) = w).
  { unfold qp, qp_of, rhs_of. cbn [qp_rhs]. now rewrite !map_length, seq_length. }
  rewrite (index_parse_closed dbg qp resp w); auto; try lia.
  2:{ unfold resp. now rewrite map_length, seq_length. }
  f_equal. apply map_ext_in. intros c Hc. apply in_seq in Hc.
  cbn [qp_plaintext_bits qp qp_of].
  pose proof (pubmat_shape prg seed dim m) as [HAl HAF]. fold A in HAl, HAF.
  assert (Hs : length (words (secret dim tape)) = dim).
  { rewrite words_length. unfold secret. rewrite firstn_length. lia. }
  assert (Hn : length (noise dim m tape) = m).
  { unfold noise. rewrite firstn_length, skipn_length. lia. }
  assert (HAF' : Forall (fun c => length c = length (words (secret dim tape))) A).
  { eapply Forall_impl; [|exact HAF]. simpl. intros; congruence. }
  apply decode_noise; auto.
  unfold resp. rewrite nth_map_seq by lia. rewrite Zmod_mod. rewrite Hq.
  unfold qp. cbn [qp_lhs qp_rhs qp_of].
  rewrite response_word by (rewrite ?column_length; congruence).
  f_equal. f_equal. f_equal.
  - unfold rhs_of. rewrite map_map, nth_map_seq by lia. now rewrite Hs.
  - f_equal. unfold column. now rewrite (nth_map' _ _ _ _ []) by lia.
Qed.
