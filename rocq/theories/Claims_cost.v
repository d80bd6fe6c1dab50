(** C70: what keyword queries cost compared with index queries. *)
From Verif Require Import Base Spec Fmt Bincode Mat Lwe Db Api Hash Fuse3 Bfusep Float64 Estimate SpecFilter SpecEst Serde Base64 Base_facts Mat_facts Fmt_facts Codec_facts Geom_facts FilterTop_facts Float_facts Estimate_facts Index_facts IndexProto_facts KV_facts Claims_format Claims_filter Claims_index Claims_kv Claims_prob Claims_estimate.
Local Open Scope Z_scope.

(** ** Slots per key *)

Lemma slots_upper log dbg n g : reasonable_log log -> 2 ^ 16 <= Z.of_nat n <= max_keys ->
  geometry dbg (f64_estimates log) n = Ok g -> 4 * Z.of_nat (g_arrlen g) <= 5 * Z.of_nat n.
Proof.
  intros HL [H16 Hn] G.
  destruct (Z_le_gt_dec (2 ^ 20) (Z.of_nat n)) as [H20|H20].
  { destruct (documented_size log dbg n HL Hn) as (g' & G' & _ & U). rewrite G in G'. injection G' as <-. specialize (U H20). lia. }
  pose proof (estimates_sane log n HL Hn) as HS.
  destruct (geometry_shape dbg _ _ HS) as (g' & e & G' & He & Esl & _ & _ & _ & _ & B).
  rewrite G in G'. injection G' as <-. cbn [f64_estimates fe_cap] in B.
  destruct (Nat.leb_spec n 1) as [Q|Q]; [lia|]. cbv zeta in B. 
  assert (ES := seglen_of_geometry log dbg n g HL ltac:(lia) ltac:(lia) G).
  destruct (exp_bounds log HL n) as (w & Ew & _ & Uw & _); [lia|lia|].
  destruct (factor_gen log HL n) as (q & s & F & Bs & q0 & Q2 & _); [lia|lia|].
  assert (NK : 2 ^ Z.log2 (Z.of_nat n) <= Z.of_nat n) by (apply Z.log2_spec; lia).
  assert (K16 : 16 <= Z.log2 (Z.of_nat n)) by (change 16 with (Z.log2 (2 ^ 16)); apply Z.log2_le_mono; exact H16).
  assert (K19 : Z.log2 (Z.of_nat n) < 20) by (apply Z.log2_lt_pow2; lia).
  set (k := Z.log2 (Z.of_nat n)) in *. clearbody k.
  assert (SL : 16 * g_seglen g <= Z.of_nat n).
  { assert (D : w / 2 ^ 200 <= k - 4).
    { assert (w / 2 ^ 200 < k - 3); [|lia]. apply Z.div_lt_upper_bound; [reflexivity|].
      assert (Kc : k = 16 \/ k = 17 \/ k = 18 \/ k = 19) by lia.
      clear - Uw Kc. destruct Kc as [-> | [-> | [-> | ->]]]; lia. }
    assert (P : 16 * 2 ^ (k - 4) = 2 ^ k).
    { change 16 with (2 ^ 4). rewrite <- Z.pow_add_r by lia. f_equal. lia. }
    assert (2 ^ seglen_exp log n <= 2 ^ (k - 4)) by (apply Z.pow_le_mono_r; [lia|]; rewrite Ew; lia). lia. }
  set (f := Z.max (9 * 2 ^ 197) s) in *.
  assert (Hq : q * (6931 * 16) <= q * (6931 * k)) by (apply Z.mul_le_mono_nonneg_l; lia).
  assert (Hf : 2 ^ 197 <= f /\ 100000 * f <= 118650 * 2 ^ 200).
  { set (X := q * (6931 * k)) in *. clearbody X. clear - Bs Hq Q2 f. unfold f. clear f. split; [lia|].
    destruct (Z.max_spec (9 * 2 ^ 197) s) as [[_ ->]|[_ ->]]; lia. }
  destruct (cap_gen log n f) as (c & Ec & _ & B2); [lia|lia|exact F|clear - Hf; lia|].
  assert (M2 : Z.of_nat n * (100000 * f) <= Z.of_nat n * (118650 * 2 ^ 200)) by (apply Z.mul_le_mono_nonneg_l; lia).
  assert (M3 : (2 * c - 1) * 2 ^ 199 * 2 ^ 51 * 100000 <= Z.of_nat n * (118650 * 2 ^ 200) * (2 ^ 51 + 1)).
  { replace (Z.of_nat n * (100000 * f)) with (Z.of_nat n * f * 100000) in M2 by ring.
    set (X := Z.of_nat n * f) in *. clearbody X. clear - B2 M2. lia. }
  assert (Hc : 100000 * (2 * c - 1) <= 237301 * Z.of_nat n) by (clear - M3 H20; lia).
  rewrite Ec in B. assert (Z.of_nat (g_arrlen g) <= Z.max (3 * g_seglen g) (c + g_seglen g - 1)) by (clear - B; lia).
  clear - H Hc SL H16. lia.
Qed.

Lemma slots_lower log dbg n g : reasonable_log log -> 1 <= Z.of_nat n <= max_keys ->
  geometry dbg (f64_estimates log) n = Ok g -> 108 * Z.of_nat n < 100 * Z.of_nat (g_arrlen g).
Proof.
  intros HL [H1 Hn] G.
  destruct (documented_size log dbg n HL Hn) as (g' & G' & L & _). rewrite G in G'. injection G' as <-.
  pose proof (estimates_sane log n HL Hn) as HS.
  destruct (geometry_shape dbg _ _ HS) as (g' & e & G' & He & Esl & _ & (c & Hc & Ec) & Ea & _ & _).
  rewrite G in G'. injection G' as <-.
  assert (4 <= g_seglen g) by (rewrite Esl; change 4 with (2 ^ 2); apply Z.pow_le_mono_r; lia).
  assert (12 <= Z.of_nat (g_arrlen g)) by (rewrite Ea, Ec; nia).
  destruct (Nat.le_gt_cases 2 n) as [H2|H2]; [specialize (L H2); lia|lia].
Qed.

(** ** Serialised sizes *)
Lemma flat_map_length_const {A} (f : A -> list Z) k l : Forall (fun a => length (f a) = k) l ->
  length (flat_map f l) = (k * length l)%nat.
Proof. induction 1 as [|a l Ha _ IH]; cbn [flat_map length]; [lia|]. rewrite app_length, Ha, IH. lia. Qed.
Lemma usize_size n : length (benc b_usize n) = 8%nat.
Proof. unfold b_usize, b_iso, b_uint. cbn [benc]. apply length_le_bytes. Qed.
Lemma words_size l : length (bin_serialize b_words l) = (8 + 4 * length l)%nat.
Proof.
  unfold bin_serialize, b_words, b_vec. cbn [benc]. rewrite app_length, usize_size. f_equal.
  apply flat_map_length_const, Forall_forall. intros x _. unfold b_u32, b_uint. cbn [benc]. apply length_le_bytes.
Qed.
Lemma matrix_size M h w : shape M h w -> length (bin_serialize b_matrix M) = (8 + (8 + 4 * w) * h)%nat.
Proof.
  intros [E F]. unfold bin_serialize, b_matrix, b_vec. cbn [benc]. rewrite app_length, usize_size. f_equal.
  rewrite <- E. apply flat_map_length_const. eapply Forall_impl; [|exact F]. intros r Hr. cbn beta in Hr. rewrite <- Hr. apply words_size.
Qed.
Lemma seed_size s : length (benc b_seed s) = length s.
Proof.
  unfold b_seed, b_arr. cbn [benc]. rewrite (flat_map_length_const _ 1); [lia|]. apply Forall_forall. intros x _.
  unfold b_u8, b_uint. cbn [benc]. apply length_le_bytes.
Qed.
Lemma u32_size x : length (benc b_u32 x) = 4%nat.
Proof. unfold b_u32, b_uint. cbn [benc]. apply length_le_bytes. Qed.
Lemma filter_params_size p : length (benc b_filter_params p) = (length (fp_seed p) + 12)%nat.
Proof. unfold b_filter_params, b_iso, b_pair. cbn [benc fst snd]. rewrite !app_length, seed_size, !u32_size. lia. Qed.
Lemma index_params_size p w : shape (ip_rhs p) w (ip_dim p) ->
  length (bin_serialize b_index_params p) = (40 + length (ip_public_seed p) + (8 + 4 * ip_dim p) * w)%nat.
Proof.
  intros S. unfold bin_serialize, b_index_params, b_iso, b_pair. cbn [benc fst snd].
  rewrite !app_length, seed_size. rewrite (usize_size (ip_dim p)), (usize_size (ip_m p)), (usize_size (ip_elem_size p)), (usize_size (ip_plaintext_bits p)).
  pose proof (matrix_size _ _ _ S) as E. unfold bin_serialize in E. rewrite E. lia.
Qed.
Lemma kv_params_size p w : shape (kp_rhs p) w (kp_dim p) ->
  length (bin_serialize b_kv_params p) = (40 + length (kp_public_seed p) + (8 + 4 * kp_dim p) * w + length (fp_seed (kp_filter_params p)) + 12)%nat.
Proof.
  intros S. unfold bin_serialize, b_kv_params, b_iso, b_pair. cbn [benc fst snd].
  rewrite !app_length, seed_size, filter_params_size. rewrite (usize_size (kp_dim p)), (usize_size (kp_m p)), (usize_size (kp_elem_size p)), (usize_size (kp_plaintext_bits p)).
  pose proof (matrix_size _ _ _ S) as E. unfold bin_serialize in E. rewrite E. lia.
Qed.

(** ** The costs *)
Lemma kv_query_length dbg qp key qp' q : kv_generate_query dbg qp key = (qp', Ok q) -> length q = length (qp_lhs qp).
Proof.
  intros H. unfold kv_generate_query in H. destruct (qp_used qp); [discriminate|].
  apply (f_equal snd) in H. cbn [snd] in H. apply bind_Ok in H as (D & _ & H). destruct (qp_extra qp) as [fp|]; [|discriminate].
  apply bind_Ok in H as (l & _ & H). revert H. generalize (qp_lhs qp). induction l as [|i l IH]; intros L H; cbn [foldM] in H; [congruence|].
  apply bind_Ok in H as (L' & X & H). apply IH in H. rewrite H. apply bind_Ok in X as (x & _ & X). apply set_Ok in X as [_ ->]. apply length_upd.
Qed.

(** @C70 Index queries, for every shard and every run: the bytes of the query, of the answer, of
    the common parameters and of the shard's parameters, and the size of the matrix that the
    server multiplies by, for m elements of w chunks. *)
Lemma index_costs : forall prg dbg seed strs dim m es pb w sh tape rest qp r qp' q bytes,
  (1 <= pb <= 31)%nat -> is_ceil_div es pb w -> length seed = 32%nat ->
  shard_from_base64_strings prg dbg seed strs dim m es pb = Ok sh ->
  generate_index_query_params (index_common_params prg (sh_params sh)) (sh_params sh) tape = Ok (qp, rest) ->
  index_generate_query dbg qp r = (qp', Ok q) -> shard_respond sh q = Ok bytes ->
  (length (bin_serialize b_query q) = 8 + 4 * m)%nat /\
  (length bytes = 8 + 4 * w)%nat /\
  (length (bin_serialize b_common_params (index_common_params prg (sh_params sh))) = 8 + (8 + 4 * dim) * m)%nat /\
  (length (bin_serialize b_index_params (sh_params sh)) = 72 + (8 + 4 * dim) * w)%nat /\
  shape (id_entries (sh_db sh)) w m.
Proof.
  intros prg dbg seed strs dim m es pb w sh tape rest qp r qp' q bytes Hpb Hw Hs Hsh Hqp Hq Hr.
  destruct (shard_inv prg dbg seed strs dim m es pb w sh ltac:(lia) Hw Hsh) as (Hm & elems & Hst & ->).
  cbn [sh_db sh_params shard_of] in *.
  apply gen_qp_inv in Hqp as [Ht Eqp].
  assert (Lq : length q = m).
  { apply (f_equal snd) in Hq. cbn [snd] in Hq. apply index_query_inv in Hq as (_ & _ & _ & ->); [|rewrite Eqp; cbn [qp_plaintext_bits qp_of]; exact Hpb].
    rewrite length_upd, Eqp. cbn [qp_lhs qp_of]. rewrite masked_lhs_length. apply pubmat_shape. }
  assert (Le : length elems = m) by apply Hst.
  split; [unfold b_query; rewrite words_size; lia|]. split.
  { rewrite (shard_respond_ok prg seed dim elems m es pb w q) in Hr by (auto; lia). injection Hr as <-.
    now rewrite bincode_ser_length, map_length, seq_length. }
  split.
  { unfold b_common_params. apply matrix_size. unfold index_common_params. cbn [ip_dim ip_m ip_public_seed params_of].
    fold (pubmat prg seed dim m). apply pubmat_shape. }
  split.
  { rewrite (index_params_size _ w); cbn [ip_dim ip_public_seed ip_rhs params_of]; [lia|].
    split; [unfold rhs_of; now rewrite map_length, seq_length|apply rhs_of_lengths]. }
  cbn [id_entries db_of]. split; [now rewrite map_length, seq_length|].
  apply Forall_map, Forall_forall. intros c _. now rewrite column_length.
Qed.

(** @C70 Keyword queries: the same numbers with the number of filter slots (published as the
    shard's m) in place of the number of elements, and 44 more bytes of parameters. *)
Lemma keyword_costs : forall prg dbg fe rnd fseed pseed kvs dim m es pb w sh tape rest qp key qp' q bytes,
  (1 <= pb <= 31)%nat -> is_ceil_div es pb w -> length fseed = 32%nat -> length pseed = 32%nat ->
  sane_estimates fe (length kvs) -> Forall (fun kv => length (kv_value kv) = w) kvs ->
  kv_shard_new prg dbg fe rnd fseed pseed kvs dim m es pb = Ok sh ->
  generate_kv_query_params (kv_common_params prg (ks_params sh)) (ks_params sh) tape = Ok (qp, rest) ->
  kv_generate_query dbg qp key = (qp', Ok q) -> kv_shard_respond sh q = Ok bytes ->
  let slots := kp_m (ks_params sh) in
  (length (bin_serialize b_query q) = 8 + 4 * slots)%nat /\
  (length bytes = 8 + 4 * w)%nat /\
  (length (bin_serialize b_common_params (kv_common_params prg (ks_params sh))) = 8 + (8 + 4 * dim) * slots)%nat /\
  (length (bin_serialize b_kv_params (ks_params sh)) = 72 + (8 + 4 * dim) * w + 44)%nat /\
  shape (kd_entries (ks_db sh)) w slots.
Proof.
  intros prg dbg fe rnd fseed pseed kvs dim m es pb w sh tape rest qp key qp' q bytes Hpb Hw Hfs Hps Hsane HF Hsh Hqp Hq Hr slots.
  unfold kv_shard_new in Hsh. apply bind_Ok in Hsh as (db & Hdb & Hsh).
  destruct (kv_db_inv dbg fe rnd fseed kvs m es pb db ltac:(lia) Hdb)
    as (kv0 & g & H0 & Hg & Em & Ees & Epb & Hfp & Hs & HW & _ & HC).
  assert (HW' : length (kv_value kv0) = w).
  { rewrite Forall_forall in HF. apply HF. eapply nth_error_In; eauto. }
  rewrite HW' in *.
  destruct (geometry_valid _ _ _ _ Hsane Hg) as [Vg _].
  rewrite <- Ees, <- Epb in Hw.
  rewrite (kv_shard_of_db_ok prg pseed db dim w (g_arrlen g) w) in Hsh; auto; [|lia|now apply geom_pos].
  injection Hsh as <-. unfold slots. cbn [ks_db ks_params] in *.
  apply kv_gen_qp_inv in Hqp as [Ht Eqp].
  destruct (three_slots dbg dbg fe _ g key fseed Hsane Hg) as (a & b & c & Hev & Hab & Hc & _).
  assert (Hlhs : length (qp_lhs qp) = g_arrlen g).
  { rewrite Eqp. cbn [qp_lhs kv_qp_of]. rewrite masked_lhs_length. apply pubmat_shape. }
  rewrite (kv_query_closed dbg qp (fp_of fseed g) key a b c) in Hq; try lia.
  2:{ rewrite Eqp. cbn [qp_plaintext_bits kv_qp_of]. lia. }
  2:{ now rewrite Eqp. }
  2:{ rewrite Eqp. cbn [qp_extra kv_qp_of]. now rewrite Hfp. }
  2:{ exact Hev. }
  assert (Lq : length q = g_arrlen g).
  { apply (f_equal snd) in Hq. cbn [snd] in Hq. assert (q = add3 (delta (qp_plaintext_bits qp)) (qp_lhs qp) a b c) by congruence.
    subst q. unfold add3. now rewrite !add_at_length. }
  change (kp_m (kv_params_of prg pseed dim db (g_arrlen g) w)) with (g_arrlen g).
  split; [unfold b_query; rewrite words_size; lia|]. split.
  { rewrite (kv_respond_closed _ _ w (g_arrlen g) w) in Hr; cbn [ks_db]; auto; [|lia]. injection Hr as <-.
    now rewrite bincode_ser_length, map_length, seq_length. }
  split.
  { unfold b_common_params. apply matrix_size. unfold kv_common_params. cbn [kp_dim kp_m kp_public_seed kv_params_of].
    fold (pubmat prg pseed dim (g_arrlen g)). apply pubmat_shape. }
  split; [|exact Hs].
  rewrite (kv_params_size _ w); cbn [kp_dim kp_public_seed kp_rhs kp_filter_params kv_params_of].
  - rewrite Hfp. cbn [fp_seed fp_of]. lia.
  - split; [unfold kv_rhs_of; now rewrite map_length, seq_length|apply kv_rhs_lengths].
Qed.

(** @C70 Refuted, for every key-value shard that is built and every query: "all costs bounded by a
    factor of at most 1.08". With the code's own size computation the query of a shard of n
    pairs has more than 1.08 n words (an index query has n, see index_costs); so has each
    column of the matrix the server multiplies by. *)
Lemma overhead_refuted : forall log prg dbg rnd fseed pseed kvs dim m es pb w sh tape rest qp key qp' q,
  (1 <= pb <= 31)%nat -> is_ceil_div es pb w -> Z.of_nat es < 2 ^ 64 ->
  reasonable_log log -> Z.of_nat (length kvs) <= max_keys ->
  Forall (fun kv => length (kv_value kv) = w) kvs ->
  kv_shard_new prg dbg (f64_estimates log) rnd fseed pseed kvs dim m es pb = Ok sh ->
  generate_kv_query_params (kv_common_params prg (ks_params sh)) (ks_params sh) tape = Ok (qp, rest) ->
  kv_generate_query dbg qp key = (qp', Ok q) ->
  108 * Z.of_nat (length kvs) < 100 * Z.of_nat (length q).
Proof.
  intros log prg dbg rnd fseed pseed kvs dim m es pb w sh tape rest qp key qp' q Hpb Hw He HL Hn HF Hsh Hqp Hq.
  pose proof (estimates_sane log _ HL Hn) as HS.
  destruct (kv_run prg dbg _ rnd fseed pseed kvs dim m es pb w sh tape rest qp Hpb Hw He HS HF Hsh Hqp key)
    as (g & a & b & c & q0 & Hg & _ & _ & _ & Hc & Hab & _ & _ & Eq & Ll & _).
  pose proof (kv_query_length _ _ _ _ _ Hq) as E. rewrite E, Ll.
  apply (slots_lower log dbg); auto. split; [|exact Hn].
  destruct kvs; [|cbn [length]; lia]. exfalso. unfold kv_shard_new, kv_db_new in Hsh. discriminate.
Qed.

(** @C70 What does hold: from 2^16 pairs on every key-value query is at most 1.25 times as long as
    an index query, and from 2^20 pairs on at most 1.141 times; and so are the columns of the
    matrix. *)
Lemma overhead_bound : forall log prg dbg rnd fseed pseed kvs dim m es pb w sh tape rest qp key qp' q,
  (1 <= pb <= 31)%nat -> is_ceil_div es pb w -> Z.of_nat es < 2 ^ 64 ->
  reasonable_log log -> 2 ^ 16 <= Z.of_nat (length kvs) <= max_keys ->
  Forall (fun kv => length (kv_value kv) = w) kvs ->
  kv_shard_new prg dbg (f64_estimates log) rnd fseed pseed kvs dim m es pb = Ok sh ->
  generate_kv_query_params (kv_common_params prg (ks_params sh)) (ks_params sh) tape = Ok (qp, rest) ->
  kv_generate_query dbg qp key = (qp', Ok q) ->
  100 * Z.of_nat (length q) <= 125 * Z.of_nat (length kvs) /\
  (2 ^ 20 <= Z.of_nat (length kvs) -> 1000 * Z.of_nat (length q) <= 1141 * Z.of_nat (length kvs)).
Proof.
  intros log prg dbg rnd fseed pseed kvs dim m es pb w sh tape rest qp key qp' q Hpb Hw He HL Hn HF Hsh Hqp Hq.
  pose proof (estimates_sane log _ HL (proj2 Hn)) as HS.
  destruct (kv_run prg dbg _ rnd fseed pseed kvs dim m es pb w sh tape rest qp Hpb Hw He HS HF Hsh Hqp key)
    as (g & a & b & c & q0 & Hg & _ & _ & _ & Hc & Hab & _ & _ & Eq & Ll & _).
  pose proof (kv_query_length _ _ _ _ _ Hq) as E. rewrite E, Ll. split.
  - pose proof (slots_upper log dbg _ g HL Hn Hg). lia.
  - intros H20. destruct (documented_size log dbg _ HL (proj2 Hn)) as (g' & G' & _ & U). rewrite Hg in G'. injection G' as <-.
    specialize (U H20). lia.
Qed.

(** @C70 example: three pairs with the code's size computation: a shard is built and queried; the
    query has 20 words (88 bytes) where the index query for the same three values has 3 (20
    bytes), the answers have 16 bytes in both cases. *)
Example cost_example : exists sh qp rest qp' q bytes ksh kqp krest kqp' kq kbytes,
  reasonable_log crude_log /\ is_ceil_div 19 10 2 /\ Forall (fun kv => length (kv_value kv) = 2%nat) ex_kvs /\
  shard_from_base64_strings ex_prg true seed0 (map b64_encode [[188; 6; 0]; [5; 252; 7]; [255; 99; 1]]) 2 3 19 10 = Ok sh /\
  generate_index_query_params (index_common_params ex_prg (sh_params sh)) (sh_params sh) ex_tape = Ok (qp, rest) /\
  index_generate_query true qp 1 = (qp', Ok q) /\ shard_respond sh q = Ok bytes /\
  length (bin_serialize b_query q) = 20%nat /\ length bytes = 16%nat /\
  kv_shard_new ex_prg true (f64_estimates crude_log) ex_rnd seed0 seed0 ex_kvs 2 3 19 10 = Ok ksh /\
  generate_kv_query_params (kv_common_params ex_prg (ks_params ksh)) (ks_params ksh) ex_tape = Ok (kqp, krest) /\
  kv_generate_query true kqp (key4 2) = (kqp', Ok kq) /\ kv_shard_respond ksh kq = Ok kbytes /\
  length kq = 20%nat /\ length (bin_serialize b_query kq) = 88%nat /\ length kbytes = 16%nat.
Proof.
  do 12 eexists. split; [exact crude_log_reasonable|]. split; [split; [lia|intros; lia]|]. split; [repeat constructor|].
  split; [vm_compute; reflexivity|]. split; [vm_compute; reflexivity|]. split; [vm_compute; reflexivity|].
  split; [vm_compute; reflexivity|]. split; [vm_compute; reflexivity|]. split; [vm_compute; reflexivity|].
  split; [vm_compute; reflexivity|]. split; [vm_compute; reflexivity|]. split; [vm_compute; reflexivity|].
  split; [vm_compute; reflexivity|]. split; [vm_compute; reflexivity|]. split; [vm_compute; reflexivity|]. vm_compute; reflexivity.
Qed.
