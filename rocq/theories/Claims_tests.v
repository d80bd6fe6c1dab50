(** C75: the crate's own tests. *)
From Verif Require Import Base Spec SpecLwe SpecFilter Experiment Fmt Base64 Bincode Mat Lwe Hash Bfusep Db Api Client Bench Refusal Tests Base_facts Fmt_facts Codec_facts Mat_facts Index_facts IndexProto_facts Geom_facts Filter_facts FilterTop_facts KV_facts Seq_facts Refusal_facts Claims_format Claims_filter Claims_index Claims_kv Claims_kvbuild Claims_keys Claims_prob Claims_bench Claims_refusal.
Local Open Scope Z_scope.

Lemma equal_true a b : equal a b = true <-> a = b.
Proof. unfold equal. destruct (list_eq_dec Z.eq_dec a b); split; congruence. Qed.
Lemma equal_n_refl a : equal_n a a = true.
Proof. unfold equal_n. destruct (list_eq_dec Nat.eq_dec a a); congruence. Qed.

Lemma for_each_outcome {A} (l : list A) (body : A -> res unit) (p : A -> bool) :
  (forall x, In x l -> body x = if p x then Ok tt else Panic) ->
  for_each l body = if forallb p l then Ok tt else Panic.
Proof.
  unfold for_each. induction l as [|x l IH]; intros H; [reflexivity|]. cbn [mapM forallb].
  rewrite (H x (or_introl eq_refl)). destruct (p x); [|reflexivity]. cbn [bind andb].
  specialize (IH (fun y Hy => H y (or_intror Hy))). destruct (mapM body l); cbn [bind] in *; exact IH || (destruct (forallb p l); congruence).
Qed.
Lemma for_each_ok {A} (l : list A) (body : A -> res unit) :
  (forall x, In x l -> body x = Ok tt) -> for_each l body = Ok tt.
Proof. intros H. unfold for_each. rewrite (mapM_Ok _ (fun _ => tt)); [reflexivity|exact H]. Qed.
Lemma for_each_inv {A} (l : list A) (body : A -> res unit) :
  for_each l body = Ok tt -> forall x, In x l -> body x = Ok tt.
Proof.
  unfold for_each. induction l as [|y l IH]; intros H x Hx; [destruct Hx|]. cbn [mapM] in H.
  apply bind_Ok in H as (v & H & _). apply bind_Ok in H as ([] & H1 & H2). apply bind_Ok in H2 as (v' & H2 & _).
  destruct Hx as [->|Hx]; [exact H1|]. apply IH; [|exact Hx]. rewrite H2. reflexivity.
Qed.

Lemma bits_injective a b : Forall is_u8 a -> Forall is_u8 b -> byte_string_bits a = byte_string_bits b -> a = b.
Proof.
  intros Ha Hb E. rewrite <- !bytes_to_bits_spec in E.
  pose proof (bytes_roundtrip true a Ha) as A. pose proof (bytes_roundtrip true b Hb) as B. congruence.
Qed.

(** ** The index tests *)

Lemma query_of_refused prg dbg seed dim m es pb w elems r tape :
  (1 <= pb <= 31)%nat -> is_ceil_div es pb w -> (0 < m)%nat ->
  forall strs, stored strs m pb w elems ->
  (r < m)%nat -> (dim + m <= length (draws tape))%nat ->
  let qp := qp_of (pubmat prg seed dim m) dim elems m es pb w tape in
  index_generate_query dbg qp r =
    (set_used true qp, if index_query_refused prg dbg seed strs dim m es pb r tape then Err EOverflownAdd
                       else Ok (upd (qp_lhs qp) r ((nth r (qp_lhs qp) 0 + delta pb) mod two32))).
Proof.
  intros Hpb Hw Hm strs Hst Hr Ht qp.
  rewrite (refused_closed prg dbg seed strs dim m es pb w elems r tape Hpb Hw Hm Hst Hr Ht).
  rewrite (index_query_closed dbg qp r Hpb eq_refl). f_equal. unfold qp. cbn [qp_lhs qp_of qp_plaintext_bits].
  pose proof (pubmat_shape prg seed dim m) as [Ls _].
  rewrite masked_lhs_length, Ls. apply Nat.ltb_lt in Hr as Hr'. rewrite Hr'.
  unfold masked_lhs at 1. rewrite nth_map_seq by (rewrite Ls; exact Hr).
  set (x := (dot _ _ + _) mod two32).
  destruct (Z.ltb_spec (x + delta pb) two32), (Z.ltb_spec x (two32 - delta pb)); try reflexivity; lia.
Qed.

Lemma index_round_outcome prg dbg seed bytes dim m es pb w r tape :
  os_bytes bytes -> (1 <= pb <= 31)%nat -> is_ceil_div es pb w -> Z.of_nat es < 2 ^ 64 -> (0 < m)%nat ->
  (r < m)%nat -> (dim + m <= length (draws tape))%nat ->
  let strs := generate_db_eles bytes m ((es + 7) / 8) in
  let elems := map (fun i => bytes i ((es + 7) / 8)%nat) (seq 0 m) in
  let sh := shard_of prg seed dim elems m es pb w in
  (index_query_refused prg dbg seed strs dim m es pb r tape = true -> index_round prg dbg sh strs r tape = Panic) /\
  (index_query_refused prg dbg seed strs dim m es pb r tape = false ->
   (es mod 8 = 0)%nat -> (es mod pb <> 0)%nat ->
   (forall c, (c < w)%nat -> congruent_in (dot (firstn m (skipn dim (draws tape))) (column elems pb c))
                    (- 2 ^ (31 - Z.of_nat pb)) (2 ^ (31 - Z.of_nat pb))) ->
   index_round prg dbg sh strs r tape = Ok tt).
Proof.
  intros Hb Hpb Hw H64 Hm Hr Ht strs elems sh.
  assert (Hpb32 : (1 <= pb <= 32)%nat) by (clear - Hpb; lia).
  pose proof (eles_stored bytes m es pb w Hb Hpb32 Hw) as Hst. fold strs elems in Hst.
  destruct (gen_qp_ok prg seed dim elems m es pb w tape Ht) as [rest Hqp].
  pose proof (query_of_refused prg dbg seed dim m es pb w elems r tape Hpb Hw Hm strs Hst Hr Ht) as Hq. cbv zeta in Hq.
  unfold index_round, sh. cbn [sh_params shard_of]. rewrite Hqp. cbn [unwrap bind]. rewrite Hq.
  split; intros E; rewrite E in *.
  - reflexivity.
  - intros H8 Hes Hn.
    destruct (index_retrieval_bytes prg dbg seed strs elems dim m es pb w sh tape rest _ _ r _ Hpb Hw H64 Hes
      ltac:(unfold sh; apply shard_ok; auto) ltac:(apply Hst) ltac:(intros i Hi; apply (proj2 (proj2 Hst) i Hi)) Hqp Hq Hn)
      as (rb & resp & out & H1 & H2 & H3 & H4 & H5 & H6).
    cbn [unwrap bind]. fold sh. rewrite H1. cbn [unwrap bind]. rewrite H2. cbn [unwrap bind]. rewrite H4. cbn [bind].
    rewrite (idx_nth strs r []) by (unfold strs, generate_db_eles; rewrite map_length, seq_length; exact Hr).
    cbn [bind]. unfold assert_. rewrite (proj2 (equal_true _ _)); [reflexivity|].
    unfold strs, generate_db_eles. rewrite nth_map_seq by exact Hr. f_equal.
    destruct (Hb r ((es + 7) / 8)%nat) as [L B].
    unfold elems in H6. rewrite nth_map_seq in H6 by exact Hr.
    assert (Eb : (8 * ((es + 7) / 8) = es)%nat).
    { clear - H8. pose proof (Nat.div_mod es 8 ltac:(lia)) as D. rewrite H8 in D.
      pose proof (Nat.div_mod (es + 7) 8 ltac:(lia)) as D2. pose proof (Nat.mod_upper_bound (es + 7) 8 ltac:(lia)) as U.
      revert D D2 U. generalize ((es + 7) / 8)%nat ((es + 7) mod 8)%nat (es / 8)%nat. clear. intros; lia. }
    apply bits_injective; [|exact B|].
    + unfold index_parse_resp_as_bytes in H3. apply bind_Ok in H3 as (row & _ & H3).
      rewrite bytes_from_u32_slice_closed in H3 by (cbn; exact Hpb32).
      match type of H3 with bits_to_bytes_le dbg ?l = _ => destruct (bits_to_bytes_roundtrip dbg l) as (o & Eo & Fo & _) end.
      rewrite Eo in H3. assert (o = out) by congruence. now subst o.
    + rewrite H6, H5, Eb, Nat.sub_diag, app_nil_r.
      replace es with (length (byte_string_bits (bytes r ((es + 7) / 8)%nat))) at 1; [apply fit_same|].
      rewrite <- bytes_to_bits_spec, bytes_to_bits_length, L. exact Eb.
Qed.

(** @C75 [client_query_to_server_10_times], for any number of rows, element size, dimension and
    rounds: it panics as soon as one round's query is refused; if the error of each round is
    within bounds for every column (C14; C61 says how likely that is), that is the only way it
    can fail. *)
Lemma index_test_outcome : forall prg dbg seed bytes tapes dim m es pb w rounds,
  os_bytes bytes -> (1 <= pb <= 31)%nat -> is_ceil_div es pb w -> Z.of_nat es < 2 ^ 64 -> (0 < m)%nat ->
  (rounds <= m)%nat -> (forall i, (i < rounds)%nat -> (dim + m <= length (draws (tapes i)))%nat) ->
  let strs := generate_db_eles bytes m ((es + 7) / 8) in
  let all_accepted := forallb (fun i => negb (index_query_refused prg dbg seed strs dim m es pb i (tapes i))) (seq 0 rounds) in
  (all_accepted = false -> index_test prg dbg seed bytes tapes dim m es pb rounds <> Ok tt) /\
  ((es mod 8 = 0)%nat -> (es mod pb <> 0)%nat ->
   (forall i c, (i < rounds)%nat -> (c < w)%nat ->
      congruent_in (dot (firstn m (skipn dim (draws (tapes i)))) (column (map (fun i => bytes i ((es + 7) / 8)%nat) (seq 0 m)) pb c))
                   (- 2 ^ (31 - Z.of_nat pb)) (2 ^ (31 - Z.of_nat pb))) ->
   index_test prg dbg seed bytes tapes dim m es pb rounds = if all_accepted then Ok tt else Panic).
Proof.
  intros prg dbg seed bytes tapes dim m es pb w rounds Hb Hpb Hw H64 Hm Hrm Ht strs all_accepted.
  assert (Hpb32 : (1 <= pb <= 32)%nat) by (clear - Hpb; lia).
  pose proof (eles_stored bytes m es pb w Hb Hpb32 Hw) as Hst. fold strs in Hst.
  set (elems := map (fun i => bytes i ((es + 7) / 8)%nat) (seq 0 m)) in *.
  unfold index_test. fold strs. rewrite (shard_ok prg dbg seed strs dim m es pb w elems) by (auto; exact Hst).
  cbn [unwrap bind].
  assert (R : forall i, (i < rounds)%nat -> _) by
    (intros i Hi; exact (index_round_outcome prg dbg seed bytes dim m es pb w i (tapes i) Hb Hpb Hw H64 Hm (Nat.lt_le_trans _ _ _ Hi Hrm) (Ht i Hi))).
  cbv zeta in R. fold strs elems in R.
  split.
  - intros Ha E. assert (X : all_accepted = true); [|congruence].
    apply forallb_forall. intros i Hi. pose proof (for_each_inv _ _ E i Hi) as Ei. cbv beta in Ei.
    apply in_seq in Hi. destruct (R i ltac:(clear - Hi; lia)) as [R1 _].
    destruct (index_query_refused prg dbg seed strs dim m es pb i (tapes i)); [|reflexivity].
    rewrite R1 in Ei by reflexivity. discriminate.
  - intros H8 Hes Hn. apply for_each_outcome. intros i Hi. apply in_seq in Hi.
    assert (Hi' : (i < rounds)%nat) by (clear - Hi; lia). destruct (R i Hi') as [R1 R2].
    destruct (index_query_refused prg dbg seed strs dim m es pb i (tapes i)); cbn [negb]; [now apply R1|].
    apply R2; auto.
Qed.

Lemma test_shard prg dbg seed bytes dim m es pb :
  os_bytes bytes -> (1 <= pb <= 31)%nat -> (0 < m)%nat ->
  exists sh, shard_from_base64_strings prg dbg seed (generate_db_eles bytes m ((es + 7) / 8)) dim m es pb = Ok sh.
Proof.
  intros Hb Hpb Hm. destruct (get_row_width_pos es pb) as (w & _ & Hw); [clear - Hpb; lia|].
  assert (Hpb32 : (1 <= pb <= 32)%nat) by (clear - Hpb; lia).
  pose proof (eles_stored bytes m es pb w Hb Hpb32 Hw) as Hst.
  eexists. apply shard_ok; [exact Hpb32|exact Hw|exact Hm|exact Hst].
Qed.

Definition round_queries (tapes : nat -> list Z) (rounds : nat) : list (nat * list Z) :=
  map (fun i => (i, tapes i)) (seq 0 rounds).

(** @C75 Over all public matrices, for given elements and given client randomness (non-zero
    secrets): the test passes for at most a fraction (1 - 2^-plaintext_bits)^rounds of them, and
    for exactly that fraction when the errors are within bounds. *)
Lemma index_test_rate : forall dbg seed bytes tapes dim m es pb w rounds,
  os_bytes bytes -> (1 <= pb <= 31)%nat -> is_ceil_div es pb w -> Z.of_nat es < 2 ^ 64 -> (0 < m)%nat -> (rounds <= m)%nat ->
  (forall i, (i < rounds)%nat -> (dim + m <= length (draws (tapes i)))%nat /\
     exists j, (j < dim)%nat /\ nth j (draws (tapes i)) 0 <> 0) ->
  let passing := count (fun stream => passes (index_test (stream_prg stream) dbg seed bytes tapes dim m es pb rounds)) (uniform_vectors (dim * m)) in
  let all := size (uniform_vectors (dim * m)) in
  passing * (2 ^ Z.of_nat pb) ^ Z.of_nat rounds <= (2 ^ Z.of_nat pb - 1) ^ Z.of_nat rounds * all /\
  ((es mod 8 = 0)%nat -> (es mod pb <> 0)%nat ->
   (forall i c, (i < rounds)%nat -> (c < w)%nat ->
      congruent_in (dot (firstn m (skipn dim (draws (tapes i)))) (column (map (fun i => bytes i ((es + 7) / 8)%nat) (seq 0 m)) pb c))
                   (- 2 ^ (31 - Z.of_nat pb)) (2 ^ (31 - Z.of_nat pb))) ->
   passing * (2 ^ Z.of_nat pb) ^ Z.of_nat rounds = (2 ^ Z.of_nat pb - 1) ^ Z.of_nat rounds * all).
Proof.
  intros dbg seed bytes tapes dim m es pb w rounds Hb Hpb Hw H64 Hm Hrm Ht.
  set (strs := generate_db_eles bytes m ((es + 7) / 8)).
  destruct (test_shard (fun _ _ => 0) dbg seed bytes dim m es pb Hb Hpb Hm) as [sh0 Hsh]. fold strs in Hsh.
  pose proof (refusal_rate dbg seed strs dim m es pb (round_queries tapes rounds) _ sh0 Hpb Hsh) as K.
  assert (EF : map fst (round_queries tapes rounds) = seq 0 rounds) by (unfold round_queries; rewrite map_map; apply map_id).
  rewrite EF in K. specialize (K (seq_NoDup _ _)).
  assert (K1 : forall row tape, In (row, tape) (round_queries tapes rounds) ->
     (row < m)%nat /\ (dim + m <= length (draws tape))%nat /\ exists j, (j < dim)%nat /\ nth j (draws tape) 0 <> 0).
  { intros row tape H. unfold round_queries in H. apply in_map_iff in H as (i & E & Hi). apply in_seq in Hi.
    assert (Hi' : (i < rounds)%nat) by (clear - Hi; lia).
    assert (row = i) by congruence. assert (tape = tapes i) by congruence. subst row tape.
    split; [clear - Hi' Hrm; lia|]. apply (Ht i Hi'). }
  specialize (K K1). clear K1. unfold round_queries in K. rewrite map_length, seq_length in K.
  set (acc := fun stream => forallb (fun i => negb (index_query_refused (stream_prg stream) dbg seed strs dim m es pb i (tapes i))) (seq 0 rounds)).
  assert (Ea : forall stream, forallb (fun q => negb (index_query_refused (stream_prg stream) dbg seed strs dim m es pb (fst q) (snd q)))
     (map (fun i => (i, tapes i)) (seq 0 rounds)) = acc stream).
  { intros stream. unfold acc. generalize (seq 0 rounds). induction l as [|x l IH]; [reflexivity|]. cbn [map forallb fst snd]. now rewrite IH. }
  rewrite (count_ext _ acc) in K by (intros; apply Ea).
  intros passing all. fold all in K.
  pose proof (fun stream => index_test_outcome (stream_prg stream) dbg seed bytes tapes dim m es pb w rounds Hb Hpb Hw H64 Hm Hrm
    (fun i Hi => proj1 (Ht i Hi))) as O. cbv zeta in O. fold strs in O.
  split.
  - rewrite <- K. apply Z.mul_le_mono_nonneg_r; [apply Z.pow_nonneg; apply Z.pow_nonneg; discriminate|].
    unfold passing. apply count_le. intros stream _ Hp. destruct (acc stream) eqn:E; [reflexivity|].
    destruct (O stream) as [O1 _]. exfalso. apply (O1 E).
    unfold passes in Hp. destruct (index_test _ _ _ _ _ _ _ _ _ _) as [[]| | |]; [reflexivity|discriminate Hp..].
  - intros H8 Hes Hn. rewrite <- K. f_equal. unfold passing. apply count_ext. intros stream _.
    destruct (O stream) as [_ O2]. rewrite (O2 H8 Hes Hn). change (forallb _ _) with (acc stream).
    destruct (acc stream); reflexivity.
Qed.

(** @C75 [client_query_to_server_attempt_params_reuse] checks what it says except when the
    first query is refused: it panics exactly then. *)
Lemma reuse_test_outcome : forall prg dbg seed bytes tape dim m es pb,
  os_bytes bytes -> (1 <= pb <= 31)%nat -> (0 < m)%nat -> (dim + m <= length (draws tape))%nat ->
  reuse_test prg dbg seed bytes tape dim m es pb =
  if index_query_refused prg dbg seed (generate_db_eles bytes m ((es + 7) / 8)) dim m es pb 0 tape then Panic else Ok tt.
Proof.
  intros prg dbg seed bytes tape dim m es pb Hb Hpb Hm Ht.
  destruct (get_row_width_pos es pb) as (w & _ & Hw); [clear - Hpb; lia|].
  assert (Hpb32 : (1 <= pb <= 32)%nat) by (clear - Hpb; lia).
  pose proof (eles_stored bytes m es pb w Hb Hpb32 Hw) as Hst.
  set (strs := generate_db_eles bytes m ((es + 7) / 8)) in *.
  set (elems := map (fun i => bytes i ((es + 7) / 8)%nat) (seq 0 m)) in *.
  unfold reuse_test. fold strs. rewrite (shard_ok prg dbg seed strs dim m es pb w elems) by (auto; exact Hst).
  cbn [unwrap bind sh_params shard_of].
  destruct (gen_qp_ok prg seed dim elems m es pb w tape Ht) as [rest ->]. cbn [unwrap bind].
  rewrite (query_of_refused prg dbg seed dim m es pb w elems 0 tape Hpb Hw Hm strs Hst Hm Ht).
  destruct (index_query_refused _ _ _ _ _ _ _ _ _ _); reflexivity.
Qed.

(** @C75 Hence it fails for exactly one public matrix in 2^plaintext_bits. *)
Lemma reuse_test_rate : forall dbg seed bytes tape dim m es pb,
  os_bytes bytes -> (1 <= pb <= 31)%nat -> (0 < m)%nat -> (dim + m <= length (draws tape))%nat ->
  (exists j, (j < dim)%nat /\ nth j (draws tape) 0 <> 0) ->
  count (fun stream => negb (passes (reuse_test (stream_prg stream) dbg seed bytes tape dim m es pb))) (uniform_vectors (dim * m))
    * 2 ^ Z.of_nat pb = size (uniform_vectors (dim * m)).
Proof.
  intros dbg seed bytes tape dim m es pb Hb Hpb Hm Ht Hz.
  destruct (test_shard (fun _ _ => 0) dbg seed bytes dim m es pb Hb Hpb Hm) as [sh0 Hsh].
  rewrite <- (one_refusal_rate dbg seed _ dim m es pb 0 tape _ sh0 Hpb Hsh Hm Ht Hz). f_equal.
  apply count_ext. intros stream _. rewrite (reuse_test_outcome _ dbg seed bytes tape dim m es pb Hb Hpb Hm Ht).
  destruct (index_query_refused _ _ _ _ _ _ _ _ _ _); reflexivity.
Qed.

Lemma draws_repeat_app a b x y : accepted_word x = true -> accepted_word y = true ->
  draws (repeat x a ++ repeat y b) = repeat (ternary_class x) a ++ repeat (ternary_class y) b.
Proof.
  intros Hx Hy. unfold draws.
  assert (F : forall n z, accepted_word z = true -> filter accepted_word (repeat z n) = repeat z n).
  { intros n z Hz. induction n as [|n IH]; [reflexivity|]. cbn [repeat filter]. now rewrite Hz, IH. }
  assert (M : forall n z, map ternary_class (repeat z n) = repeat (ternary_class z) n).
  { intros n z. induction n as [|n IH]; [reflexivity|]. cbn [repeat map]. now rewrite IH. }
  rewrite filter_app, !F, map_app, !M; auto.
Qed.

(** @C75 Refuted: "the test suite passes". For every public matrix, every seed and all elements
    there is client randomness for which both index tests fail, whatever their sizes. *)
Lemma tests_always_pass_refuted : forall prg dbg seed bytes dim m es pb rounds,
  os_bytes bytes -> (1 <= pb <= 31)%nat -> (0 < rounds <= m)%nat -> Z.of_nat es < 2 ^ 64 ->
  exists tape, (dim + m <= length (draws tape))%nat /\
    reuse_test prg dbg seed bytes tape dim m es pb = Panic /\
    index_test prg dbg seed bytes (fun _ => tape) dim m es pb rounds = Panic.
Proof.
  intros prg dbg seed bytes dim m es pb rounds Hb Hpb Hr H64.
  exists (repeat 0 dim ++ repeat 3000000000 m).
  set (tape := repeat 0 dim ++ repeat 3000000000 m).
  assert (D : draws tape = repeat 0 dim ++ repeat (-1) m) by (apply draws_repeat_app; reflexivity).
  assert (Ht : (dim + m <= length (draws tape))%nat) by (rewrite D, app_length, !repeat_length; apply le_n).
  assert (Hm : (0 < m)%nat) by (clear - Hr; lia).
  destruct (test_shard prg dbg seed bytes dim m es pb Hb Hpb Hm) as [sh Hsh].
  assert (R : index_query_refused prg dbg seed (generate_db_eles bytes m ((es + 7) / 8)) dim m es pb 0 tape = true).
  { rewrite (zero_secret_refusal prg dbg seed _ dim m es pb 0 tape sh Hpb Hsh Hm Ht).
    - rewrite D, Nat.add_0_r, app_nth2 by (rewrite repeat_length; apply le_n).
      rewrite repeat_length, Nat.sub_diag. destruct m; [clear - Hm; lia|reflexivity].
    - intros j Hj. rewrite D, app_nth1 by (rewrite repeat_length; exact Hj). apply nth_repeat'. exact Hj. }
  split; [exact Ht|]. split.
  - rewrite (reuse_test_outcome prg dbg seed bytes tape dim m es pb Hb Hpb Hm Ht), R. reflexivity.
  - destruct (get_row_width_pos es pb) as (w & _ & Hw); [clear - Hpb; lia|].
    assert (Hpb32 : (1 <= pb <= 32)%nat) by (clear - Hpb; lia).
    pose proof (eles_stored bytes m es pb w Hb Hpb32 Hw) as Hst.
    set (strs := generate_db_eles bytes m ((es + 7) / 8)) in *.
    unfold index_test. fold strs. rewrite (shard_ok prg dbg seed strs dim m es pb w _ Hpb32 Hw Hm Hst). cbn [unwrap bind].
    destruct rounds as [|n]; [clear - Hr; lia|]. unfold for_each. cbn [seq mapM].
    destruct (index_round_outcome prg dbg seed bytes dim m es pb w 0 tape Hb Hpb Hw H64 Hm Hm Ht) as [R1 _].
    fold strs in R1. rewrite (R1 R). reflexivity.
Qed.

Lemma filter_len_le {A} (P Q : A -> bool) l : (forall x, In x l -> P x = true -> Q x = true) -> (length (filter P l) <= length (filter Q l))%nat.
Proof.
  induction l as [|x l IH]; intros H; [apply le_n|]. cbn [filter].
  specialize (IH (fun y Hy => H y (or_intror Hy))). destruct (P x) eqn:E.
  - rewrite (H x (or_introl eq_refl) E). cbn [length]. lia.
  - destruct (Q x); cbn [length]; lia.
Qed.
Lemma count_tapes_le P Q n : (forall t, In t (tapes_over accepted_words n) -> P t = true -> Q t = true) -> count_tapes P n <= count_tapes Q n.
Proof. intros H. unfold count_tapes. apply inj_le. apply filter_len_le. exact H. Qed.

(** @C75 With the test's sizes (4096 rows of 256 bits, 11 plaintext bits), refused queries are
    practically the only reason for a failed round: whatever the elements, the matrix and the
    row, fewer than one tape in 2^62 gives a round that fails although its query is accepted. *)
Lemma index_test_noise : forall prg dbg seed bytes dim r,
  os_bytes bytes -> (r < ten_times_m)%nat ->
  let strs := generate_db_eles bytes ten_times_m ((ten_times_elem_size + 7) / 8) in
  exists sh, shard_from_base64_strings prg dbg seed strs dim ten_times_m ten_times_elem_size ten_times_bits = Ok sh /\
  count_tapes (fun tape => negb (passes (index_round prg dbg sh strs r tape)) &&
      negb (index_query_refused prg dbg seed strs dim ten_times_m ten_times_elem_size ten_times_bits r tape)) (dim + ten_times_m) * 2 ^ 62
  <= count_tapes (fun _ => true) (dim + ten_times_m).
Proof.
  intros prg dbg seed bytes dim r Hb Hr strs.
  assert (Em : Z.of_nat ten_times_m = 4096) by (apply Z2Nat.id; discriminate).
  assert (Ee : Z.of_nat ten_times_elem_size = 256) by (apply Z2Nat.id; discriminate).
  assert (E8 : (ten_times_elem_size mod 8 = 0)%nat) by reflexivity.
  assert (E11 : (ten_times_elem_size mod ten_times_bits <> 0)%nat) by discriminate.
  assert (Hpb : (1 <= ten_times_bits <= 31)%nat) by (unfold ten_times_bits; lia).
  assert (Ep : Z.of_nat ten_times_bits = 11) by reflexivity.
  assert (Hw : is_ceil_div ten_times_elem_size ten_times_bits 24).
  { split; [vm_compute; lia|]. intros w' H'. change ten_times_elem_size with 256%nat in H'. unfold ten_times_bits in H'. lia. }
  unfold strs in *. clear strs. revert Em Ee E8 E11 Hpb Ep Hw Hr.
  generalize ten_times_m as m, ten_times_elem_size as es, ten_times_bits as pb.
  intros m es pb Em Ee E8 E11 Hpb Ep Hw Hr.
  assert (Hpb32 : (1 <= pb <= 32)%nat) by (clear - Hpb; lia).
  assert (Hm : (0 < m)%nat) by (clear - Hr; lia).
  pose proof (eles_stored bytes m es pb 24 Hb Hpb32 Hw) as Hst.
  set (strs := generate_db_eles bytes m ((es + 7) / 8)) in *.
  set (elems := map (fun i => bytes i ((es + 7) / 8)%nat) (seq 0 m)) in *.
  pose proof (shard_ok prg dbg seed strs dim m es pb 24 elems Hpb32 Hw Hm Hst) as Hsh.
  exists (shard_of prg seed dim elems m es pb 24). split; [exact Hsh|].
  set (sh := shard_of prg seed dim elems m es pb 24) in *.
  assert (H64 : Z.of_nat es < 2 ^ 64) by (rewrite Ee; reflexivity).
  assert (Hel : length elems = m) by apply Hst.
  assert (Hdec : forall i, (i < m)%nat -> b64_decode (nth i strs []) = Ok (nth i elems [])) by (intros i Hi; apply (proj2 (proj2 Hst) i Hi)).
  eapply Z.le_trans; [apply Z.mul_le_mono_nonneg_r; [discriminate|]; apply (count_tapes_le _ (index_run_wrong prg dbg sh r (map (chunk (nth r elems []) pb) (seq 0 24))))|].
  - intros t Hin Hp. apply andb_true_iff in Hp as [Hp Hnr]. apply negb_true_iff in Hp, Hnr.
    destruct (tapes_accepted _ _ Hin) as [Lt Dt].
    assert (Ht : (dim + m <= length (draws t))%nat) by (rewrite Dt, map_length, Lt; apply le_n).
    destruct (index_run_wrong prg dbg sh r _ t) eqn:E; [reflexivity|]. exfalso.
    destruct (index_round_outcome prg dbg seed bytes dim m es pb 24 r t Hb Hpb Hw H64 Hm Hr Ht) as [_ R2].
    fold strs elems sh in R2. rewrite R2 in Hp; [discriminate Hp|exact Hnr|exact E8|exact E11|].
    unfold index_run_wrong in E. unfold sh in E. cbn [sh_params shard_of] in E.
    destruct (gen_qp_ok prg seed dim elems m es pb 24 t Ht) as [rest Hqp]. rewrite Hqp in E.
    pose proof (query_of_refused prg dbg seed dim m es pb 24 elems r t Hpb Hw Hm strs Hst Hr Ht) as Hq. cbv zeta in Hq.
    rewrite Hnr in Hq. rewrite Hq in E.
    destruct (index_retrieval prg dbg seed strs elems dim m es pb 24 sh t rest _ _ r _ Hpb Hw H64 Hsh Hel Hdec Hqp Hq)
      as (rb & resp & row & H1 & H2 & H3 & _ & H5).
    fold sh in E. rewrite H1 in E. cbn [bind] in E. rewrite H2 in E. cbn [bind] in E. rewrite H3 in E.
    apply negb_false_iff, same_row_spec in E. apply (proj1 H5). exact E.
  - rewrite all_tapes.
    assert (T0 : 0 <= (2 ^ 32 - 3) ^ Z.of_nat (dim + m)) by (apply Z.pow_nonneg; discriminate).
    apply (numeric_bound _ _ m pb 24 0 1 34 20 10922).
    + apply count_nonneg.
    + exact T0.
    + clear - Hpb. lia.
    + clear - Ep. lia.
    + vm_compute. reflexivity.
    + rewrite Em, Ep. discriminate.
    + intros S HS Hn.
      assert (C : forall c, 0 <= sum_squares (column elems pb c) <= Z.of_nat m * (2 ^ Z.of_nat pb - 1) ^ 2).
      { intros c. rewrite <- Hel, <- (column_length elems pb c). apply column_bound.
        unfold column. apply Forall_forall. intros x Hx. apply in_map_iff in Hx. destruct Hx as (b & <- & _).
        apply (chunk_range b pb c). }
      apply (index_failure_fraction prg dbg seed strs elems dim m es pb 24 sh r 10922 S Hpb Hw H64 Hsh Hel Hdec Hn).
      * specialize (C 0%nat). clear - C HS. lia.
      * intros c _. specialize (C c). clear - C HS. lia.
Qed.

(** ** The keyword tests *)

(** The three entries of a stored key, in every column. *)
Lemma stored_sum dbg fe rnd fseed kvs m es pb w db i kv :
  (1 <= pb <= 31)%nat -> sane_estimates fe (length kvs) ->
  Forall (fun kv => length (kv_value kv) = w) kvs ->
  kv_db_new dbg fe rnd fseed kvs m es pb = Ok db ->
  (dbg = true \/ exists slots,
     (forall key, get_hash_evals dbg (kd_filter_params db) key = Ok (slots key)) /\
     forall j, (load slots (map kv_key kvs) j <= 63)%nat) ->
  nth_error kvs i = Some kv -> last_with_hash fseed (map kv_key kvs) i (kv_key kv) ->
  exists H a b c, shape (kd_entries db) w H /\ get_hash_evals dbg (kd_filter_params db) (kv_key kv) = Ok [a; b; c] /\
    (a < b < c)%nat /\ (c < H)%nat /\ fp_seed (kd_filter_params db) = fseed /\ (0 < w)%nat /\
    forall j, (j < w)%nat ->
      (nth a (nth j (kd_entries db) []) 0 + nth b (nth j (kd_entries db) []) 0 + nth c (nth j (kd_entries db) []) 0
       + get_key_fingerprint (kv_key kv) fseed (Z.of_nat j)) mod 2 ^ Z.of_nat pb = nth j (kv_value kv) 0 mod 2 ^ Z.of_nat pb.
Proof.
  intros Hpb Hsane HF Hdb Hload Hi Hlast.
  destruct (kv_db_inv dbg fe rnd fseed kvs m es pb db ltac:(clear - Hpb; lia) Hdb)
    as (kv0 & g & H0 & Hg & Em & Ees & Epb & Hfp & Hs & HW & _ & HC).
  assert (HW' : length (kv_value kv0) = w).
  { rewrite Forall_forall in HF. apply HF. eapply nth_error_In; eauto. }
  rewrite HW' in *.
  destruct (three_slots dbg dbg fe _ g (kv_key kv) fseed Hsane Hg) as (a & b & c & Hev & Hab & Hc & _).
  exists (g_arrlen g), a, b, c. split; [exact Hs|].
  split; [unfold get_hash_evals; rewrite Hfp; exact Hev|]. split; [exact Hab|]. split; [exact Hc|].
  split; [now rewrite Hfp|]. split; [exact HW|].
  intros j Hj. destruct (HC j Hj) as (f & Ef & EF & Es & E1 & E2 & E3 & _).
  unfold from_slice in Ef. destruct (negb _) eqn:EL; [discriminate|].
  destruct (fingerprint_sum MAX_ITER dbg fe (rnd j) fseed (map kv_key kvs)
     (map (fun kv => nth j (kv_value kv) 0) kvs) (Z.of_nat pb) (Z.of_nat j) f) as (F & EF' & _ & _ & S).
  - rewrite map_length. exact Hsane.
  - rewrite !map_length. apply le_n.
  - clear - Hpb. lia.
  - destruct Hload as [->|(slots & Hsl & Hld)]; [now left|right]. exists slots.
    split; [|exact Hld]. rewrite E1, E2, E3. intros key. specialize (Hsl key).
    unfold get_hash_evals in Hsl. rewrite Hfp in Hsl. exact Hsl.
  - exact Ef.
  - rewrite EF in EF'. assert (F = nth j (kd_entries db) []) by congruence. subst F.
    destruct (S dbg i (kv_key kv) a b c) as (_ & _ & _ & S1); [exact Hlast|rewrite E1, E2, E3; exact Hev|].
    rewrite S1. f_equal. rewrite (nth_map' _ _ _ _ kv) by (apply nth_error_Some; congruence).
    f_equal. erewrite nth_error_nth; eauto.
Qed.

Lemma mod32_modp' pb x : (pb <= 31)%nat -> (x mod two32) mod 2 ^ Z.of_nat pb = x mod 2 ^ Z.of_nat pb.
Proof. intros H. apply mod32_modp. lia. Qed.

Lemma unmask_mod fp x key label pb : (pb <= 31)%nat ->
  remz (unmask_value fp (x mod two32) key label) (2 ^ Z.of_nat pb) = Ok ((x + get_key_fingerprint key (fp_seed fp) label) mod 2 ^ Z.of_nat pb).
Proof.
  intros H. assert (P : 2 ^ Z.of_nat pb <> 0) by (apply Z.pow_nonzero; lia).
  unfold remz. rewrite (proj2 (Z.eqb_neq _ _) P). f_equal. unfold unmask_value, wadd32.
  rewrite mod32_modp' by exact H. rewrite Zplus_mod, !mod32_modp' by exact H. now rewrite <- Zplus_mod.
Qed.

Lemma real_value_ok db key pb j a b c w H :
  (pb <= 31)%nat -> shape (kd_entries db) w H -> (j < w)%nat -> (a < H)%nat -> (b < H)%nat -> (c < H)%nat ->
  let col := nth j (kd_entries db) [] in
  real_value db key pb j [a; b; c] =
  Ok ((nth a col 0 + nth b col 0 + nth c col 0 + get_key_fingerprint key (fp_seed (kd_filter_params db)) (Z.of_nat j)) mod 2 ^ Z.of_nat pb).
Proof.
  intros Hpb Hs Hj Ha Hb Hc col. unfold real_value.
  pose proof (shape_nth _ _ _ _ Hs Hj) as Lc. fold col in Lc.
  rewrite (idx_nth _ j []) by (rewrite (proj1 Hs); exact Hj). cbn [bind]. fold col. cbn [foldM].
  rewrite (idx_nth col a 0), (idx_nth col b 0), (idx_nth col c 0) by (rewrite Lc; assumption). cbn [bind].
  assert (E : wadd32 (wadd32 (wadd32 0 (nth a col 0)) (nth b col 0)) (nth c col 0) = (nth a col 0 + nth b col 0 + nth c col 0) mod two32).
  { unfold wadd32. rewrite Zplus_mod_idemp_l, <- Z.add_assoc, Zplus_mod_idemp_l. f_equal. ring. }
  rewrite E. apply unmask_mod. exact Hpb.
Qed.

Definition one_kv (key value : list Z) : list key_value := [{| kv_key := key; kv_value := value |}].

Lemma last_single seed key : last_with_hash seed [key] 0 key.
Proof.
  split; [reflexivity|]. intros j key' Hj E. destruct j as [|[|j]]; cbn in E; [lia|discriminate|discriminate].
Qed.

Lemma single_builds dbg fe rnd seed key value m es pb :
  (1 <= pb <= 31)%nat -> (dbg = true -> (8 <= pb)%nat) -> sane_estimates fe 1 -> value <> [] ->
  exists db g slots, kv_db_new dbg fe rnd seed (one_kv key value) m es pb = Ok db /\ geometry dbg fe 1 = Ok g /\
    evaluates dbg seed (g_seglen g) (g_mask g) (g_scl g) slots /\ forall j, (load slots [key] j <= 63)%nat.
Proof.
  intros Hpb Hd Hsane Hv.
  destruct (geometry_shape dbg fe 1 Hsane) as (g & e & Hg & _).
  destruct (slots_exist dbg dbg fe 1 g seed Hsane Hg) as [slots Hev].
  assert (Hl : forall j, (load slots [key] j <= 63)%nat).
  { intros j. pose proof (load_le slots [key] j) as L. cbn [length] in L. clear - L. lia. }
  destruct (kv_db_builds dbg fe rnd seed (one_kv key value) m es pb (length value) g slots) as [db Hdb]; auto.
  - destruct value; [congruence|cbn; lia].
  - discriminate.
  - constructor; [reflexivity|constructor].
  - constructor; [intros []|constructor].
  - destruct (three_slots dbg dbg fe 1 g key seed Hsane Hg) as (a & b & c & E & _). specialize (Hev key). rewrite E in Hev.
    cbn [one_kv map kv_key]. apply (peelable_take slots key [key] [] a); [apply Permutation.Permutation_refl| |intros ? []|constructor].
    assert (X : slots key = [a; b; c]) by congruence. rewrite X. now left.
  - exists db, g, slots. auto.
Qed.

Lemma single_sum dbg fe rnd seed key value m es pb :
  (1 <= pb <= 31)%nat -> (dbg = true -> (8 <= pb)%nat) -> sane_estimates fe 1 -> value <> [] ->
  exists db H a b c, kv_db_new dbg fe rnd seed (one_kv key value) m es pb = Ok db /\
    shape (kd_entries db) (length value) H /\ get_hash_evals dbg (kd_filter_params db) key = Ok [a; b; c] /\
    (a < b < c)%nat /\ (c < H)%nat /\ fp_seed (kd_filter_params db) = seed /\ (0 < length value)%nat /\
    forall j, (j < length value)%nat ->
      (nth a (nth j (kd_entries db) []) 0 + nth b (nth j (kd_entries db) []) 0 + nth c (nth j (kd_entries db) []) 0
       + get_key_fingerprint key seed (Z.of_nat j)) mod 2 ^ Z.of_nat pb = nth j value 0 mod 2 ^ Z.of_nat pb.
Proof.
  intros Hpb Hd Hsane Hv.
  destruct (single_builds dbg fe rnd seed key value m es pb Hpb Hd Hsane Hv) as (db & g & slots & Hdb & Hg & Hev & Hl).
  exists db.
  assert (HF : Forall (fun kv => length (kv_value kv) = length value) (one_kv key value)) by (constructor; [reflexivity|constructor]).
  destruct (stored_sum dbg fe rnd seed (one_kv key value) m es pb (length value) db 0 {| kv_key := key; kv_value := value |} Hpb Hsane HF Hdb)
    as (H & a & b & c & R).
  - right. exists slots. split; [|exact Hl]. intros k. unfold get_hash_evals.
    destruct (kv_db_inv dbg fe rnd seed (one_kv key value) m es pb db ltac:(clear - Hpb; lia) Hdb)
      as (kv0 & g' & _ & Hg' & _ & _ & _ & Hfp & _).
    assert (g' = g) by (change (length (one_kv key value)) with 1%nat in Hg'; congruence). subst g'. rewrite Hfp. apply Hev.
  - reflexivity.
  - apply last_single.
  - exists H, a, b, c. split; [exact Hdb|exact R].
Qed.

Lemma same_hashes_ok x n : same_hashes (map (fun _ => x) (seq 0 n)) = Ok tt.
Proof.
  unfold same_hashes. rewrite map_length, seq_length. apply for_each_ok. intros i Hi. apply in_seq in Hi.
  rewrite (idx_nth _ 0 []), (idx_nth _ i []) by (rewrite map_length, seq_length; lia). cbn [bind].
  rewrite !nth_map_seq by lia. unfold assert_. now rewrite equal_n_refl.
Qed.

Lemma combine_map_in {A} (f : nat -> A) n j x : In (j, x) (combine (seq 0 n) (map f (seq 0 n))) -> (j < n)%nat /\ x = f j.
Proof.
  intros H. assert (E : combine (seq 0 n) (map f (seq 0 n)) = map (fun i => (i, f i)) (seq 0 n)).
  { generalize (seq 0 n). induction l as [|y l IH]; [reflexivity|]. cbn. now rewrite IH. }
  rewrite E in H. apply in_map_iff in H as (i & Ei & Hi). apply in_seq in Hi. injection Ei as <- <-. split; [lia|reflexivity].
Qed.
Lemma combine_nth_in (l : list Z) n j x : (n <= length l)%nat -> In (j, x) (combine (seq 0 n) l) -> (j < n)%nat /\ x = nth j l 0.
Proof.
  intros Hn H. apply (In_nth _ _ (0%nat, 0)) in H as (k & Hk & E).
  rewrite combine_length, seq_length in Hk.
  assert (Hk' : (k < n)%nat) by lia.
  assert (E1 : nth_error (combine (seq 0 n) l) k = Some (j, x)).
  { rewrite <- E. apply nth_error_nth'. rewrite combine_length, seq_length. exact Hk. }
  clear E Hk.
  assert (G : forall n s l k, nth_error (combine (seq s n) l) k = Some (j, x) -> j = (s + k)%nat /\ nth_error l k = Some x).
  { clear. induction n as [|n IH]; intros s [|y l] [|k] H; try discriminate; cbn in H.
    - injection H as <- <-. split; [lia|reflexivity].
    - apply IH in H as [-> H]. split; [lia|exact H]. }
  apply G in E1 as [-> E1]. split; [exact Hk'|]. symmetry. now apply nth_error_nth.
Qed.

(** @C75 The four tests of the keyword database, for any key, any non-empty value of entries below
    2^plaintext_bits and any seed and random fill: they always pass. *)
Lemma kv_unit_tests_pass : forall dbg fe rnd seed key value pb,
  (1 <= pb <= 31)%nat -> (dbg = true -> (8 <= pb)%nat) -> sane_estimates fe 1 ->
  value <> [] -> Forall (fun x => 0 <= x < 2 ^ Z.of_nat pb) value ->
  retrieval_test dbg fe rnd seed key value pb = Ok tt /\
  hashes_test dbg fe rnd seed key value pb = Ok tt /\
  db_retrieval_test dbg fe rnd seed key value pb = Ok tt /\
  mult_test dbg fe rnd seed key value pb = Ok tt.
Proof.
  intros dbg fe rnd seed key value pb Hpb Hd Hsane Hv Hr.
  assert (Hpb31 : (pb <= 31)%nat) by (clear - Hpb; lia).
  assert (Rn : forall j, (j < length value)%nat -> nth j value 0 mod 2 ^ Z.of_nat pb = nth j value 0).
  { intros j Hj. apply Z.mod_small. rewrite Forall_forall in Hr. apply Hr. now apply nth_In. }
  set (W := length value) in *.
  destruct (single_sum dbg fe rnd seed key value 1 (pb * W) pb Hpb Hd Hsane Hv) as (db & H & a & b & c & Hdb & Hs & Hev & Hab & Hc & Hfs & HW & HV).
  fold W in Hs, HW, HV.
  (* the filters *)
  assert (HFK : exists fs, from_kvs dbg fe rnd seed (one_kv key value) W pb = Ok (fs, kd_filter_params db) /\ length fs = W /\
     forall j, (j < W)%nat -> exists f, nth_error fs j = Some f /\ retrieve dbg f key (Z.of_nat j) = Ok (nth j value 0)).
  { pose proof Hdb as Hdb'. unfold kv_db_new in Hdb'. cbn [one_kv idx nth_error bind kv_value] in Hdb'.
    change [{| kv_key := key; kv_value := value |}] with (one_kv key value) in Hdb'. fold W in Hdb'.
    apply bind_Ok in Hdb' as ([fs fp] & Hf & Hdb'). apply bind_Ok in Hdb' as (ents & He & Hdb').
    assert (Efp : fp = kd_filter_params db) by (injection Hdb' as <-; reflexivity). subst fp.
    exists fs. split; [exact Hf|]. unfold from_kvs in Hf. apply bind_Ok in Hf as (fs' & Hfs' & Hf).
    apply bind_Ok in Hf as (f0 & Hf0 & Hf). assert (fs' = fs) by congruence. subst fs'.
    set (fd := f0). destruct (proj1 (mapM_seq_Ok _ _ _ fd) Hfs') as [Lf Hx]. clear Hfs'. rename Hx into Hfs'. split; [exact Lf|].
    intros j Hj. exists (nth j fs fd). split; [apply nth_error_nth'; rewrite Lf; exact Hj|].
    specialize (Hfs' j Hj). apply bind_Ok in Hfs' as (col & Ecol & Hfs').
    cbn [one_kv mapM kv_value] in Ecol. rewrite (idx_nth value j 0) in Ecol by exact Hj. cbn [bind] in Ecol.
    assert (col = [nth j value 0]) by congruence. subst col.
    rewrite kv_ptxt_mod_ok in Hfs' by exact Hpb31. cbn [bind] in Hfs'. apply (proj1 (unwrap_Ok _ _)) in Hfs'.
    unfold from_slice in Hfs'. destruct (negb _) eqn:EL; [discriminate|].
    destruct (single_builds dbg fe rnd seed key value 1 (pb * W) pb Hpb Hd Hsane Hv) as (db2 & g & slots & Hdb2 & Hg & Hevs & Hl).
    rewrite (retrieve_correct MAX_ITER dbg fe (rnd j) seed [key] [nth j value 0] (Z.of_nat pb) (Z.of_nat j) (nth j fs fd) Hsane (le_n 1)
      ltac:(clear - Hpb; lia)) with (i := 0%nat).
    - cbn [nth]. now rewrite Rn.
    - right. exists slots. split; [|exact Hl].
      pose proof Hfs' as Hx. apply from_impl_length in Hx as (g' & Eg' & _ & _ & E1 & E2 & E3 & _).
      assert (g' = g) by (cbn [one_kv map kv_key length] in Eg'; congruence). subst g'. rewrite E1, E2, E3. exact Hevs.
    - exact Hfs'.
    - apply last_single. }
  destruct HFK as (fs & HFK & Lfs & Hret).
  assert (Hevs : forall n, mapM (fun _ => get_hash_evals dbg (kd_filter_params db) key) (seq 0 n) = Ok (map (fun _ => [a; b; c]) (seq 0 n))).
  { intros n. apply mapM_Ok. intros; exact Hev. }
  split; [|split; [|split]].
  - unfold retrieval_test. fold W. change [{| kv_key := key; kv_value := value |}] with (one_kv key value). rewrite HFK. cbn [unwrap bind].
    apply for_each_ok. intros i Hi. apply in_seq in Hi. destruct (Hret i ltac:(clear - Hi; lia)) as (f & Ef & Er).
    unfold idx at 1. rewrite Ef. cbn [bind]. rewrite Er. cbn [bind].
    rewrite (idx_nth value i 0) by (fold W; clear - Hi; lia). cbn [bind]. unfold assert_. now rewrite Z.eqb_refl.
  - unfold hashes_test. fold W. change [{| kv_key := key; kv_value := value |}] with (one_kv key value). rewrite HFK. cbn [unwrap bind].
    rewrite Hevs. cbn [bind]. apply same_hashes_ok.
  - unfold db_retrieval_test. fold W. change [{| kv_key := key; kv_value := value |}] with (one_kv key value). rewrite Hdb. cbn [unwrap bind].
    rewrite Hevs. cbn [bind]. rewrite same_hashes_ok. cbn [bind]. rewrite map_length, seq_length.
    apply for_each_ok. intros [i sl] Hi. apply combine_map_in in Hi as [Hi ->].
    rewrite (real_value_ok db key pb i a b c W H) by (auto; clear - Hab Hc; lia). cbn [bind].
    rewrite Hfs, HV, Rn by exact Hi. rewrite (idx_nth value i 0) by exact Hi. cbn [bind]. unfold assert_. now rewrite Z.eqb_refl.
  - unfold mult_test. fold W. change [{| kv_key := key; kv_value := value |}] with (one_kv key value). rewrite Hdb. cbn [unwrap bind].
    rewrite (kv_height_ok db W H Hs HW). cbn [bind]. rewrite Hevs. cbn [bind]. rewrite same_hashes_ok. cbn [bind].
    rewrite (idx_nth _ 0 []) by (rewrite map_length, seq_length; exact HW). rewrite nth_map_seq by exact HW. cbn [bind foldM].
    rewrite set_lt by (rewrite repeat_length; clear - Hab Hc; lia). cbn [bind].
    rewrite set_lt by (rewrite length_upd, repeat_length; clear - Hab Hc; lia). cbn [bind].
    rewrite set_lt by (rewrite !length_upd, repeat_length; clear - Hab Hc; lia). cbn [bind].
    rewrite map_length, seq_length, Nat.min_id.
    set (mv := upd (upd (upd (repeat 0 H) a 1) b 1) c 1).
    assert (Lmv : length mv = H) by (unfold mv; now rewrite !length_upd, repeat_length).
    apply for_each_ok. intros [i y] Hi. apply combine_nth_in in Hi as [Hi ->]; [|apply le_n].
    assert (Hid : (i < length (kd_entries db))%nat) by (rewrite (proj1 Hs); exact Hi).
    rewrite (kv_vec_mult_closed db mv i Hid).
    pose proof (shape_nth _ _ _ _ Hs Hi) as Lc. rewrite Lmv, Lc, Nat.eqb_refl. cbn [bind].
    assert (Ed : dot mv (nth i (kd_entries db) []) = nth a (nth i (kd_entries db) []) 0 + nth b (nth i (kd_entries db) []) 0 + nth c (nth i (kd_entries db) []) 0).
    { set (col := nth i (kd_entries db) []) in *. unfold mv.
      rewrite Index_facts.dot_upd by (rewrite ?length_upd, ?repeat_length; clear - Hab Hc Lc; lia).
      rewrite Index_facts.dot_upd by (rewrite ?length_upd, ?repeat_length; clear - Hab Hc Lc; lia).
      rewrite Index_facts.dot_upd by (rewrite ?length_upd, ?repeat_length; clear - Hab Hc Lc; lia).
      rewrite (nth_upd_ne _ b c) by (clear - Hab; lia). rewrite (nth_upd_ne _ a c) by (clear - Hab; lia).
      rewrite (nth_upd_ne _ a b) by (clear - Hab; lia).
      assert (Z0 : forall k, nth k (repeat 0 H) 0 = 0) by (intros k; apply nth_repeat).
      assert (D0 : dot (repeat 0 H) col = 0).
      { generalize col. clear. induction H as [|h IH]; intros [|x l]; try reflexivity. cbn [repeat dot]. rewrite IH. ring. }
      rewrite !Z0, D0. ring. }
    rewrite Ed, unmask_mod by exact Hpb31. cbn [bind]. rewrite Hfs, HV, Rn by exact Hi. unfold assert_. now rewrite Z.eqb_refl.
Qed.

Lemma kv_strings_build sha dbg k b es pb w :
  (forall x, length (sha x) = 32%nat) -> (1 <= pb <= 32)%nat -> is_ceil_div es pb w -> Forall is_u8 b ->
  (w * pb <= 8 * length b + pb)%nat ->
  exists kv, kv_from_base64_strings sha dbg k (b64_encode b) es pb = Ok kv.
Proof.
  intros Hsha Hpb Hw Hb Hl. unfold kv_from_base64_strings, sha256_into_u64_sized. rewrite Hsha. cbn [Nat.eqb negb bind].
  unfold kv_construct_row. destruct (get_row_width_pos es pb) as (w' & E & Hw'); [clear - Hpb; lia|]. rewrite E.
  rewrite (is_ceil_div_unique _ _ _ _ Hw' Hw). cbn [bind]. rewrite b64_roundtrip by exact Hb. cbn [bind].
  rewrite chunk_row_closed by (rewrite ?bytes_to_bits_length; auto). cbn [bind]. eexists. reflexivity.
Qed.

Lemma nodup_last seed (kvs : list key_value) i kv : NoDup (map (fun kv => mix256 (kv_key kv) seed) kvs) ->
  nth_error kvs i = Some kv -> last_with_hash seed (map kv_key kvs) i (kv_key kv).
Proof.
  intros ND Hi. split; [now rewrite nth_error_map, Hi|]. intros j key' Hj Ej Eh.
  rewrite nth_error_map in Ej. destruct (nth_error kvs j) as [kv'|] eqn:E; [|discriminate]. cbn in Ej. injection Ej as <-.
  rewrite NoDup_nth_error in ND. specialize (ND i j).
  rewrite map_length, !nth_error_map, Hi, E in ND. cbn [option_map] in ND.
  assert (i = j); [|lia]. apply ND; [apply nth_error_Some; congruence|congruence].
Qed.

(** @C75 [client_kv_query_to_server_10_times], for any number of pairs, value size, dimension and
    rounds: its pairs are always accepted; it passes if the shard is built (C63 says when), the
    keys have distinct 64-bit hashes and the errors are within bounds (C62), and it fails if the
    shard is not built. No query is ever refused. *)
Lemma kv_test_outcome : forall sha prg dbg fe rnd fseed pseed kbytes bytes tapes dim m es pb w rounds,
  (forall x, length (sha x) = 32%nat) -> os_bytes bytes -> (1 <= pb <= 31)%nat -> is_ceil_div es pb w -> Z.of_nat es < 2 ^ 64 ->
  (0 < m)%nat -> (rounds <= m)%nat -> sane_estimates fe m ->
  let test := kv_test sha prg dbg fe rnd fseed pseed kbytes bytes tapes dim m es pb rounds in
  exists kvs, length kvs = m /\
    (forall i kv, nth_error kvs i = Some kv ->
       kv_from_base64_strings sha dbg (b64_encode (kbytes i 32%nat)) (b64_encode (bytes i ((es + 7) / 8)%nat)) es pb = Ok kv) /\
    match kv_shard_new prg dbg fe rnd fseed pseed kvs dim m es pb with
    | Ok sh =>
        NoDup (map (fun kv => mix256 (kv_key kv) fseed) kvs) ->
        (dbg = true \/ exists slots,
           (forall key, get_hash_evals dbg (kd_filter_params (ks_db sh)) key = Ok (slots key)) /\
           forall j, (load slots (map kv_key kvs) j <= 63)%nat) ->
        (forall i, (i < rounds)%nat -> (dim + kp_m (ks_params sh) <= length (draws (tapes i)))%nat) ->
        (forall i c, (i < rounds)%nat -> (c < w)%nat ->
           congruent_in (dot (firstn (kp_m (ks_params sh)) (skipn dim (draws (tapes i)))) (nth c (kd_entries (ks_db sh)) []))
                        (- 2 ^ (31 - Z.of_nat pb)) (2 ^ (31 - Z.of_nat pb))) ->
        test = Ok tt
    | _ => test <> Ok tt
    end.
Proof.
  intros sha prg dbg fe rnd fseed pseed kbytes bytes tapes dim m es pb w rounds Hsha Hb Hpb Hw H64 Hm Hrm Hsane test.
  assert (Hpb32 : (1 <= pb <= 32)%nat) by (clear - Hpb; lia).
  assert (Hpb31 : (pb <= 31)%nat) by (clear - Hpb; lia).
  pose proof (eles_stored bytes m es pb w Hb Hpb32 Hw) as (_ & _ & Hst).
  set (f := fun e : list Z * list Z => kv_from_base64_strings sha dbg (fst e) (snd e) es pb).
  set (eles := generate_kv_db_elems kbytes bytes m ((es + 7) / 8)).
  assert (HK : exists kvs, mapM f eles = Ok kvs).
  { apply mapM_exists. intros e He. unfold eles, generate_kv_db_elems in He. apply in_map_iff in He as (i & <- & Hi).
    apply in_seq in Hi. unfold f. cbn [fst snd]. destruct (Hb i ((es + 7) / 8)%nat) as [Lb Bb].
    apply (kv_strings_build sha dbg _ _ es pb w Hsha Hpb32 Hw Bb).
    destruct (Hst i ltac:(clear - Hi; lia)) as [_ Hl]. rewrite nth_map_seq in Hl by (clear - Hi; lia). exact Hl. }
  destruct HK as [kvs HK]. exists kvs.
  pose proof (mapM_length _ _ _ HK) as Lk.
  assert (Le : length eles = m) by (unfold eles, generate_kv_db_elems; now rewrite map_length, seq_length).
  rewrite Le in Lk. split; [exact Lk|].
  assert (Hkv : forall i kv, nth_error kvs i = Some kv ->
       kv_from_base64_strings sha dbg (b64_encode (kbytes i 32%nat)) (b64_encode (bytes i ((es + 7) / 8)%nat)) es pb = Ok kv).
  { intros i kv Hi. assert (Hil : (i < m)%nat) by (rewrite <- Lk; apply nth_error_Some; congruence).
    apply mapM_Ok_inv in HK. apply (Forall2_nth _ _ _ ([], []) kv) in HK as [_ HK].
    specialize (HK i). rewrite Le in HK. specialize (HK Hil). unfold eles, generate_kv_db_elems in HK.
    rewrite nth_map_seq in HK by exact Hil. unfold f in HK. cbn [fst snd] in HK. rewrite HK. f_equal. now apply nth_error_nth. }
  split; [exact Hkv|].
  assert (Etest : test = let* sh := unwrap (kv_shard_new prg dbg fe rnd fseed pseed kvs dim m es pb) in
     let* _ := for_each kvs (kv_real_values dbg (ks_db sh) pb) in
     for_each (seq 0 rounds) (fun i => kv_round prg dbg sh kvs i (tapes i))).
  { unfold test, kv_test. fold eles f.
    assert (EM : map_all f eles = Ok (map inr kvs)).
    { clear - HK. revert kvs HK. induction eles as [|e l IH]; intros kvs H; cbn [mapM map_all] in *.
      - injection H as <-. reflexivity.
      - apply bind_Ok in H as (kv & H1 & H). apply bind_Ok in H as (ks & H2 & H). injection H as <-.
        rewrite H1, (IH ks H2). reflexivity. }
    rewrite EM. cbn [bind].
    assert (EC : collect_results (map inr kvs : list (error + key_value)) = Ok kvs).
    { clear. induction kvs as [|k l IH]; [reflexivity|]. cbn [map collect_results]. rewrite IH. reflexivity. }
    rewrite EC. reflexivity. }
  rewrite Etest. clear Etest test.
  destruct (kv_shard_new prg dbg fe rnd fseed pseed kvs dim m es pb) as [sh| | |] eqn:Hsh; cbn [unwrap bind]; try discriminate.
  intros ND Hload Ht Hn.
  assert (Hval : forall i kv, nth_error kvs i = Some kv -> length (kv_value kv) = w /\ Forall (fun x => 0 <= x < 2 ^ Z.of_nat pb) (kv_value kv)).
  { intros i kv Hi. destruct (kv_from_strings_inv _ _ _ _ _ _ w _ Hpb32 Hw (Hkv i kv Hi)) as (_ & b & _ & _ & ->).
    rewrite map_length, seq_length. split; [reflexivity|]. apply Forall_map, Forall_forall. intros c _. apply chunk_range. }
  assert (HF : Forall (fun kv => length (kv_value kv) = w) kvs).
  { apply Forall_forall. intros kv Hin. apply In_nth_error in Hin as [i Hi]. apply (Hval i kv Hi). }
  rewrite <- Lk in Hsane.
  pose proof Hsh as Hsh'. unfold kv_shard_new in Hsh'. apply bind_Ok in Hsh' as (db & Hdb & Hsh').
  assert (Edb : ks_db sh = db).
  { unfold kv_shard_of_db in Hsh'. apply bind_Ok in Hsh' as (? & _ & Hsh'). now injection Hsh' as <-. }
  rewrite Edb in Hload, Hn |- *.
  rewrite for_each_ok; [cbn [bind]|].
  - apply for_each_ok. intros i Hi. apply in_seq in Hi. assert (Hi' : (i < rounds)%nat) by (clear - Hi; lia).
    destruct (nth_error kvs i) as [kv|] eqn:Ekv; [|apply nth_error_None in Ekv; rewrite Lk in Ekv; clear - Hi' Hrm Ekv; lia].
    assert (GQ : exists qp rest, generate_kv_query_params (kv_common_params prg (ks_params sh)) (ks_params sh) (tapes i) = Ok (qp, rest)).
    { destruct (kv_shard_cols prg dbg fe rnd fseed pseed kvs dim m es pb w sh Hpb Hw Hsane HF Hsh) as ((H & Ep & Em) & _).
      rewrite Ep. apply kv_gen_qp_total. rewrite <- Em. exact (Ht i Hi'). }
    destruct GQ as (qp & rest & Hqp).
    destruct (kv_retrieval prg dbg fe rnd fseed pseed kvs dim m es pb w sh (tapes i) rest qp i kv Hpb Hw H64 Hsane HF Hsh)
      as (qp' & q & rb & resp & row & H1 & H2 & H3 & H4 & H5 & H6).
    + rewrite Edb. exact Hload.
    + exact Ekv.
    + now apply nodup_last.
    + exact Hqp.
    + unfold kv_round. rewrite Hqp. cbn [unwrap bind]. unfold idx. rewrite Ekv. cbn [bind]. rewrite H1. cbn [unwrap bind].
      rewrite H2. cbn [unwrap bind]. rewrite H3. cbn [unwrap bind]. rewrite H4. cbn [unwrap bind].
      unfold assert_. rewrite (proj2 (equal_true _ _)); [reflexivity|].
      rewrite (proj2 H6); [|rewrite Edb; intros c Hc; exact (Hn i c Hi' Hc)].
      destruct (Hval i kv Ekv) as [_ Hr]. clear - Hr. induction Hr as [|x l Hx _ IH]; [reflexivity|]. cbn [map].
      now rewrite IH, Z.mod_small.
  - intros kv Hin. apply In_nth_error in Hin as [i Ekv]. destruct (Hval i kv Ekv) as [Lv Hr].
    destruct (stored_sum dbg fe rnd fseed kvs m es pb w db i kv Hpb Hsane HF Hdb Hload Ekv (nodup_last _ _ _ _ ND Ekv))
      as (H & a & b & c & Hs & Hev & Hab & Hc & Hfs & HW & HV).
    unfold kv_real_values. rewrite (proj1 Hs).
    rewrite (mapM_Ok _ (fun _ => [a; b; c])) by (intros; exact Hev). cbn [bind]. rewrite map_length, seq_length.
    apply for_each_ok. intros [j sl] Hj. apply combine_map_in in Hj as [Hj ->].
    rewrite (real_value_ok db (kv_key kv) pb j a b c w H) by (auto; clear - Hab Hc; lia). cbn [bind].
    rewrite (idx_nth (kv_value kv) j 0) by (rewrite Lv; exact Hj). cbn [bind]. rewrite Hfs, HV by exact Hj.
    rewrite Z.mod_small; [unfold assert_; now rewrite Z.eqb_refl|].
    rewrite Forall_forall in Hr. apply Hr. apply nth_In. rewrite Lv. exact Hj.
Qed.

(** @C75 With the sizes in the repository: the ten-rounds test passes for at most 2047^10 / 2048^10
    of the public matrices (it fails about once in 205 runs), and the reuse test fails for
    exactly one in 1024. *)
Lemma shipped_test_rates : forall dbg seed bytes tapes,
  os_bytes bytes ->
  (forall i, (i < 10)%nat -> (ten_times_dim + ten_times_m <= length (draws (tapes i)))%nat /\
     exists j, (j < ten_times_dim)%nat /\ nth j (draws (tapes i)) 0 <> 0) ->
  count (fun stream => passes (index_test (stream_prg stream) dbg seed bytes tapes ten_times_dim ten_times_m ten_times_elem_size ten_times_bits 10))
        (uniform_vectors (ten_times_dim * ten_times_m)) * 2048 ^ 10
    <= 2047 ^ 10 * size (uniform_vectors (ten_times_dim * ten_times_m)) /\
  forall tape, (ten_times_dim + reuse_m <= length (draws tape))%nat -> (exists j, (j < ten_times_dim)%nat /\ nth j (draws tape) 0 <> 0) ->
  count (fun stream => negb (passes (reuse_test (stream_prg stream) dbg seed bytes tape ten_times_dim reuse_m ten_times_elem_size reuse_bits)))
        (uniform_vectors (ten_times_dim * reuse_m)) * 1024
    = size (uniform_vectors (ten_times_dim * reuse_m)).
Proof.
  intros dbg seed bytes tapes Hb Ht.
  assert (Hw : is_ceil_div ten_times_elem_size ten_times_bits 24).
  { split; [vm_compute; lia|]. intros w' H'. change ten_times_elem_size with 256%nat in H'. unfold ten_times_bits in H'. lia. }
  assert (Em : Z.of_nat ten_times_m = 4096) by (apply Z2Nat.id; discriminate).
  assert (Ee : Z.of_nat ten_times_elem_size = 256) by (apply Z2Nat.id; discriminate).
  assert (H1 : (1 <= ten_times_bits <= 31)%nat) by (unfold ten_times_bits; lia).
  assert (H2 : Z.of_nat ten_times_elem_size < 2 ^ 64) by (rewrite Ee; reflexivity).
  assert (H3 : (0 < ten_times_m)%nat /\ (10 <= ten_times_m)%nat) by (clear - Em; lia).
  split.
  - exact (proj1 (index_test_rate dbg seed bytes tapes ten_times_dim ten_times_m ten_times_elem_size ten_times_bits 24 10 Hb H1 Hw H2 (proj1 H3) (proj2 H3) Ht)).
  - intros tape Hd Hz.
    assert (H4 : (1 <= reuse_bits <= 31)%nat) by (unfold reuse_bits; lia).
    assert (H5 : (0 < reuse_m)%nat) by (unfold reuse_m; lia).
    exact (reuse_test_rate dbg seed bytes tape ten_times_dim reuse_m ten_times_elem_size reuse_bits Hb H4 H5 Hd Hz).
Qed.

Definition ex_bytes : nat -> nat -> list Z := fun i n => map (fun j => (Z.of_nat (7 * i + 3 * j + 1)) mod 256) (seq 0 n).
Lemma ex_bytes_ok : os_bytes ex_bytes.
Proof.
  intros i n. unfold ex_bytes. rewrite map_length, seq_length. split; [reflexivity|].
  apply Forall_map, Forall_forall. intros j _. apply Z.mod_pos_bound. reflexivity.
Qed.
Definition ex_sha : list Z -> list Z := fun l => firstn 32 (l ++ repeat 0 32).

(** @C75 example: small instances of every test, evaluated. Five rows of 16 bits: the index test
    passes with one matrix and panics with another; so does the reuse test; the keyword test
    passes; the tests of src/db/kv.rs pass with their own key and value. *)
Example tests_example :
  os_bytes ex_bytes /\
  index_test ex_prg true [] ex_bytes (fun _ => ex_tape) 2 5 16 10 3 = Ok tt /\
  index_test (fun _ _ => 4294967295) true [] ex_bytes (fun _ => [2000000000; 5; 9; 9; 9; 9; 9; 9]) 2 5 16 10 3 = Panic /\
  reuse_test ex_prg true [] ex_bytes ex_tape 2 5 16 10 = Ok tt /\
  reuse_test (fun _ _ => 4294967295) true [] ex_bytes [2000000000; 5; 9; 9; 9; 9; 9; 9] 2 5 16 10 = Panic /\
  kv_test ex_sha ex_prg true (est 3 12) ex_rnd seed0 [] ex_bytes ex_bytes (fun _ => ex_tape) 2 3 16 10 3 = Ok tt /\
  retrieval_test true (est 3 12) ex_rnd seed0 test_key test_value test_bits = Ok tt /\
  hashes_test true (est 3 12) ex_rnd seed0 test_key test_value test_bits = Ok tt /\
  db_retrieval_test true (est 3 12) ex_rnd seed0 test_key test_value test_bits = Ok tt /\
  mult_test true (est 3 12) ex_rnd seed0 test_key test_value test_bits = Ok tt.
Proof.
  split; [exact ex_bytes_ok|]. split; [vm_compute; reflexivity|]. split; [vm_compute; reflexivity|].
  split; [vm_compute; reflexivity|]. split; [vm_compute; reflexivity|]. split; [vm_compute; reflexivity|].
  destruct (kv_unit_tests_pass true (est 3 12) ex_rnd seed0 test_key test_value test_bits) as (A & B & C & D).
  - unfold test_bits. lia.
  - unfold test_bits. lia.
  - apply est_sane; lia.
  - discriminate.
  - unfold test_value. repeat (constructor; [split; [discriminate|reflexivity]|]). constructor.
  - auto.
Qed.
