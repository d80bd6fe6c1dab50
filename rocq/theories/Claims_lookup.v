(** C79: from a file to the text a client obtains. *)
From Coq Require Import String.
Import String.
From Verif Require Import Base Spec SpecFilter SpecFiles SpecJson Experiment Fmt Base64 Bincode Mat Lwe Hash Bfusep Db Api Json Files Refusal Lookup Base_facts Fmt_facts Codec_facts Mat_facts Index_facts IndexProto_facts Geom_facts Filter_facts FilterTop_facts KV_facts Seq_facts Refusal_facts Claims_format Claims_filter Claims_index Claims_kv Claims_prob Claims_refusal Claims_tests Claims_json JsonSpec_facts.
Local Open Scope Z_scope.

(** What a file must contain: texts of [es]-bit blocks. *)
Definition blocks_of (es : nat) (blocks : list (list Z)) : Prop :=
  Forall (fun b => Forall is_u8 b /\ (8 * length b = es)%nat) blocks.

Lemma ceil_room es pb w l : is_ceil_div es pb w -> (1 <= pb)%nat -> (8 * l = es)%nat -> (w * pb <= 8 * l + pb)%nat.
Proof.
  intros Hw Hpb E. destruct (Nat.eq_dec w 0) as [->|]; [lia|].
  assert (~ (es <= (w - 1) * pb)%nat) as N by (intros Y; apply (proj2 Hw) in Y; lia).
  replace (w * pb)%nat with ((w - 1) * pb + pb)%nat by nia. clear - N E. lia.
Qed.

Lemma blocks_stored es pb w blocks : (1 <= pb)%nat -> is_ceil_div es pb w -> blocks_of es blocks ->
  stored (map b64_encode blocks) (length blocks) pb w blocks.
Proof.
  intros Hpb Hw HB. split; [reflexivity|]. split; [now rewrite map_length|]. intros i Hi.
  rewrite (nth_map' _ _ _ _ []) by exact Hi.
  unfold blocks_of in HB. rewrite Forall_forall in HB. destruct (HB (nth i blocks [])) as [U L]; [now apply nth_In|].
  split; [now apply b64_roundtrip|]. now apply (ceil_room es).
Qed.

Lemma same_bits out b es : Forall is_u8 out -> Forall is_u8 b -> (8 * length b = es)%nat -> length out = ((es + 7) / 8)%nat ->
  byte_string_bits out = fit es (byte_string_bits b) ++ repeat false (8 * length out - es) -> out = b.
Proof.
  intros U1 U2 Hb Ho E. apply bits_injective; auto.
  assert (X : ((es + 7) / 8)%nat = length b).
  { subst es. rewrite (Nat.mul_comm 8). rewrite Nat.div_add_l by discriminate. cbn. lia. }
  rewrite E, Ho, X, Hb, Nat.sub_diag, app_nil_r.
  replace es with (length (byte_string_bits b)) at 1; [apply fit_same|].
  rewrite <- bytes_to_bits_spec, bytes_to_bits_length. exact Hb.
Qed.

Lemma out_u8 dbg row pb es out : (1 <= pb <= 32)%nat -> bytes_from_u32_slice dbg row pb es = Ok out -> Forall is_u8 out.
Proof.
  intros Hpb H. rewrite bytes_from_u32_slice_closed in H by exact Hpb.
  match type of H with bits_to_bytes_le dbg ?l = _ => destruct (bits_to_bytes_roundtrip dbg l) as (o & Eo & Fo & _) end.
  rewrite Eo in H. assert (o = out) by congruence. now subst o.
Qed.

(** Re-assembling a row of [w] entries gives [(w - 1) * pb + es mod pb] bits. *)
Lemma out_length dbg row pb es out : (1 <= pb <= 32)%nat -> (1 <= length row)%nat ->
  bytes_from_u32_slice dbg row pb es = Ok out ->
  length out = (((length row - 1) * pb + es mod pb + 7) / 8)%nat.
Proof.
  intros Hpb Hr H. rewrite bytes_from_u32_slice_closed in H by exact Hpb.
  match type of H with bits_to_bytes_le dbg ?l = _ => destruct (bits_to_bytes_roundtrip dbg l) as (o & Eo & _ & Lo & _) end.
  rewrite Eo in H. assert (o = out) by congruence. subst o. rewrite Lo. f_equal. f_equal.
  clear - Hr Hpb. generalize (es mod pb)%nat as x. intros x.
  assert (G : forall k l, (forall i, In i l -> (i < k)%nat) -> (k < length row)%nat ->
     length (concat (map (fun i => low_bits (nth i row 0) (if (i =? length row - 1)%nat then x else pb)) l)) = (length l * pb)%nat).
  { intros k l Hl Hk. induction l as [|i l IH]; [reflexivity|]. cbn [map concat length]. rewrite app_length, IH.
    - specialize (Hl i (or_introl eq_refl)). destruct (Nat.eqb_spec i (length row - 1)); [lia|].
      unfold low_bits. rewrite map_length, seq_length. reflexivity.
    - intros j Hj. apply Hl. now right. }
  assert (Hseq : seq 0 (length row) = seq 0 (length row - 1) ++ [(length row - 1)%nat]).
  { destruct (length row) as [|n]; [lia|]. rewrite seq_S'. cbn [Nat.add]. now replace (S n - 1)%nat with n by lia. }
  rewrite Hseq, map_app, concat_app, app_length. rewrite (G (length row - 1)%nat) by (try (intros i Hi; apply in_seq in Hi); lia).
  cbn [map concat]. rewrite app_nil_r, Nat.eqb_refl, seq_length. unfold low_bits. rewrite map_length, seq_length. reflexivity.
Qed.

Lemma exact_width es pb w : (1 <= pb)%nat -> (es mod pb = 0)%nat -> (0 < es)%nat -> is_ceil_div es pb w ->
  (1 <= w)%nat /\ ((w - 1) * pb = es - pb)%nat.
Proof.
  intros Hpb Hd H0 Hw.
  assert (Ew : (w * pb = es)%nat /\ (1 <= w)%nat).
  { pose proof (Nat.div_mod es pb ltac:(lia)) as D. rewrite Hd, Nat.add_0_r in D.
    assert (w = es / pb)%nat as ->; [|split; [lia|]; destruct (es / pb)%nat; lia].
    apply Nat.le_antisymm; [apply (proj2 Hw); lia|]. destruct Hw as [H1 _]. nia. }
  destruct Ew as [Ew W]. split; [exact W|]. nia.
Qed.

(** When [pb] divides [es] the result is too short to be a block. *)
Lemma out_short dbg row pb es w out b : (8 <= pb <= 32)%nat -> (es mod pb = 0)%nat -> (0 < es)%nat -> is_ceil_div es pb w ->
  length row = w -> bytes_from_u32_slice dbg row pb es = Ok out -> (8 * length b = es)%nat -> Forall is_u8 b ->
  length out = ((es - pb + 7) / 8)%nat /\ b64_encode out <> b64_encode b.
Proof.
  intros Hpb Hd H0 Hw Hr Ho Hb Hu.
  assert (Ew : (w * pb = es)%nat /\ (1 <= w)%nat).
  { pose proof (Nat.div_mod es pb ltac:(lia)) as D. rewrite Hd, Nat.add_0_r in D.
    assert (w = es / pb)%nat as ->; [|split; [lia|]; destruct (es / pb)%nat; lia].
    apply Nat.le_antisymm; [apply (proj2 Hw); lia|]. destruct Hw as [H1 _]. nia. }
  destruct Ew as [Ew W1].
  pose proof (out_length dbg row pb es out ltac:(lia) ltac:(lia) Ho) as L. rewrite Hr, Hd in L.
  replace ((w - 1) * pb + 0 + 7)%nat with (es - pb + 7)%nat in L by nia.
  split; [exact L|]. intros E. apply (f_equal b64_decode) in E.
  assert (Uo : Forall is_u8 out) by (eapply out_u8; [|exact Ho]; lia).
  rewrite (b64_roundtrip out Uo), (b64_roundtrip b Hu) in E.
  assert (out = b) by congruence. subst out.
  pose proof (Nat.div_mod (es - pb + 7) 8 ltac:(lia)) as D. pose proof (Nat.mod_upper_bound (es - pb + 7) 8 ltac:(lia)) as U.
  rewrite <- L in D. lia.
Qed.

(** ** Index mode *)

(** @C79 Index mode, every configuration of the Makefile in which plaintext_bits does not divide
    elem_size: from any file (any formatting) of m texts of elem_size-bit blocks the shard is
    built, and for every row the client's randomness that makes it hold a text other than the
    one in the file is a fraction below 2^-bits of all. *)
Lemma index_text_back : forall prg dbg seed d path text blocks dim m es pb mz ez pz bits,
  In (mz, ez, pz, bits) index_configs -> Z.of_nat m = mz -> Z.of_nat es = ez -> Z.of_nat pb = pz ->
  (es mod pb <> 0)%nat -> length blocks = m -> blocks_of es blocks ->
  d path = Some text -> strings_file text (map b64_encode blocks) ->
  exists sh, shard_from_json_file prg dbg seed d path dim m es pb = Ok sh /\
    forall r, (r < m)%nat ->
      count_tapes (fun tape => wrong_text (b64_encode (nth r blocks [])) (index_lookup prg dbg sh r tape)) (dim + m) * 2 ^ bits
      <= count_tapes (fun _ => true) (dim + m).
Proof.
  intros prg dbg seed d path text blocks dim m es pb mz ez pz bits Hin Hm He Hp Hes Hl HB Hd Hf.
  assert (Hc : (1 <= pb <= 31)%nat /\ Z.of_nat es < 2 ^ 64 /\ (0 < m)%nat /\ 0 <= 2 ^ bits).
  { revert Hin. unfold index_configs. cbn [In]. intros Hin.
    destruct Hin as [H|[H|[H|[H|[H|[H|[H|[H|[]]]]]]]]]; injection H as <- <- <- <-; (split; [lia|]); (split; [lia|]); (split; [lia|discriminate]). }
  destruct Hc as (Hpb & H64 & Hm0 & Hbits).
  destruct (get_row_width_pos es pb) as (w & _ & Hw); [clear - Hpb; lia|].
  assert (Hpb32 : (1 <= pb <= 32)%nat) by (clear - Hpb; lia).
  destruct (any_formatting_strings prg dbg seed d path text _ dim m es pb Hd Hf) as [-> _].
  pose proof (blocks_stored es pb w blocks ltac:(clear - Hpb; lia) Hw HB) as Hst. rewrite Hl in Hst.
  pose proof (shard_ok prg dbg seed _ dim m es pb w _ Hpb32 Hw Hm0 Hst) as Hsh.
  set (strs := map b64_encode blocks) in *. set (sh := shard_of prg seed dim blocks m es pb w) in *.
  exists sh. split; [exact Hsh|]. intros r Hr.
  assert (Hdec : forall i, (i < m)%nat -> b64_decode (nth i strs []) = Ok (nth i blocks [])) by (intros i Hi; apply (proj2 (proj2 Hst) i Hi)).
  eapply Z.le_trans; [|apply (index_failure_shipped prg dbg seed strs blocks dim m es pb w sh r mz ez pz bits Hin Hm He Hp Hw Hsh Hl Hdec)].
  apply Z.mul_le_mono_nonneg_r; [exact Hbits|]. apply count_tapes_le. intros t Hti Hp'.
  destruct (tapes_accepted _ _ Hti) as [Lt Dt].
  assert (Ht : (dim + m <= length (draws t))%nat) by (rewrite Dt, map_length, Lt; apply le_n).
  destruct (index_run_wrong prg dbg sh r _ t) eqn:E; [reflexivity|]. exfalso.
  destruct (gen_qp_ok prg seed dim blocks m es pb w t Ht) as [rest Hqp].
  pose proof (query_of_refused prg dbg seed dim m es pb w blocks r t Hpb Hw Hm0 strs Hst Hr Ht) as Hq. cbv zeta in Hq.
  assert (Hqp' : generate_index_query_params (index_common_params prg (sh_params sh)) (sh_params sh) t = Ok (qp_of (pubmat prg seed dim m) dim blocks m es pb w t, rest)) by exact Hqp.
  unfold index_run_wrong in E. unfold index_lookup in Hp'. rewrite Hqp' in E, Hp'. cbn [bind] in Hp'.
  rewrite Hq in E, Hp'. destruct (index_query_refused prg dbg seed strs dim m es pb r t) eqn:Er; [discriminate Hp'|].
  destruct (index_retrieval prg dbg seed strs blocks dim m es pb w sh t rest _ _ r _ Hpb Hw H64 Hsh Hl Hdec Hqp' Hq)
    as (rb & resp & row & H1 & H2 & H3 & _ & H5).
  cbn [bind] in Hp'. rewrite H1 in E, Hp'. cbn [bind] in E, Hp'. rewrite H2 in E, Hp'. cbn [bind] in E, Hp'. rewrite H3 in E.
  apply negb_false_iff, same_row_spec in E.
  unfold index_parse_resp_as_base64 in Hp'. rewrite H3 in Hp'. cbn [bind] in Hp'. unfold base64_from_u32_slice in Hp'.
  cbn [set_used qp_of qp_plaintext_bits qp_elem_size] in Hp'. rewrite E in Hp'.
  unfold blocks_of in HB. rewrite Forall_forall in HB.
  destruct (HB (nth r blocks [])) as [U L]; [apply nth_In; rewrite Hl; exact Hr|].
  destruct (row_entry_bytes dbg (nth r blocks []) pb es w Hpb32 Hw Hes) as (out & Ho & Uo & Lo & Bo).
  { apply (ceil_room es); auto. clear - Hpb; lia. }
  rewrite Ho in Hp'. cbn [bind] in Hp'. rewrite (same_bits out _ es Uo U L Lo Bo) in Hp'.
  unfold wrong_text in Hp'. destruct (list_eq_dec Z.eq_dec _ _) as [|N]; [discriminate Hp'|]. now apply N.
Qed.

(** @C79 Refuted when plaintext_bits (at least 8) divides elem_size, as in two of the
    configurations: from every such file the shard is built without complaint, and no query for
    any row, whatever the randomness, gives the client the text in the file: what it obtains is
    the text of (elem_size - plaintext_bits + 7) / 8 bytes. *)
Lemma index_text_never_back_refuted : forall prg dbg seed d path text blocks dim m es pb,
  (8 <= pb <= 31)%nat -> (es mod pb = 0)%nat -> (0 < es)%nat -> (0 < m)%nat ->
  length blocks = m -> blocks_of es blocks ->
  d path = Some text -> strings_file text (map b64_encode blocks) ->
  exists sh, shard_from_json_file prg dbg seed d path dim m es pb = Ok sh /\
    forall r tape s, (r < m)%nat -> index_lookup prg dbg sh r tape = Ok s ->
      s <> b64_encode (nth r blocks []) /\ exists out, s = b64_encode out /\ length out = ((es - pb + 7) / 8)%nat.
Proof.
  intros prg dbg seed d path text blocks dim m es pb Hpb Hes H0 Hm0 Hl HB Hd Hf.
  destruct (get_row_width_pos es pb) as (w & Ew & Hw); [clear - Hpb; lia|].
  assert (Hpb32 : (1 <= pb <= 32)%nat) by (clear - Hpb; lia).
  destruct (any_formatting_strings prg dbg seed d path text _ dim m es pb Hd Hf) as [-> _].
  pose proof (blocks_stored es pb w blocks ltac:(clear - Hpb; lia) Hw HB) as Hst. rewrite Hl in Hst.
  pose proof (shard_ok prg dbg seed _ dim m es pb w _ Hpb32 Hw Hm0 Hst) as Hsh.
  exists (shard_of prg seed dim blocks m es pb w). split; [exact Hsh|]. intros r t s Hr E.
  unfold index_lookup in E. apply bind_Ok in E as ([qp tl] & Hqp & E).
  destruct (index_generate_query dbg qp r) as [qp' q] eqn:Hq. apply bind_Ok in E as (q0 & _ & E).
  apply bind_Ok in E as (bytes & _ & E). apply bind_Ok in E as (resp & _ & E).
  assert (Eqp : qp_plaintext_bits qp' = pb /\ qp_elem_size qp' = es).
  { unfold generate_index_query_params in Hqp. apply bind_Ok in Hqp as ([? ?] & _ & Hqp). apply bind_Ok in Hqp as ([? ?] & _ & Hqp).
    apply bind_Ok in Hqp as (? & _ & Hqp). apply (f_equal (fun x => match x with Ok (a, _) => (qp_plaintext_bits a, qp_elem_size a) | _ => (0, 0)%nat end)) in Hqp.
    cbn in Hqp. unfold index_generate_query in Hq. destruct (qp_used qp); apply (f_equal fst) in Hq; cbn [fst] in Hq; subst qp';
      cbn [set_used qp_plaintext_bits qp_elem_size]; split; congruence. }
  destruct Eqp as [E1 E2].
  unfold index_parse_resp_as_base64 in E. apply bind_Ok in E as (row & Hrow & E). rewrite E1, E2 in E.
  unfold index_parse_resp_as_row in Hrow. apply bind_Ok in Hrow as (? & _ & Hrow). apply bind_Ok in Hrow as (? & _ & Hrow).
  apply bind_Ok in Hrow as (? & _ & Hrow). rewrite E1, E2, Ew in Hrow. cbn [bind] in Hrow.
  apply mapM_length in Hrow. rewrite seq_length in Hrow.
  unfold base64_from_u32_slice in E. apply bind_Ok in E as (out & Ho & E). assert (s = b64_encode out) by congruence. subst s.
  unfold blocks_of in HB. rewrite Forall_forall in HB.
  destruct (HB (nth r blocks [])) as [U L]; [apply nth_In; rewrite Hl; exact Hr|].
  destruct (out_short dbg row pb es w out (nth r blocks []) ltac:(clear - Hpb; lia) Hes H0 Hw ltac:(congruence) Ho L U) as [A B].
  split; [exact B|]. exists out. split; [reflexivity|exact A].
Qed.

(** ** Keyword mode *)

(** What the strings determine: the words of the digests and the chunks of the values. *)
Lemma kv_of_strings sha prg dbg fe rnd fseed pseed keys values hkeys dim m es pb w sh :
  (1 <= pb <= 32)%nat -> is_ceil_div es pb w ->
  kv_shard_from_base64_strings sha prg dbg fe rnd fseed pseed keys values dim m es pb = Ok sh ->
  mapM (sha256_into_u64_sized sha) keys = Ok hkeys ->
  exists kvs, length kvs = length keys /\ kv_shard_new prg dbg fe rnd fseed pseed kvs dim m es pb = Ok sh /\
    hkeys = map kv_key kvs /\ Forall (fun kv => length (kv_value kv) = w) kvs /\
    forall i, (i < length keys)%nat -> sha256_into_u64_sized sha (nth i keys []) = Ok (nth i hkeys []) /\
      nth i hkeys [] = kv_key (nth i kvs kd0) /\
      exists b, b64_decode (nth i values []) = Ok b /\ kv_value (nth i kvs kd0) = map (chunk b pb) (seq 0 w).
Proof.
  intros Hpb' Hw Hsh Hh.
  unfold kv_shard_from_base64_strings in Hsh. apply bind_Ok in Hsh as (db & Hdb & Hsh).
  apply kv_strings_inv in Hdb as (EL & kvs & Lk & Hdb & Hkv).
  pose proof (mapM_length _ _ _ Hh) as Lh.
  assert (Ek : hkeys = map kv_key kvs).
  { apply (list_eq_nth _ _ []); [rewrite map_length; congruence|]. intros j Hj.
    apply mapM_Ok_inv in Hh. apply (Forall2_nth _ _ _ [] []) in Hh as [_ Hh].
    specialize (Hh j ltac:(congruence)).
    destruct (kv_from_strings_inv sha dbg _ _ es pb w _ Hpb' Hw (Hkv j ltac:(congruence))) as [Hk _].
    rewrite (nth_map' kv_key kvs j [] kd0) by congruence. congruence. }
  exists kvs. split; [exact Lk|]. split; [unfold kv_shard_new; rewrite Hdb; exact Hsh|]. split; [exact Ek|]. split.
  - apply Forall_forall. intros kv Hin. apply In_nth with (d := kd0) in Hin. destruct Hin as (j & Hj & <-).
    destruct (kv_from_strings_inv sha dbg _ _ es pb w _ Hpb' Hw (Hkv j ltac:(congruence))) as (_ & b & _ & _ & ->).
    now rewrite map_length, seq_length.
  - intros i Hi. destruct (kv_from_strings_inv sha dbg _ _ es pb w _ Hpb' Hw (Hkv i Hi)) as (Hk & b & Hb & Hbl & Hv).
    assert (E : nth i hkeys [] = kv_key (nth i kvs kd0)) by (rewrite Ek; apply nth_map'; congruence).
    split; [rewrite E; exact Hk|]. split; [exact E|]. exists b. split; [exact Hb|exact Hv].
Qed.

Lemma combine_parts (keys values : list (list Z)) : length keys = length values ->
  map fst (combine keys values) = keys /\ map snd (combine keys values) = values.
Proof.
  revert values. induction keys as [|k ks IH]; intros [|v vs] L; try discriminate; [split; reflexivity|].
  injection L as L. destruct (IH vs L) as [A B]. cbn [combine map fst snd]. split; congruence.
Qed.

Lemma kv_params_widths prg dbg fe rnd fseed pseed kvs dim m es pb sh : (1 <= pb <= 31)%nat ->
  kv_shard_new prg dbg fe rnd fseed pseed kvs dim m es pb = Ok sh ->
  kp_plaintext_bits (ks_params sh) = pb /\ kp_elem_size (ks_params sh) = es.
Proof.
  intros Hpb Hsh. unfold kv_shard_new in Hsh. apply bind_Ok in Hsh as (db & Hdb & Hsh).
  unfold kv_shard_of_db in Hsh. apply bind_Ok in Hsh as (p & Hp & [= <-]). cbn [ks_params].
  unfold kv_params_new in Hp. apply bind_Ok in Hp as (? & _ & Hp). apply bind_Ok in Hp as (? & _ & [= <-]).
  cbn [kp_plaintext_bits kp_elem_size].
  destruct (kv_db_inv dbg fe rnd fseed kvs m es pb db ltac:(lia) Hdb) as (? & ? & _ & _ & _ & ? & ? & _). auto.
Qed.

Lemma kv_qp_widths cp p tape qp rest dbg key qp' q : generate_kv_query_params cp p tape = Ok (qp, rest) ->
  kv_generate_query dbg qp key = (qp', q) ->
  qp_plaintext_bits qp' = kp_plaintext_bits p /\ qp_elem_size qp' = kp_elem_size p.
Proof.
  intros Hqp Hq. unfold generate_kv_query_params in Hqp. apply bind_Ok in Hqp as ([? ?] & _ & Hqp). apply bind_Ok in Hqp as ([? ?] & _ & Hqp).
  apply bind_Ok in Hqp as (? & _ & Hqp).
  apply (f_equal (fun x => match x with Ok (a, _) => (qp_plaintext_bits a, qp_elem_size a) | _ => (0, 0)%nat end)) in Hqp.
  cbn in Hqp. unfold kv_generate_query in Hq. destruct (qp_used qp); apply (f_equal fst) in Hq; cbn [fst] in Hq; subst qp';
    cbn [set_used qp_plaintext_bits qp_elem_size]; split; congruence.
Qed.

(** @C79 Keyword mode, every configuration of the Makefile in which plaintext_bits does not
    divide elem_size: if a shard is built from a file (any formatting) of keys and texts of
    elem_size-bit blocks, with a filter of the size the arithmetic gives, then for every key
    (the last of its digest) the client's randomness that makes a lookup of the key's text end
    with anything but the text in the file is a fraction below 2^-bits of all. *)
Lemma kv_text_back : forall sha prg dbg fe rnd fseed pseed d path text keys blocks hkeys dim m es pb sh i key mz ez pz bits,
  In (mz, ez, pz, bits) kv_configs -> Z.of_nat (kp_m (ks_params sh)) <= mz -> Z.of_nat es = ez -> Z.of_nat pb = pz ->
  (es mod pb <> 0)%nat -> length keys = length blocks -> blocks_of es blocks ->
  d path = Some text -> kvs_file text (combine keys (map b64_encode blocks)) ->
  sane_estimates fe (length keys) ->
  kv_shard_from_json_file sha prg dbg fe rnd fseed pseed d path dim m es pb = Ok sh ->
  mapM (sha256_into_u64_sized sha) keys = Ok hkeys ->
  (dbg = true \/ exists slots,
     (forall key, get_hash_evals dbg (kd_filter_params (ks_db sh)) key = Ok (slots key)) /\
     forall j, (load slots hkeys j <= 63)%nat) ->
  last_with_hash fseed hkeys i key ->
  count_tapes (fun tape => wrong_text (b64_encode (nth i blocks [])) (kv_lookup sha prg dbg sh (nth i keys []) tape))
      (dim + kp_m (ks_params sh)) * 2 ^ bits
  <= count_tapes (fun _ => true) (dim + kp_m (ks_params sh)).
Proof.
  intros sha prg dbg fe rnd fseed pseed d path text keys blocks hkeys dim m es pb sh i key mz ez pz bits
    Hin Hm He Hp Hes Hl HB Hd Hf Hsane Hsh Hh Hload Hlast.
  assert (Hc : (1 <= pb <= 31)%nat /\ Z.of_nat es < 2 ^ 64 /\ 0 <= 2 ^ bits).
  { revert Hin. unfold kv_configs. cbn [In]. intros Hin. clear - Hin He Hp.
    destruct Hin as [H|[H|[H|[H|[H|[H|[H|[H|[]]]]]]]]]; injection H as <- <- <- <-; (split; [lia|]); (split; [lia|discriminate]). }
  destruct Hc as (Hpb & H64 & Hbits).
  destruct (get_row_width_pos es pb) as (w & _ & Hw); [clear - Hpb; lia|].
  assert (Hpb32 : (1 <= pb <= 32)%nat) by (clear - Hpb; lia).
  assert (Hpb31 : (1 <= pb <= 31)%nat) by (clear - Hpb; lia).
  rewrite (any_formatting_kvs sha prg dbg fe rnd fseed pseed d path text _ dim m es pb Hd Hf) in Hsh.
  set (values := map b64_encode blocks) in *.
  assert (Lv : length keys = length values) by (unfold values; rewrite map_length; exact Hl).
  destruct (combine_parts keys values Lv) as [E1 E2]. rewrite E1, E2 in Hsh.
  destruct (kv_of_strings sha prg dbg fe rnd fseed pseed keys values hkeys dim m es pb w sh Hpb32 Hw Hsh Hh)
    as (kvs & Lk & Hnew & Ek & HF & Hall).
  pose proof (mapM_length _ _ _ Hh) as Lh.
  assert (Hi : (i < length keys)%nat).
  { destruct Hlast as [Hn _]. rewrite <- Lh. apply nth_error_Some. congruence. }
  destruct (Hall i Hi) as (Hk & Hkk & b & Hb & Hv).
  assert (Ekey : nth i hkeys [] = key) by (destruct Hlast as [Hn _]; apply (nth_error_nth _ _ []) in Hn; exact Hn).
  unfold blocks_of in HB. rewrite Forall_forall in HB.
  destruct (HB (nth i blocks [])) as [U L]; [apply nth_In; rewrite <- Hl; exact Hi|].
  assert (Hdec : b64_decode (nth i values []) = Ok (nth i blocks [])).
  { unfold values. rewrite (nth_map' _ _ _ _ []) by (rewrite <- Hl; exact Hi). now apply b64_roundtrip. }
  assert (Eb : b = nth i blocks []) by congruence. subst b.
  assert (Em : map (fun x => x mod 2 ^ Z.of_nat pb) (kv_value (nth i kvs kd0)) = map (chunk (nth i blocks []) pb) (seq 0 w)).
  { rewrite Hv, map_map. apply map_ext. intros c. apply Z.mod_small. apply chunk_range. }
  assert (Hsane' : sane_estimates fe (length kvs)) by (rewrite Lk; exact Hsane).
  eapply Z.le_trans; [|apply (kv_failure_shipped prg dbg fe rnd fseed pseed kvs dim m es pb w sh i (nth i kvs kd0) mz ez pz bits
     Hin Hm He Hp Hw Hsane' HF Hnew)].
  2: rewrite <- Ek; exact Hload.
  2: apply nth_error_nth'; rewrite Lk; exact Hi.
  2: rewrite <- Ek, <- Hkk, Ekey; exact Hlast.
  apply Z.mul_le_mono_nonneg_r; [exact Hbits|]. apply count_tapes_le. intros t Hti Hp'.
  destruct (tapes_accepted _ _ Hti) as [Lt Dt].
  destruct (kv_run_wrong prg dbg sh _ _ t) eqn:E; [reflexivity|]. exfalso.
  rewrite Em, <- Hkk, Ekey in E.
  destruct (kv_shard_cols prg dbg fe rnd fseed pseed kvs dim m es pb w sh Hpb Hw Hsane' HF Hnew) as ((H & Ep & EH) & _).
  destruct (kv_gen_qp_total prg pseed dim (ks_db sh) H w t) as (qp & rest & G).
  { rewrite Dt, map_length, Lt, EH. apply le_n. }
  rewrite <- Ep in G.
  destruct (kv_retrieval_strings sha prg dbg fe rnd fseed pseed keys values hkeys dim m es pb w sh t rest qp i key (nth i blocks [])
     Hpb Hw H64 Hsane Hsh Hh Hload Hlast Hdec G) as (qp' & q & bytes & resp & row & H1 & H2 & H3 & H4 & H5 & _ & H7).
  unfold kv_run_wrong in E. unfold kv_lookup in Hp'. rewrite Hk, Ekey in Hp'. cbn [bind] in Hp'.
  rewrite G in E, Hp'. cbn [bind] in Hp'. rewrite H1 in E, Hp'. cbn [bind] in Hp'.
  rewrite H2 in E, Hp'. cbn [bind] in E, Hp'. rewrite H3 in E, Hp'. cbn [bind] in E, Hp'. rewrite H4 in E.
  apply negb_false_iff, same_row_spec in E.
  destruct (H7 E Hes) as (out & Ho1 & Ho2 & Lo & Bo). rewrite Ho2 in Hp'.
  assert (Uo : Forall is_u8 out).
  { unfold kv_parse_resp_as_bytes in Ho1. rewrite H4 in Ho1. cbn [bind] in Ho1.
    destruct (kv_qp_widths _ _ _ _ _ _ _ _ _ G H1) as [W1 _].
    destruct (kv_params_widths _ _ _ _ _ _ _ _ _ _ _ _ Hpb31 Hnew) as [W2 _].
    rewrite W1, W2 in Ho1. apply (out_u8 dbg row pb _ out Hpb32 Ho1). }
  rewrite (same_bits out _ es Uo U L Lo Bo) in Hp'.
  unfold wrong_text in Hp'. destruct (list_eq_dec Z.eq_dec _ _) as [|N]; [discriminate Hp'|]. now apply N.
Qed.

(** @C79 Refuted when plaintext_bits (at least 8) divides elem_size, as in two of the
    configurations: if a shard is built from such a file, no lookup, whatever the key text and
    the randomness, gives any of the texts in the file. *)
Lemma kv_text_never_back_refuted : forall sha prg dbg fe rnd fseed pseed d path text keys blocks dim m es pb sh,
  (8 <= pb <= 31)%nat -> (es mod pb = 0)%nat -> (0 < es)%nat -> length keys = length blocks -> blocks_of es blocks ->
  d path = Some text -> kvs_file text (combine keys (map b64_encode blocks)) ->
  kv_shard_from_json_file sha prg dbg fe rnd fseed pseed d path dim m es pb = Ok sh ->
  forall key_text tape s, kv_lookup sha prg dbg sh key_text tape = Ok s ->
    (forall b, In b blocks -> s <> b64_encode b) /\ exists out, s = b64_encode out /\ length out = ((es - pb + 7) / 8)%nat.
Proof.
  intros sha prg dbg fe rnd fseed pseed d path text keys blocks dim m es pb sh Hpb Hes H0 Hl HB Hd Hf Hsh key_text t s E.
  destruct (get_row_width_pos es pb) as (w & Ew & Hw); [clear - Hpb; lia|].
  assert (Hpb32 : (1 <= pb <= 32)%nat) by (clear - Hpb; lia).
  assert (Hpb31 : (1 <= pb <= 31)%nat) by (clear - Hpb; lia).
  rewrite (any_formatting_kvs sha prg dbg fe rnd fseed pseed d path text _ dim m es pb Hd Hf) in Hsh.
  unfold kv_shard_from_base64_strings in Hsh. apply bind_Ok in Hsh as (db & Hdb & Hsh).
  apply kv_strings_inv in Hdb as (_ & kvs & _ & Hdb & _).
  assert (Hnew : kv_shard_new prg dbg fe rnd fseed pseed kvs dim m es pb = Ok sh) by (unfold kv_shard_new; rewrite Hdb; exact Hsh).
  destruct (kv_params_widths _ _ _ _ _ _ _ _ _ _ _ _ Hpb31 Hnew) as [W1 W2].
  unfold kv_lookup in E. apply bind_Ok in E as (key & _ & E). apply bind_Ok in E as ([qp tl] & Hqp & E).
  destruct (kv_generate_query dbg qp key) as [qp' q] eqn:Hq. apply bind_Ok in E as (q0 & _ & E).
  apply bind_Ok in E as (bytes & _ & E). apply bind_Ok in E as (resp & _ & E).
  destruct (kv_qp_widths _ _ _ _ _ _ _ _ _ Hqp Hq) as [E1 E2]. rewrite W1 in E1. rewrite W2 in E2.
  unfold kv_parse_resp_as_base64 in E. apply bind_Ok in E as (row & Hrow & E). rewrite E1, E2 in E.
  unfold kv_parse_resp_as_row in Hrow. apply bind_Ok in Hrow as (? & _ & Hrow). apply bind_Ok in Hrow as (? & _ & Hrow).
  apply bind_Ok in Hrow as (? & _ & Hrow). rewrite E1, E2, Ew in Hrow.
  destruct (qp_extra qp') as [fp|]; [|discriminate Hrow]. cbn [bind] in Hrow.
  apply mapM_length in Hrow. rewrite seq_length in Hrow.
  unfold base64_from_u32_slice in E. apply bind_Ok in E as (out & Ho & E). assert (s = b64_encode out) by congruence. subst s.
  assert (Lo : length out = ((es - pb + 7) / 8)%nat /\ forall b, In b blocks -> b64_encode out <> b64_encode b).
  { unfold blocks_of in HB. rewrite Forall_forall in HB.
    assert (A : forall b, In b blocks -> length out = ((es - pb + 7) / 8)%nat /\ b64_encode out <> b64_encode b).
    { intros b Hb. destruct (HB b Hb) as [U L].
      apply (out_short dbg row pb es w out b ltac:(clear - Hpb; lia) Hes H0 Hw ltac:(congruence) Ho L U). }
    split; [|intros b Hb; apply (A b Hb)].
    rewrite (out_length dbg row pb es out Hpb32); [|rewrite Hrow|exact Ho].
    - rewrite Hrow, Hes. f_equal. f_equal. rewrite Nat.add_0_r. apply (exact_width es pb w); auto. clear - Hpb; lia.
    - apply (exact_width es pb w); auto. clear - Hpb; lia. }
  destruct Lo as [Lo N]. split; [exact N|]. exists out. split; [reflexivity|exact Lo].
Qed.

(** @C79 example: files of two 16-bit blocks with 10 bits per entry (both texts come back) and of
    40-bit blocks (the client gets the text of 30 of the 40 bits), in both modes. *)
Example lookup_example :
  let file := bytes_of "[""AQI="", ""/wA=""]" in
  let sfile := bytes_of "[""AQIDBAU="", ""//////8=""]" in
  let kfile := bytes_of "[{""key"":""a"",""value"":""AQI=""}, {""key"":""b"",""value"":""/wA=""}]" in
  let skfile := bytes_of "[{""key"":""a"",""value"":""AQIDBAU=""}, {""key"":""b"",""value"":""//////8=""}]" in
  let blocks := [[1; 2]; [255; 0]] in let sblocks := [[1; 2; 3; 4; 5]; repeat 255 5] in
  let keys := [bytes_of "a"; bytes_of "b"] in
  let sha k := firstn 32 (k ++ repeat 7 32) in
  blocks_of 16 blocks /\ blocks_of 40 sblocks /\
  strings_file file (map b64_encode blocks) /\ strings_file sfile (map b64_encode sblocks) /\
  kvs_file kfile (combine keys (map b64_encode blocks)) /\ kvs_file skfile (combine keys (map b64_encode sblocks)) /\
  (exists sh, shard_from_json_file ex_prg true [] (fun _ => Some file) [] 2 2 16 10 = Ok sh /\
     index_lookup ex_prg true sh 0 ex_tape = Ok (bytes_of "AQI=") /\ index_lookup ex_prg true sh 1 ex_tape = Ok (bytes_of "/wA=")) /\
  (exists sh, shard_from_json_file ex_prg true [] (fun _ => Some sfile) [] 2 2 40 10 = Ok sh /\
     index_lookup ex_prg true sh 0 ex_tape = Ok (bytes_of "AQIDBA==") /\ index_lookup ex_prg true sh 1 ex_tape = Ok (bytes_of "////Pw==")) /\
  (exists sh hkeys, kv_shard_from_json_file sha ex_prg true (est 3 12) ex_rnd seed0 [] (fun _ => Some kfile) [] 2 2 16 10 = Ok sh /\
     sane_estimates (est 3 12) 2 /\ mapM (sha256_into_u64_sized sha) keys = Ok hkeys /\
     (forall i, (i < 2)%nat -> last_with_hash seed0 hkeys i (nth i hkeys [])) /\
     kv_lookup sha ex_prg true sh (bytes_of "a") ex_tape = Ok (bytes_of "AQI=") /\
     kv_lookup sha ex_prg true sh (bytes_of "b") ex_tape = Ok (bytes_of "/wA=")) /\
  (exists sh, kv_shard_from_json_file sha ex_prg true (est 3 12) ex_rnd seed0 [] (fun _ => Some skfile) [] 2 2 40 10 = Ok sh /\
     kv_lookup sha ex_prg true sh (bytes_of "a") ex_tape = Ok (bytes_of "AQIDBA==")).
Proof.
  cbv zeta. split; [|split; [|split; [|split; [|split; [|split; [|split; [|split; [|split]]]]]]]].
  - repeat constructor; unfold is_u8; lia.
  - repeat constructor; unfold is_u8; lia.
  - split; [apply is_utf8_spec|apply json_strings_iff]; vm_compute; reflexivity.
  - split; [apply is_utf8_spec|apply json_strings_iff]; vm_compute; reflexivity.
  - split; [apply is_utf8_spec|apply json_kvs_iff]; vm_compute; reflexivity.
  - split; [apply is_utf8_spec|apply json_kvs_iff]; vm_compute; reflexivity.
  - eexists. split; [vm_compute; reflexivity|]. split; vm_compute; reflexivity.
  - eexists. split; [vm_compute; reflexivity|]. split; vm_compute; reflexivity.
  - eexists. eexists. split; [vm_compute; reflexivity|]. split; [apply est_sane; lia|]. split; [vm_compute; reflexivity|].
    split; [|split; vm_compute; reflexivity].
    intros i Hi. split; [apply nth_error_nth'; exact Hi|]. intros j key' Hj Hk.
    assert (j < 2)%nat by (change 2%nat with (length [1; 2]); apply nth_error_Some; intros X;
      destruct j as [|[|j]]; cbn in X; try discriminate; destruct j; discriminate Hk).
    assert (i = 0%nat /\ j = 1%nat) as [-> ->] by lia. vm_compute in Hk. injection Hk as <-. vm_compute. discriminate.
  - eexists. split; [vm_compute; reflexivity|]. vm_compute; reflexivity.
Qed.
