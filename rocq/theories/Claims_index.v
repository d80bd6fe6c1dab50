(** * Claims about the index protocol (C14-C20, C22-C24, C38, C39). *)
From Verif Require Import Base Spec Fmt Base64 Bincode Mat Lwe Db Api History SpecHist Base_facts Fmt_facts Codec_facts Mat_facts Index_facts IndexProto_facts Claims_format.
Local Open Scope Z_scope.

Lemma ceil_div_le es pb w : (1 <= pb)%nat -> is_ceil_div es pb w -> (w <= es)%nat.
Proof. intros Hpb [_ H]. apply H. nia. Qed.

Lemma words_u32 n (f : nat -> Z) : Forall is_u32 (map (fun c => f c mod two32) (seq 0 n)).
Proof. apply Forall_map, Forall_forall. intros. apply is_u32_mod. Qed.

Lemma elems_ext strs m pb w elems elems' :
  stored strs m pb w elems -> length elems' = m ->
  (forall i, (i < m)%nat -> b64_decode (nth i strs []) = Ok (nth i elems' [])) -> elems' = elems.
Proof.
  intros (Hl & _ & H) Hl' H'. apply (list_eq_nth _ _ []); [congruence|].
  intros i Hi. rewrite Hl' in Hi. specialize (H' i Hi). destruct (H i Hi) as [E _]. congruence.
Qed.

Lemma row_entry_bytes dbg elem pb es w :
  (1 <= pb <= 32)%nat -> is_ceil_div es pb w -> (es mod pb <> 0)%nat ->
  (w * pb <= 8 * length elem + pb)%nat ->
  exists out, bytes_from_u32_slice dbg (map (chunk elem pb) (seq 0 w)) pb es = Ok out /\
      Forall is_u8 out /\ length out = ((es + 7) / 8)%nat /\
      byte_string_bits out = fit es (byte_string_bits elem) ++ repeat false (8 * length out - es).
Proof.
  intros Hpb Hw Hes Hl. destruct (ceil_notdiv es pb w) as [Hw1 Hw2]; auto; [lia|].
  rewrite <- row_of_bits_chunk, reassemble by (rewrite ?bytes_to_bits_length; auto).
  rewrite Hw2, bytes_to_bits_spec. apply fit_bytes.
Qed.

Lemma map_eq_nth {B} (f g : nat -> B) n :
  map f (seq 0 n) = map g (seq 0 n) <-> forall c, (c < n)%nat -> f c = g c.
Proof.
  split.
  - intros H c Hc.
    assert (E : nth_error (map f (seq 0 n)) c = nth_error (map g (seq 0 n)) c) by now rewrite H.
    rewrite !nth_error_map in E. rewrite (nth_error_nth' _ 0%nat) in E by now rewrite seq_length.
    rewrite seq_nth in E by auto. cbn [option_map Nat.add] in E. congruence.
  - intros H. apply map_ext_in. intros c Hc. apply in_seq in Hc. apply H. lia.
Qed.

(** @C14 End-to-end index retrieval. A shard built from base64 strings, common params and query
    params derived from its public params with any OsRng tape, a successful query for row r,
    the server's serialized answer: the client decodes a row, and that row is exactly the
    plaintext chunks of element r if and only if, for every column, the inner product of the
    drawn error (the m ternary draws after the secret's dim draws) with the column is
    congruent mod 2^32 to a number in (-delta/2, delta/2]. *)
Lemma index_retrieval :
  forall (prg : list Z -> nat -> Z) (dbg : bool) (seed : list Z) (strs elems : list (list Z))
         (dim m es pb w : nat) (sh : shard) (tape rest : list Z) (qp qp' : query_params)
         (r : nat) (q : list Z),
    (1 <= pb <= 31)%nat -> is_ceil_div es pb w -> Z.of_nat es < 2 ^ 64 ->
    shard_from_base64_strings prg dbg seed strs dim m es pb = Ok sh ->
    length elems = m ->
    (forall i, (i < m)%nat -> b64_decode (nth i strs []) = Ok (nth i elems [])) ->
    generate_index_query_params (index_common_params prg (sh_params sh)) (sh_params sh) tape
      = Ok (qp, rest) ->
    index_generate_query dbg qp r = (qp', Ok q) ->
    exists bytes resp row,
      shard_respond sh q = Ok bytes /\ bincode_de_vec_u32 bytes = Ok resp /\
      index_parse_resp_as_row dbg qp' resp = Ok row /\ length row = w /\
      (row = map (chunk (nth r elems []) pb) (seq 0 w) <->
       forall c, (c < w)%nat ->
         congruent_in (dot (firstn m (skipn dim (draws tape))) (column elems pb c))
                      (- 2 ^ (31 - Z.of_nat pb)) (2 ^ (31 - Z.of_nat pb))).
Proof.
  intros prg dbg seed strs elems dim m es pb w sh tape rest qp qp' r q Hpb Hw H64 Hsh Hel Hdec Hqp Hq.
  assert (Hpb' : (1 <= pb <= 32)%nat) by lia.
  destruct (shard_inv _ _ _ _ _ _ _ _ _ _ Hpb' Hw Hsh) as (Hm & elems' & Hst & ->).
  assert (elems = elems') by (eapply elems_ext; eauto). subst elems'.
  cbn [sh_params shard_of] in Hqp. apply gen_qp_inv in Hqp. destruct Hqp as (Hd & ->).
  assert (Hq2 : snd (index_generate_query dbg (qp_of (pubmat prg seed dim m) dim elems m es pb w tape) r) = Ok q)
    by now rewrite Hq.
  apply index_query_inv in Hq2; [|cbn; lia].
  destruct Hq2 as (_ & Hr & Hov & Eq). cbn [qp_plaintext_bits qp_of] in Hov, Eq.
  assert (Hlhs : length (qp_lhs (qp_of (pubmat prg seed dim m) dim elems m es pb w tape)) = m).
  { cbn [qp_lhs qp_of]. rewrite masked_lhs_length. apply pubmat_shape. }
  rewrite Hlhs in Hr.
  assert (Hql : length q = m) by (rewrite Eq, length_upd; exact Hlhs).
  rewrite (shard_respond_ok prg seed dim elems m es pb w q) by (auto; lia).
  set (resp := map (fun c => dot q (column elems pb c) mod two32) (seq 0 w)).
  exists (bincode_ser_vec_u32 resp), resp.
  assert (Hrl : length resp = w) by (unfold resp; now rewrite map_length, seq_length).
  pose proof (ceil_div_le es pb w ltac:(lia) Hw) as Hwe.
  pose proof (index_protocol_row prg dbg seed dim elems m es pb w tape r q Hpb Hw Hel Hd Hr Eq)
    as Hrow. fold resp in Hrow.
  eexists. split; [reflexivity|]. split.
  { rewrite <- (app_nil_r (bincode_ser_vec_u32 resp)). apply bincode_roundtrip.
    - apply words_u32.
    - rewrite Hrl. unfold two64. lia. }
  assert (Eqp' : qp' = set_used true (qp_of (pubmat prg seed dim m) dim elems m es pb w tape)).
  { unfold index_generate_query in Hq. cbn [qp_used qp_of] in Hq. congruence. }
  subst qp'.
  split; [exact Hrow|]. split; [now rewrite map_length, seq_length|].
  rewrite map_eq_nth.
  fold (noise dim m tape).
  split; intros H c Hc; specialize (H c Hc).
  - apply (decode_noise_iff pb (chunk (nth r elems []) pb c)); auto. apply chunk_range.
  - apply decode_noise_iff; auto. apply chunk_range.
Qed.

(** @C14 The same at the level of bytes and base64: under the noise condition and with
    plaintext_bits not dividing elem_size, the client obtains elem_size bits of element r. *)
Lemma index_retrieval_bytes :
  forall (prg : list Z -> nat -> Z) (dbg : bool) (seed : list Z) (strs elems : list (list Z))
         (dim m es pb w : nat) (sh : shard) (tape rest : list Z) (qp qp' : query_params)
         (r : nat) (q : list Z),
    (1 <= pb <= 31)%nat -> is_ceil_div es pb w -> Z.of_nat es < 2 ^ 64 -> (es mod pb <> 0)%nat ->
    shard_from_base64_strings prg dbg seed strs dim m es pb = Ok sh ->
    length elems = m ->
    (forall i, (i < m)%nat -> b64_decode (nth i strs []) = Ok (nth i elems [])) ->
    generate_index_query_params (index_common_params prg (sh_params sh)) (sh_params sh) tape
      = Ok (qp, rest) ->
    index_generate_query dbg qp r = (qp', Ok q) ->
    (forall c, (c < w)%nat ->
       congruent_in (dot (firstn m (skipn dim (draws tape))) (column elems pb c))
                    (- 2 ^ (31 - Z.of_nat pb)) (2 ^ (31 - Z.of_nat pb))) ->
    exists bytes resp out,
      shard_respond sh q = Ok bytes /\ bincode_de_vec_u32 bytes = Ok resp /\
      index_parse_resp_as_bytes dbg qp' resp = Ok out /\
      index_parse_resp_as_base64 dbg qp' resp = Ok (b64_encode out) /\
      length out = ((es + 7) / 8)%nat /\
      byte_string_bits out =
        fit es (byte_string_bits (nth r elems [])) ++ repeat false (8 * length out - es).
Proof.
  intros prg dbg seed strs elems dim m es pb w sh tape rest qp qp' r q
    Hpb Hw H64 Hes Hsh Hel Hdec Hqp Hq Hn.
  destruct (index_retrieval prg dbg seed strs elems dim m es pb w sh tape rest qp qp' r q)
    as (bytes & resp & row & H1 & H2 & H3 & H4 & H5); auto.
  apply H5 in Hn. subst row.
  assert (Hpb' : (1 <= pb <= 32)%nat) by lia.
  destruct (shard_inv _ _ _ _ _ _ _ _ _ _ Hpb' Hw Hsh) as (Hm & elems' & Hst & ->).
  assert (elems = elems') by (eapply elems_ext; eauto). subst elems'.
  cbn [sh_params shard_of] in Hqp. apply gen_qp_inv in Hqp. destruct Hqp as (Hd & ->).
  assert (Hq2 : snd (index_generate_query dbg (qp_of (pubmat prg seed dim m) dim elems m es pb w tape) r) = Ok q)
    by now rewrite Hq.
  apply index_query_inv in Hq2; [|cbn; lia]. destruct Hq2 as (_ & Hr & _ & _).
  cbn [qp_lhs qp_of] in Hr. rewrite masked_lhs_length in Hr.
  destruct (pubmat_shape prg seed dim m) as [HA _]. rewrite HA in Hr.
  destruct Hst as (_ & _ & Hst). destruct (Hst r Hr) as [_ Hlen].
  destruct (row_entry_bytes dbg (nth r elems []) pb es w) as (out & Ho & _ & Hol & Hob); auto.
  exists bytes, resp, out. split; auto. split; auto.
  unfold index_generate_query in Hq. cbn [qp_used qp_of] in Hq.
  assert (Eqp' : qp' = set_used true (qp_of (pubmat prg seed dim m) dim elems m es pb w tape))
    by congruence. subst qp'.
  unfold index_parse_resp_as_bytes, index_parse_resp_as_base64. rewrite H3. cbn [bind].
  unfold base64_from_u32_slice. cbn [set_used qp_of qp_plaintext_bits qp_elem_size].
  rewrite Ho. cbn [bind]. auto.
Qed.

Lemma dot_bound (e d : list Z) B :
  0 <= B -> Forall (fun x => x = 0 \/ x = 1 \/ x = -1) e -> Forall (fun x => 0 <= x <= B) d ->
  (length e <= length d)%nat ->
  - (Z.of_nat (length e) * B) <= dot e d <= Z.of_nat (length e) * B.
Proof.
  intros HB He Hd. revert d Hd. induction He as [|x e Hx He IH]; intros d Hd Hl.
  - destruct d; cbn [dot length Z.of_nat]; lia.
  - destruct d as [|y d]; [cbn in Hl; lia|]. inversion Hd; subst.
    cbn [length] in *. specialize (IH d ltac:(assumption) ltac:(lia)).
    rewrite Nat2Z.inj_succ. cbn [dot].
    destruct Hx as [->|[->| ->]]; nia.
Qed.

(** @C15 Below the worst-case bound m * (2^plaintext_bits - 1) < 2^(31 - plaintext_bits), every
    successful query decodes to the right row whatever the randomness (secret, error, seed,
    generator). *)
Lemma index_retrieval_unconditional :
  forall (prg : list Z -> nat -> Z) (dbg : bool) (seed : list Z) (strs elems : list (list Z))
         (dim m es pb w : nat) (sh : shard) (tape rest : list Z) (qp qp' : query_params)
         (r : nat) (q : list Z),
    (1 <= pb <= 31)%nat -> is_ceil_div es pb w -> Z.of_nat es < 2 ^ 64 ->
    Z.of_nat m * (2 ^ Z.of_nat pb - 1) < 2 ^ (31 - Z.of_nat pb) ->
    shard_from_base64_strings prg dbg seed strs dim m es pb = Ok sh ->
    length elems = m ->
    (forall i, (i < m)%nat -> b64_decode (nth i strs []) = Ok (nth i elems [])) ->
    generate_index_query_params (index_common_params prg (sh_params sh)) (sh_params sh) tape
      = Ok (qp, rest) ->
    index_generate_query dbg qp r = (qp', Ok q) ->
    exists bytes resp,
      shard_respond sh q = Ok bytes /\ bincode_de_vec_u32 bytes = Ok resp /\
      index_parse_resp_as_row dbg qp' resp = Ok (map (chunk (nth r elems []) pb) (seq 0 w)).
Proof.
  intros prg dbg seed strs elems dim m es pb w sh tape rest qp qp' r q
    Hpb Hw H64 Hb Hsh Hel Hdec Hqp Hq.
  destruct (index_retrieval prg dbg seed strs elems dim m es pb w sh tape rest qp qp' r q)
    as (bytes & resp & row & H1 & H2 & H3 & H4 & H5); auto.
  exists bytes, resp. split; auto. split; auto. rewrite H3. f_equal. apply H5.
  intros c Hc. fold (half pb) in *. fold (psize pb) in *.
  exists (dot (firstn m (skipn dim (draws tape))) (column elems pb c)), 0.
  split; [ring|].
  pose proof (draws_ternary tape) as Ht.
  assert (Hf : Forall (fun d => d = 0 \/ d = 1 \/ d = -1) (firstn m (skipn dim (draws tape)))).
  { rewrite <- (firstn_skipn dim (draws tape)) in Ht. apply Forall_app in Ht as [_ Ht].
    rewrite <- (firstn_skipn m (skipn dim (draws tape))) in Ht. apply Forall_app in Ht. tauto. }
  pose proof (dot_bound _ (column elems pb c) (psize pb - 1) ltac:(pose proof (psize_pos pb); lia) Hf) as B.
  pose proof (psize_pos pb) as Hps.
  assert (Hlen : (length (firstn m (skipn dim (draws tape))) <= m)%nat) by (rewrite firstn_length; lia).
  specialize (B ltac:(apply Forall_map, Forall_forall; intros x _; pose proof (chunk_range x pb c); lia)
                ltac:(rewrite column_length; lia)).
  assert (Z.of_nat (length (firstn m (skipn dim (draws tape)))) * (psize pb - 1)
          <= Z.of_nat m * (psize pb - 1)) by (apply Z.mul_le_mono_nonneg_r; lia).
  lia.
Qed.

(** @C15 example: the bound is met by m = 2000 rows of 10-bit
    chunks (2000 * 1023 < 2^21) and by a concrete run with 3 rows. *)
Example unconditional_example :
  2000 * (2 ^ 10 - 1) < 2 ^ (31 - 10) /\
  let prg := fun (s : list Z) (k : nat) => (Z.of_nat k * 2654435761 + 12345) mod 2 ^ 32 in
  let strs := map b64_encode [[1; 2]; [255; 128]; [7; 9]] in
  exists sh qp rest qp' q bytes resp,
    shard_from_base64_strings prg true [] strs 2 3 16 10 = Ok sh /\
    generate_index_query_params (index_common_params prg (sh_params sh)) (sh_params sh)
       [5; 3000000000; 4294967295; 0; 4000000000; 2000000000] = Ok (qp, rest) /\
    index_generate_query true qp 1 = (qp', Ok q) /\
    shard_respond sh q = Ok bytes /\ bincode_de_vec_u32 bytes = Ok resp /\
    index_parse_resp_as_bytes true qp' resp = Ok [255; 128].
Proof.
  split; [lia|]. cbv zeta. do 7 eexists.
  repeat (split; [vm_compute; reflexivity|]). vm_compute; reflexivity.
Qed.

(** @C16 Refuted: a shard the constructor accepts, a query that succeeds, and a decoded element
    different from the stored one: nothing relates m and plaintext_bits to the noise. *)
Lemma index_always_correct_refuted :
  exists (prg : list Z -> nat -> Z) (elem tape : list Z) (dim m es pb : nat),
    (1 <= pb <= 31)%nat /\ (es mod pb <> 0)%nat /\ (8 * length elem = es)%nat /\
    forall dbg, exists sh qp rest qp' q bytes resp out,
      shard_from_base64_strings prg dbg [] [b64_encode elem] dim m es pb = Ok sh /\
      generate_index_query_params (index_common_params prg (sh_params sh)) (sh_params sh) tape
        = Ok (qp, rest) /\
      index_generate_query dbg qp 0 = (qp', Ok q) /\
      shard_respond sh q = Ok bytes /\ bincode_de_vec_u32 bytes = Ok resp /\
      index_parse_resp_as_bytes dbg qp' resp = Ok out /\ out <> elem.
Proof.
  exists (fun _ _ => 5), [255; 255; 1], [0; 1431655765], 1%nat, 1%nat, 24%nat, 16%nat.
  split; [lia|]. split; [discriminate|]. split; [reflexivity|].
  intros []; do 8 eexists;
    repeat (split; [vm_compute; reflexivity|]); vm_compute; discriminate.
Qed.

(** ** Single use *)

(** Which actions put a fresh object into the world. *)
Definition refreshes {X} (a : action X) : bool :=
  match a with AClone _ => true | ASetUsed _ b => negb b | AQuery _ _ => false end.
Definition is_Ok {A} (r : res A) : bool := match r with Ok _ => true | _ => false end.
Definition fresh_count (objs : list query_params) : nat :=
  length (filter (fun qp => negb (qp_used qp)) objs).

Lemma fresh_count_upd objs h qp qp' :
  nth_error objs h = Some qp ->
  (fresh_count (upd objs h qp') + (if qp_used qp then 0 else 1) =
   fresh_count objs + (if qp_used qp' then 0 else 1))%nat.
Proof.
  revert h; induction objs as [|o objs IH]; intros [|h] H; try discriminate.
  - injection H as ->. unfold fresh_count. cbn [upd filter].
    destruct (qp_used qp), (qp_used qp'); cbn [negb length]; lia.
  - specialize (IH h H). unfold fresh_count in *. cbn [upd filter].
    destruct (qp_used o); cbn [negb length]; lia.
Qed.

Lemma hist_count {X} (gen : query_params -> X -> query_params * res (list Z)) acts :
  (forall qp x, qp_used qp = true -> is_Ok (snd (gen qp x)) = false /\ fst (gen qp x) = qp) ->
  (forall qp x, qp_used (fst (gen qp x)) = true) ->
  forall objs objs' outs,
  hist_run gen objs acts = (objs', outs) ->
  (length (filter is_Ok outs) + fresh_count objs' <=
   fresh_count objs + length (filter refreshes acts))%nat.
Proof.
  intros Hused Hset. induction acts as [|a acts IH]; intros objs objs' outs H; cbn [hist_run] in H.
  - injection H as <- <-. cbn [filter length]. lia.
  - destruct (hist_step gen objs a) as [objs1 o1] eqn:E1.
    destruct (hist_run gen objs1 acts) as [objs2 o2] eqn:E2. injection H as <- <-.
    specialize (IH _ _ _ E2). rewrite filter_app, app_length.
    assert (Hs : (length (filter is_Ok o1) + fresh_count objs1 <=
                  fresh_count objs + (if refreshes a then 1 else 0))%nat).
    { unfold hist_step in E1. destruct a as [h x|h|h b]; cbn [refreshes].
      - destruct (nth_error objs h) as [qp|] eqn:En.
        + destruct (gen qp x) as [qp' r] eqn:Eg. injection E1 as <- <-.
          pose proof (fresh_count_upd objs h qp qp' En) as F.
          pose proof (Hset qp x) as S1. rewrite Eg in S1. cbn [fst] in S1. rewrite S1 in F.
          destruct (qp_used qp) eqn:Eu.
          * destruct (Hused qp x Eu) as [N _]. rewrite Eg in N. cbn [snd] in N.
            cbn [filter]. rewrite N. cbn [length]. lia.
          * cbn [filter]. destruct (is_Ok r); cbn [length]; lia.
        + injection E1 as <- <-. cbn [filter length]. lia.
      - destruct (nth_error objs h) as [qp|] eqn:En; injection E1 as <- <-; cbn [filter length];
          [|lia].
        unfold fresh_count. rewrite filter_app, app_length. cbn [filter].
        destruct (qp_used qp); cbn [negb length]; lia.
      - destruct (nth_error objs h) as [qp|] eqn:En; injection E1 as <- <-; cbn [filter length].
        + pose proof (fresh_count_upd objs h qp (set_used b qp) En) as F.
          cbn [set_used qp_used] in F. destruct b, (qp_used qp); cbn [negb]; lia.
        + lia. }
    cbn [filter]. destruct (refreshes a); cbn [length]; lia.
Qed.

Lemma index_used dbg qp x :
  qp_used qp = true -> index_generate_query dbg qp x = (qp, Err EParamsReused).
Proof. intros H. unfold index_generate_query. now rewrite H. Qed.
Lemma kv_used dbg qp x :
  qp_used qp = true -> kv_generate_query dbg qp x = (qp, Err EParamsReused).
Proof. intros H. unfold kv_generate_query. now rewrite H. Qed.
Lemma index_sets dbg qp x : qp_used (fst (index_generate_query dbg qp x)) = true.
Proof. unfold index_generate_query. destruct (qp_used qp) eqn:E; [exact E|reflexivity]. Qed.
Lemma kv_sets dbg qp x : qp_used (fst (kv_generate_query dbg qp x)) = true.
Proof. unfold kv_generate_query. destruct (qp_used qp) eqn:E; [exact E|reflexivity]. Qed.

(** @C17 Index: over every history of queries, clones and assignments to [used] starting from
    one object, the number of queries produced is at most 1 + clones + resets. *)
Lemma index_queries_bounded :
  forall (dbg : bool) (qp : query_params) (acts : list (action nat))
         (objs : list query_params) (outs : list (res (list Z))),
    hist_run (index_generate_query dbg) [qp] acts = (objs, outs) ->
    (length (filter (fun o => match o with Ok _ => true | _ => false end) outs) <=
     1 + length (filter (fun a => match a with AClone _ => true | _ => false end) acts)
       + length (filter (fun a => match a with ASetUsed _ false => true | _ => false end) acts))%nat.
Proof.
  intros dbg qp acts objs outs H.
  apply hist_count in H.
  - change (fun o : res (list Z) => match o with Ok _ => true | _ => false end) with (@is_Ok (list Z)).
    assert (R : (length (filter refreshes acts) =
      length (filter (fun a : action nat => match a with AClone _ => true | _ => false end) acts)
      + length (filter (fun a : action nat => match a with ASetUsed _ false => true | _ => false end) acts))%nat).
    { clear. induction acts as [|[h x|h|h []] acts IH]; cbn [filter refreshes negb length]; lia. }
    unfold fresh_count at 2 in H. cbn [filter] in H. destruct (qp_used qp); cbn [negb length] in H; lia.
  - intros q x Hu. rewrite (index_used dbg q x Hu). auto.
  - apply index_sets.
Qed.

(** @C17 Key-value: the same bound. *)
Lemma kv_queries_bounded :
  forall (dbg : bool) (qp : query_params) (acts : list (action (list Z)))
         (objs : list query_params) (outs : list (res (list Z))),
    hist_run (kv_generate_query dbg) [qp] acts = (objs, outs) ->
    (length (filter (fun o => match o with Ok _ => true | _ => false end) outs) <=
     1 + length (filter (fun a => match a with AClone _ => true | _ => false end) acts)
       + length (filter (fun a => match a with ASetUsed _ false => true | _ => false end) acts))%nat.
Proof.
  intros dbg qp acts objs outs H.
  apply hist_count in H.
  - change (fun o : res (list Z) => match o with Ok _ => true | _ => false end) with (@is_Ok (list Z)).
    assert (R : (length (filter refreshes acts) =
      length (filter (fun a : action (list Z) => match a with AClone _ => true | _ => false end) acts)
      + length (filter (fun a : action (list Z) => match a with ASetUsed _ false => true | _ => false end) acts))%nat).
    { clear. induction acts as [|[h x|h|h []] acts IH]; cbn [filter refreshes negb length]; lia. }
    unfold fresh_count at 2 in H. cbn [filter] in H. destruct (qp_used qp); cbn [negb length] in H; lia.
  - intros q x Hu. rewrite (kv_used dbg q x Hu). auto.
  - apply kv_sets.
Qed.

Lemma hist_reuse {X} (gen : query_params -> X -> query_params * res (list Z)) qp xs :
  (forall q x, qp_used q = true -> gen q x = (q, Err EParamsReused)) -> qp_used qp = true ->
  hist_run gen [qp] (map (AQuery 0) xs) = ([qp], repeat (Err EParamsReused) (length xs)).
Proof.
  intros H Hu. induction xs as [|x xs IH]; [reflexivity|].
  cbn [map hist_run hist_step nth_error length repeat]. rewrite (H qp x Hu).
  cbn [upd]. rewrite IH. reflexivity.
Qed.

(** @C17 Without clones or resets only the first call can produce a query, whatever it returned
    (query, error or panic): every later call is refused and changes nothing. *)
Lemma index_single_use :
  forall (dbg : bool) (qp : query_params) (x : nat) (xs : list nat),
    exists r, snd (index_generate_query dbg qp x) = r /\
      hist_run (index_generate_query dbg) [qp] (map (AQuery 0) (x :: xs)) =
      ([set_used true qp], r :: repeat (Err EParamsReused) (length xs)).
Proof.
  intros dbg qp x xs. eexists. split; [reflexivity|].
  cbn [map hist_run hist_step nth_error].
  assert (E : fst (index_generate_query dbg qp x) = set_used true qp).
  { unfold index_generate_query. destruct (qp_used qp) eqn:E; [|reflexivity].
    cbn [fst]. destruct qp; cbn in *. now rewrite E. }
  destruct (index_generate_query dbg qp x) as [qp' r]. cbn [fst snd] in *. subst qp'.
  cbn [upd]. rewrite hist_reuse; auto. apply index_used.
Qed.

(** @C17 The same for key-value query params. *)
Lemma kv_single_use :
  forall (dbg : bool) (qp : query_params) (x : list Z) (xs : list (list Z)),
    exists r, snd (kv_generate_query dbg qp x) = r /\
      hist_run (kv_generate_query dbg) [qp] (map (AQuery 0) (x :: xs)) =
      ([set_used true qp], r :: repeat (Err EParamsReused) (length xs)).
Proof.
  intros dbg qp x xs. eexists. split; [reflexivity|].
  cbn [map hist_run hist_step nth_error].
  assert (E : fst (kv_generate_query dbg qp x) = set_used true qp).
  { unfold kv_generate_query. destruct (qp_used qp) eqn:E; [|reflexivity].
    cbn [fst]. destruct qp; cbn in *. now rewrite E. }
  destruct (kv_generate_query dbg qp x) as [qp' r]. cbn [fst snd] in *. subst qp'.
  cbn [upd]. rewrite hist_reuse; auto. apply kv_used.
Qed.

Lemma upd_map {A B} (f : A -> B) l h b : map f (upd l h b) = upd (map f l) h (f b).
Proof.
  revert h; induction l as [|a l IH]; intros [|h]; cbn [upd map]; auto. now rewrite IH.
Qed.

Lemma upd_none {A} (l : list A) h b : nth_error l h = None -> upd l h b = l.
Proof.
  revert h; induction l as [|a l IH]; intros [|h] H; cbn [upd]; try discriminate; auto.
  now rewrite IH.
Qed.

Lemma set_used_twice b b' qp : set_used b (set_used b' qp) = set_used b qp.
Proof. reflexivity. Qed.

Lemma set_used_id qp : set_used (qp_used qp) qp = qp.
Proof. destruct qp; reflexivity. Qed.

Lemma hist_exact {X} (gen : query_params -> X -> query_params * res (list Z)) qp acts :
  (forall q x, qp_used q = true -> gen q x = (q, Err EParamsReused)) ->
  (forall q x, fst (gen q x) = set_used true q) ->
  forall flags,
  hist_run gen (map (fun b => set_used b qp) flags) acts =
  (map (fun b => set_used b qp) (fst (single_use (fun x => snd (gen (set_used false qp) x)) flags acts)),
   snd (single_use (fun x => snd (gen (set_used false qp) x)) flags acts)).
Proof.
  intros Hu Hf. induction acts as [|a acts IH]; intros flags; [reflexivity|].
  cbn [hist_run]. destruct a as [h x|h|h b]; cbn [hist_step single_use];
    rewrite nth_error_map; destruct (nth_error flags h) as [sp|] eqn:En; cbn [option_map].
  - pose proof (Hf (set_used sp qp) x) as F. rewrite set_used_twice in F.
    destruct (gen (set_used sp qp) x) as [q' r] eqn:Eg. cbn [fst] in F. subst q'.
    rewrite <- (upd_map (fun b => set_used b qp)). rewrite IH.
    destruct (single_use (fun x => snd (gen (set_used false qp) x)) (upd flags h true) acts)
      as [f o]. cbn [fst snd app]. destruct sp.
    + rewrite Hu in Eg by reflexivity. congruence.
    + rewrite Eg. reflexivity.
  - rewrite IH. reflexivity.
  - change [set_used sp qp] with (map (fun b => set_used b qp) [sp]).
    rewrite <- map_app, IH. reflexivity.
  - rewrite IH. reflexivity.
  - rewrite set_used_twice, <- (upd_map (fun b => set_used b qp)), IH. reflexivity.
  - rewrite (upd_none flags h b En), IH. reflexivity.
Qed.

(** @C17 Every outcome of every history is determined: the objects held at the end differ from
    the original in nothing but the flag, each flag is what the single-use reading says, a query
    on a spent object is refused with the reuse error, and a query on an unspent one gives exactly
    what the original gives when fresh. *)
Lemma index_history_exact :
  forall (dbg : bool) (qp : query_params) (acts : list (action nat)),
    let told := single_use (fun x => snd (index_generate_query dbg (set_used false qp) x))
                  [qp_used qp] acts in
    hist_run (index_generate_query dbg) [qp] acts =
    (map (fun b => set_used b qp) (fst told), snd told).
Proof.
  intros dbg qp acts told. rewrite <- (set_used_id qp) at 1.
  apply (hist_exact (index_generate_query dbg) qp acts (index_used dbg)) with (flags := [qp_used qp]).
  intros q x. unfold index_generate_query. destruct (qp_used q) eqn:E; [|reflexivity].
  cbn [fst]. destruct q; cbn in *. now rewrite E.
Qed.

(** @C17 The same for key-value query params. *)
Lemma kv_history_exact :
  forall (dbg : bool) (qp : query_params) (acts : list (action (list Z))),
    let told := single_use (fun x => snd (kv_generate_query dbg (set_used false qp) x))
                  [qp_used qp] acts in
    hist_run (kv_generate_query dbg) [qp] acts =
    (map (fun b => set_used b qp) (fst told), snd told).
Proof.
  intros dbg qp acts told. rewrite <- (set_used_id qp) at 1.
  apply (hist_exact (kv_generate_query dbg) qp acts (kv_used dbg)) with (flags := [qp_used qp]).
  intros q x. unfold kv_generate_query. destruct (qp_used q) eqn:E; [|reflexivity].
  cbn [fst]. destruct q; cbn in *. now rewrite E.
Qed.

(** @C17 example: the bound is reached: one fresh object, one clone made before use, one reset:
    three queries; a fourth is refused. *)
Example single_use_example :
  let qp := {| qp_lhs := [1; 2; 3]; qp_rhs := []; qp_elem_size := 8; qp_plaintext_bits := 8;
               qp_extra := None; qp_used := false |} in
  snd (hist_run (index_generate_query true) [qp]
        [AClone 0; AQuery 0 1%nat; AQuery 1 2%nat; ASetUsed 0 false; AQuery 0 0%nat; AQuery 0 0%nat])
  = [Ok [1; 16777218; 3]; Ok [1; 2; 16777219]; Ok [16777217; 2; 3]; Err EParamsReused].
Proof. vm_compute. reflexivity. Qed.

(** ** Index queries *)

Lemma index_query_closed dbg qp r :
  (1 <= qp_plaintext_bits qp <= 31)%nat -> qp_used qp = false ->
  index_generate_query dbg qp r =
  (set_used true qp,
   if (r <? length (qp_lhs qp))%nat then
     if nth r (qp_lhs qp) 0 + delta (qp_plaintext_bits qp) <? two32
     then Ok (upd (qp_lhs qp) r ((nth r (qp_lhs qp) 0 + delta (qp_plaintext_bits qp)) mod two32))
     else Err EOverflownAdd
   else Panic).
Proof.
  intros Hpb Hu. unfold index_generate_query. rewrite Hu. f_equal.
  rewrite get_rounding_factor_ok by auto. cbn [bind]. fold (delta (qp_plaintext_bits qp)).
  destruct (Nat.ltb_spec r (length (qp_lhs qp))) as [Hr|Hr].
  - rewrite (idx_nth _ r 0) by auto. cbn [bind]. rewrite Z.leb_antisym, negb_involutive.
    destruct (nth r (qp_lhs qp) 0 + delta (qp_plaintext_bits qp) <? two32); [|reflexivity].
    now rewrite set_lt.
  - now rewrite idx_oob.
Qed.

(** @C18 Refuted: fresh params, a row in range, and an error. *)
Lemma fresh_query_succeeds_refuted :
  exists (prg : list Z -> nat -> Z) (strs : list (list Z)) (tape : list Z) (dim m es pb r : nat),
    (r < m)%nat /\
    forall dbg, exists sh qp rest,
      shard_from_base64_strings prg dbg [] strs dim m es pb = Ok sh /\
      generate_index_query_params (index_common_params prg (sh_params sh)) (sh_params sh) tape
        = Ok (qp, rest) /\ qp_used qp = false /\
      index_generate_query dbg qp r = (set_used true qp, Err EOverflownAdd).
Proof.
  exists (fun _ _ => 4294967290), [b64_encode [1; 2]], [2000000000; 0], 1%nat, 1%nat, 16%nat, 10%nat, 0%nat.
  split; [lia|]. intros []; do 3 eexists; repeat (split; [vm_compute; reflexivity|]);
    vm_compute; reflexivity.
Qed.

(** @C18 Exactly when: on fresh params with the row in range, the overflow error is returned iff
    lhs[r] >= 2^32 - delta, and the params are used up either way. *)
Lemma overflow_error_iff :
  forall (dbg : bool) (qp : query_params) (r : nat),
    (1 <= qp_plaintext_bits qp <= 31)%nat -> qp_used qp = false -> (r < length (qp_lhs qp))%nat ->
    (snd (index_generate_query dbg qp r) = Err EOverflownAdd <->
     2 ^ 32 - 2 ^ (32 - Z.of_nat (qp_plaintext_bits qp)) <= nth r (qp_lhs qp) 0) /\
    qp_used (fst (index_generate_query dbg qp r)) = true.
Proof.
  intros dbg qp r Hpb Hu Hr. rewrite index_query_closed by auto. cbn [fst snd].
  split; [|reflexivity]. fold (delta (qp_plaintext_bits qp)). change (2 ^ 32) with two32.
  destruct (Nat.ltb_spec r (length (qp_lhs qp))); [|lia].
  destruct (Z.ltb_spec (nth r (qp_lhs qp) 0 + delta (qp_plaintext_bits qp)) two32);
    split; intros; try discriminate; try reflexivity; lia.
Qed.

(** @C19 Shape of index queries on fresh params: success exactly when the row is in range and
    lhs[r] + delta < 2^32; then the query is lhs with entry r larger by exactly delta and no
    other entry changed; an out-of-range row panics. *)
Lemma index_query_shape :
  forall (dbg : bool) (qp : query_params) (r : nat),
    (1 <= qp_plaintext_bits qp <= 31)%nat -> qp_used qp = false -> Forall is_u32 (qp_lhs qp) ->
    ((exists q, snd (index_generate_query dbg qp r) = Ok q) <->
     (r < length (qp_lhs qp))%nat /\
     nth r (qp_lhs qp) 0 + 2 ^ (32 - Z.of_nat (qp_plaintext_bits qp)) < 2 ^ 32) /\
    (forall q, snd (index_generate_query dbg qp r) = Ok q ->
       length q = length (qp_lhs qp) /\ Forall is_u32 q /\
       nth r q 0 = nth r (qp_lhs qp) 0 + 2 ^ (32 - Z.of_nat (qp_plaintext_bits qp)) /\
       forall i, i <> r -> nth i q 0 = nth i (qp_lhs qp) 0) /\
    ((length (qp_lhs qp) <= r)%nat -> snd (index_generate_query dbg qp r) = Panic).
Proof.
  intros dbg qp r Hpb Hu H32. rewrite index_query_closed by auto. cbn [snd].
  fold (delta (qp_plaintext_bits qp)). change (2 ^ 32) with two32.
  assert (Hd : 0 < delta (qp_plaintext_bits qp)) by (unfold delta; lia).
  destruct (Nat.ltb_spec r (length (qp_lhs qp))) as [Hr|Hr].
  - assert (Hx : is_u32 (nth r (qp_lhs qp) 0)).
    { rewrite Forall_forall in H32. apply H32. now apply nth_In. }
    unfold is_u32 in Hx.
    destruct (Z.ltb_spec (nth r (qp_lhs qp) 0 + delta (qp_plaintext_bits qp)) two32) as [Hs|Hs].
    + split; [split; [auto|eauto]|]. split; [|lia].
      intros q [= <-]. rewrite Z.mod_small by lia.
      split; [apply length_upd|]. split; [|split].
      * apply Forall_forall. intros x Hin. apply In_nth with (d := 0) in Hin.
        destruct Hin as (i & Hi & <-). rewrite length_upd in Hi.
        destruct (Nat.eq_dec i r) as [->|Hne].
        -- rewrite nth_upd_eq by auto. unfold is_u32. lia.
        -- rewrite nth_upd_ne by auto. rewrite Forall_forall in H32. apply H32. now apply nth_In.
      * now apply nth_upd_eq.
      * intros i Hi. rewrite nth_upd_ne; auto.
    + split; [split; [intros (q & E); discriminate|lia]|].
      split; [intros q E; discriminate|lia].
  - split; [split; [intros (q & E); discriminate|lia]|].
    split; [intros q E; discriminate|auto].
Qed.

(** @C19 example: success, overflow and panic are all reached. *)
Example index_query_example :
  let qp := {| qp_lhs := [7; 4294967000]; qp_rhs := []; qp_elem_size := 8; qp_plaintext_bits := 8;
               qp_extra := None; qp_used := false |} in
  Forall is_u32 (qp_lhs qp) /\
  snd (index_generate_query true qp 0) = Ok [16777223; 4294967000] /\
  snd (index_generate_query true qp 1) = Err EOverflownAdd /\
  snd (index_generate_query true qp 2) = Panic.
Proof.
  cbv zeta. split; [repeat constructor; unfold two32; lia|]. repeat split; vm_compute; reflexivity.
Qed.

(** @C20 What a server learns from one query: entry r of a query for row r is at least delta. *)
Lemma query_entry_large :
  forall (dbg : bool) (qp : query_params) (r : nat) (q : list Z),
    (1 <= qp_plaintext_bits qp <= 31)%nat -> Forall is_u32 (qp_lhs qp) ->
    snd (index_generate_query dbg qp r) = Ok q ->
    2 ^ (32 - Z.of_nat (qp_plaintext_bits qp)) <= nth r q 0.
Proof.
  intros dbg qp r q Hpb H32 Hq.
  destruct (qp_used qp) eqn:Hu; [rewrite index_used in Hq by auto; discriminate|].
  destruct (index_query_shape dbg qp r Hpb Hu H32) as (_ & H & _).
  destruct (H q Hq) as (_ & _ & -> & _).
  destruct (Nat.lt_ge_cases r (length (qp_lhs qp))) as [Hr|Hr].
  - rewrite Forall_forall in H32. pose proof (H32 _ (nth_In _ 0 Hr)) as X. unfold is_u32 in X. lia.
  - rewrite nth_overflow by auto. lia.
Qed.

(** @C20 Refuted: a query vector that some mask produces for row 1 and that no mask at all
    produces for row 0 (all other fields equal): the query excludes row 0. *)
Lemma index_hides_row_refuted :
  exists (q : list Z) (mk : list Z -> query_params),
    (forall lhs, qp_lhs (mk lhs) = lhs /\ qp_used (mk lhs) = false) /\
    (forall dbg, exists lhs, Forall is_u32 lhs /\ snd (index_generate_query dbg (mk lhs) 1) = Ok q) /\
    (forall dbg lhs, Forall is_u32 lhs -> snd (index_generate_query dbg (mk lhs) 0) <> Ok q).
Proof.
  exists [5; 16777216],
    (fun lhs => {| qp_lhs := lhs; qp_rhs := []; qp_elem_size := 8; qp_plaintext_bits := 8;
                   qp_extra := None; qp_used := false |}).
  split; [intros; split; reflexivity|]. split.
  - intros dbg. exists [5; 0]. split; [repeat constructor; unfold two32; lia|].
    destruct dbg; vm_compute; reflexivity.
  - intros dbg lhs H32 H. apply query_entry_large in H; [|cbn; lia|exact H32].
    cbn in H. lia.
Qed.

(** @C22 Two index queries from the same mask (a clone or a reset of [used]) reveal the rows:
    entry i of the first exceeds entry i of the second by delta exactly when i is the first
    row and the rows differ; the queries are equal iff the rows are. *)
Lemma mask_reuse_reveals_rows :
  forall (dbg : bool) (qp : query_params) (r1 r2 : nat) (q1 q2 : list Z),
    (1 <= qp_plaintext_bits qp <= 31)%nat -> Forall is_u32 (qp_lhs qp) ->
    snd (index_generate_query dbg (set_used false qp) r1) = Ok q1 ->
    snd (index_generate_query dbg (set_used false qp) r2) = Ok q2 ->
    (q1 = q2 <-> r1 = r2) /\
    (forall i, nth i q1 0 - nth i q2 0 = 2 ^ (32 - Z.of_nat (qp_plaintext_bits qp)) <->
               i = r1 /\ r1 <> r2) /\
    (forall i, nth i q2 0 - nth i q1 0 = 2 ^ (32 - Z.of_nat (qp_plaintext_bits qp)) <->
               i = r2 /\ r1 <> r2).
Proof.
  intros dbg qp r1 r2 q1 q2 Hpb H32 H1 H2.
  destruct (index_query_shape dbg (set_used false qp) r1) as (_ & S1 & _); auto.
  destruct (index_query_shape dbg (set_used false qp) r2) as (_ & S2 & _); auto.
  destruct (S1 q1 H1) as (L1 & _ & E1 & O1). destruct (S2 q2 H2) as (L2 & _ & E2 & O2).
  cbn [set_used qp_lhs qp_plaintext_bits] in *.
  set (d := 2 ^ (32 - Z.of_nat (qp_plaintext_bits qp))) in *.
  assert (Hd : 0 < d) by (unfold d; lia).
  assert (N1 : forall i, nth i q1 0 = nth i (qp_lhs qp) 0 + (if Nat.eq_dec i r1 then d else 0)).
  { intros i. destruct (Nat.eq_dec i r1) as [->|Hi]; [exact E1|rewrite (O1 i Hi); ring]. }
  assert (N2 : forall i, nth i q2 0 = nth i (qp_lhs qp) 0 + (if Nat.eq_dec i r2 then d else 0)).
  { intros i. destruct (Nat.eq_dec i r2) as [->|Hi]; [exact E2|rewrite (O2 i Hi); ring]. }
  split; [split|split].
  - intros <-. specialize (N1 r1). rewrite (N2 r1) in N1.
    destruct (Nat.eq_dec r1 r1), (Nat.eq_dec r1 r2); auto; lia.
  - intros <-. congruence.
  - intros i. rewrite N1, N2. destruct (Nat.eq_dec i r1), (Nat.eq_dec i r2); subst; split; intros; try lia.
  - intros i. rewrite N1, N2. destruct (Nat.eq_dec i r1), (Nat.eq_dec i r2); subst; split; intros; try lia.
Qed.

(** @C22 example. *)
Example mask_reuse_example :
  let qp := {| qp_lhs := [11; 22; 33]; qp_rhs := []; qp_elem_size := 8; qp_plaintext_bits := 8;
               qp_extra := None; qp_used := true |} in
  snd (index_generate_query true (set_used false qp) 0) = Ok [16777227; 22; 33] /\
  snd (index_generate_query true (set_used false qp) 2) = Ok [11; 22; 16777249].
Proof. split; vm_compute; reflexivity. Qed.

(** ** Responses *)

(** @C23 The index server answers a query of the right length with one word per column, the
    inner product of query and column, correctly serialized; it never returns an error. *)
Lemma respond_shape :
  forall (prg : list Z -> nat -> Z) (dbg : bool) (seed : list Z) (strs elems : list (list Z))
         (dim m es pb w : nat) (sh : shard) (q : list Z),
    (1 <= pb <= 32)%nat -> is_ceil_div es pb w -> Z.of_nat es < 2 ^ 64 ->
    shard_from_base64_strings prg dbg seed strs dim m es pb = Ok sh -> length elems = m ->
    (forall i, (i < m)%nat -> b64_decode (nth i strs []) = Ok (nth i elems [])) ->
    length q = m ->
    exists bytes v, shard_respond sh q = Ok bytes /\ bincode_de_vec_u32 bytes = Ok v /\
      length v = w /\ length bytes = (8 + 4 * w)%nat /\
      forall c, (c < w)%nat -> nth c v 0 = dot q (column elems pb c) mod 2 ^ 32.
Proof.
  intros prg dbg seed strs elems dim m es pb w sh q Hpb Hw H64 Hsh Hel Hdec Hq.
  destruct (shard_inv _ _ _ _ _ _ _ _ _ _ Hpb Hw Hsh) as (Hm & elems' & Hst & ->).
  assert (elems = elems') by (eapply elems_ext; eauto). subst elems'.
  rewrite (shard_respond_ok prg seed dim elems m es pb w q) by (auto; lia).
  pose proof (ceil_div_le es pb w ltac:(lia) Hw) as Hwe.
  do 2 eexists. split; [reflexivity|].
  assert (Hrl : length (map (fun c => dot q (column elems pb c) mod two32) (seq 0 w)) = w)
    by now rewrite map_length, seq_length.
  split.
  { rewrite <- app_nil_r at 1. apply bincode_roundtrip; [apply words_u32|rewrite Hrl; unfold two64; lia]. }
  split; [exact Hrl|]. split; [rewrite bincode_ser_length; lia|].
  intros c Hc. now rewrite nth_map_seq.
Qed.

(** @C23 A query of any other length makes the server panic (it does not return an error). *)
Lemma respond_wrong_length_panics :
  forall (prg : list Z -> nat -> Z) (dbg : bool) (seed : list Z) (strs : list (list Z))
         (dim m es pb : nat) (sh : shard) (q : list Z),
    (1 <= pb <= 32)%nat -> (0 < es)%nat ->
    shard_from_base64_strings prg dbg seed strs dim m es pb = Ok sh ->
    length q <> m -> shard_respond sh q = Panic.
Proof.
  intros prg dbg seed strs dim m es pb sh q Hpb Hes Hsh Hq.
  destruct (get_row_width_pos es pb) as (w & _ & Hw); [lia|].
  destruct (shard_inv _ _ _ _ _ _ _ _ _ _ Hpb Hw Hsh) as (Hm & elems & Hst & ->).
  destruct Hst as (Hl & _). apply shard_respond_bad; auto; [lia|].
  destruct Hw as [Hw _]. destruct w; [cbn in Hw; lia|lia].
Qed.

(** @C23 example. *)
Example respond_example :
  let prg := fun (s : list Z) (k : nat) => Z.of_nat k in
  let strs := map b64_encode [[1; 2]; [255; 128]] in
  exists sh, shard_from_base64_strings prg true [] strs 2 2 16 10 = Ok sh /\
    shard_respond sh [3; 4294967295] = Ok (bincode_ser_vec_u32 [1284; 4294967264]) /\
    shard_respond sh [3] = Panic /\ shard_respond sh [3; 4; 5] = Panic.
Proof.
  cbv zeta. eexists. split; [vm_compute; reflexivity|]. repeat split; vm_compute; reflexivity.
Qed.

(** @C24 Index parsing: reads only the first row_width words, returns that many values below
    2^plaintext_bits; it panics exactly on shorter responses. *)
Lemma parse_total :
  forall (dbg : bool) (qp : query_params) (pb w : nat),
    qp_plaintext_bits qp = pb -> (1 <= pb <= 31)%nat -> is_ceil_div (qp_elem_size qp) pb w ->
    (w <= length (qp_rhs qp))%nat ->
    (forall resp, (w <= length resp)%nat ->
       exists row, index_parse_resp_as_row dbg qp resp = Ok row /\ length row = w /\
         Forall (fun x => 0 <= x < 2 ^ Z.of_nat pb) row /\
         forall resp', (w <= length resp')%nat -> firstn w resp' = firstn w resp ->
           index_parse_resp_as_row dbg qp resp' = Ok row) /\
    (forall resp, index_parse_resp_as_row dbg qp resp = Panic <-> (length resp < w)%nat).
Proof.
  intros dbg qp pb w <- Hpb Hw Hr. split.
  - intros resp Hl. rewrite (index_parse_closed dbg qp resp w) by auto.
    eexists. split; [reflexivity|]. split; [now rewrite map_length, seq_length|]. split.
    + apply Forall_map, Forall_forall. intros c _. unfold decode_word. fold (psize (qp_plaintext_bits qp)).
      apply Z.mod_pos_bound. pose proof (psize_pos (qp_plaintext_bits qp)). lia.
    + intros resp' Hl' E. rewrite (index_parse_closed dbg qp resp' w) by auto. f_equal.
      apply map_ext_in. intros c Hc. apply in_seq in Hc. f_equal.
      rewrite <- (nth_firstn' resp' w c 0) by lia. rewrite <- (nth_firstn' resp w c 0) by lia.
      now rewrite E.
  - intros resp. split.
    + intros H. destruct (Nat.lt_ge_cases (length resp) w) as [|Hl]; auto.
      rewrite (index_parse_closed dbg qp resp w) in H by auto. discriminate.
    + intros H. now apply (index_parse_short dbg qp resp w).
Qed.

(** @C24 Outside 1..=31 plaintext bits the client cannot parse anything: it panics in both
    build profiles. *)
Lemma parse_bad_bits_panics :
  forall (dbg : bool) (qp : query_params) (resp : list Z),
    qp_plaintext_bits qp = 0%nat \/ (32 <= Z.of_nat (qp_plaintext_bits qp) < 2 ^ 32) ->
    index_parse_resp_as_row dbg qp resp = Panic.
Proof.
  intros dbg qp resp [H|H]; unfold index_parse_resp_as_row.
  - rewrite H. destruct dbg; reflexivity.
  - assert (E : get_rounding_factor dbg (qp_plaintext_bits qp) = Panic).
    { unfold get_rounding_factor, get_plaintext_size.
      change (2 ^ 32) with two32 in H. rewrite Z.mod_small by lia.
      set (k := Z.of_nat (qp_plaintext_bits qp)) in *.
      assert (E : 2 ^ k = two32 * 2 ^ (k - 32)).
      { change two32 with (2 ^ 32). rewrite <- Z.pow_add_r by lia. f_equal. lia. }
      assert (0 < 2 ^ (k - 32)) by (apply Z.pow_pos_nonneg; lia).
      rewrite E. unfold chk.
      destruct (Z.ltb_spec (two32 * 2 ^ (k - 32)) two32) as [L|L]; [unfold two32 in *; nia|].
      rewrite andb_false_r. destruct dbg; [reflexivity|]. cbn [bind].
      rewrite Z.mul_comm, Z.mod_mul by (unfold two32; lia). reflexivity. }
    now rewrite E.
Qed.

(** @C24 example. *)
Example parse_example :
  let qp := {| qp_lhs := []; qp_rhs := [0; 0]; qp_elem_size := 16; qp_plaintext_bits := 10;
               qp_extra := None; qp_used := true |} in
  is_ceil_div 16 10 2 /\ index_parse_resp_as_row true qp [4294967295; 4194304; 77] = Ok [0; 1] /\
  index_parse_resp_as_row true qp [1] = Panic.
Proof. split; [split; [lia|intros; lia]|]. split; vm_compute; reflexivity. Qed.

(** ** Validation *)

(** @C38 Index construction looks at the first m strings only. *)
Lemma extra_elements_ignored :
  forall (prg : list Z -> nat -> Z) (dbg : bool) (seed : list Z) (strs extra : list (list Z))
         (dim m es pb : nat),
    (m <= length strs)%nat ->
    shard_from_base64_strings prg dbg seed (strs ++ extra) dim m es pb =
    shard_from_base64_strings prg dbg seed strs dim m es pb.
Proof.
  intros prg dbg seed strs extra dim m es pb Hm.
  unfold shard_from_base64_strings, index_db_new, construct_rows.
  f_equal. f_equal. apply bind_ext. intros w _.
  apply mapM_ext. intros i Hi. apply in_seq in Hi. f_equal. unfold idx.
  rewrite nth_error_app1 by lia. reflexivity.
Qed.

(** @C38 m larger than the number of strings panics when the strings themselves are fine. *)
Lemma too_large_m_panics :
  forall (prg : list Z -> nat -> Z) (dbg : bool) (seed : list Z) (strs elems : list (list Z))
         (dim m es pb w : nat),
    (1 <= pb <= 32)%nat -> is_ceil_div es pb w -> (length strs < m)%nat ->
    (forall i, (i < length strs)%nat -> b64_decode (nth i strs []) = Ok (nth i elems []) /\
                              (w * pb <= 8 * length (nth i elems []) + pb)%nat) ->
    shard_from_base64_strings prg dbg seed strs dim m es pb = Panic.
Proof.
  intros prg dbg seed strs elems dim m es pb w Hpb Hw Hm Hok.
  unfold shard_from_base64_strings, index_db_new, construct_rows.
  destruct (get_row_width_pos es pb) as (w' & -> & Hw'); [lia|].
  rewrite (is_ceil_div_unique _ _ _ _ Hw' Hw). cbn [bind].
  rewrite (mapM_seq_panic _ _ (length strs)); [reflexivity|lia| |].
  - intros i Hi. rewrite (idx_nth strs i []) by lia. cbn [bind].
    destruct (Hok i Hi) as [H1 H2]. eexists. apply construct_row_ok; eauto.
  - rewrite idx_oob by lia. reflexivity.
Qed.

(** @C38 An undecodable string among the first m gives an error and no shard (when the strings
    before it are fine). *)
Lemma undecodable_gives_error :
  forall (prg : list Z -> nat -> Z) (dbg : bool) (seed : list Z) (strs elems : list (list Z))
         (dim m es pb w k : nat),
    (1 <= pb <= 32)%nat -> is_ceil_div es pb w -> (k < m <= length strs)%nat ->
    (forall i, (i < k)%nat -> b64_decode (nth i strs []) = Ok (nth i elems []) /\
                              (w * pb <= 8 * length (nth i elems []) + pb)%nat) ->
    (forall b, b64_decode (nth k strs []) <> Ok b) ->
    shard_from_base64_strings prg dbg seed strs dim m es pb = Err EBase64.
Proof.
  intros prg dbg seed strs elems dim m es pb w k Hpb Hw Hk Hok Hbad.
  unfold shard_from_base64_strings.
  rewrite (undecodable_element_err dbg strs elems m es pb w k); auto.
  destruct (b64_decode_cases (nth k strs [])) as [(b & E)|E]; auto. now apply Hbad in E.
Qed.

(** @C38 m = 0 panics (there is no first row to transpose). *)
Lemma zero_m_panics :
  forall (prg : list Z -> nat -> Z) (dbg : bool) (seed : list Z) (strs : list (list Z))
         (dim es pb : nat),
    shard_from_base64_strings prg dbg seed strs dim 0 es pb = Panic.
Proof.
  intros prg dbg seed strs dim es [|pb]; [reflexivity|].
  unfold shard_from_base64_strings, index_db_new, construct_rows.
  destruct (get_row_width_pos es (S pb)) as (w' & -> & Hw'); [lia|]. reflexivity.
Qed.

Lemma first_chunk_wide dbg bits pb w :
  (32 < pb)%nat -> (32 < length bits)%nat -> (0 < w)%nat ->
  chunk_row dbg bits pb w = Err EInputSize.
Proof.
  intros Hpb Hb Hw. destruct w as [|w]; [lia|]. unfold chunk_row.
  cbn [seq mapM]. rewrite Nat.mul_0_l, Nat.add_0_l, Nat.mul_1_l.
  destruct (Nat.ltb_spec pb (length bits)) as [H|H].
  - unfold slice_to. rewrite (proj2 (Nat.leb_le 0 pb)) by lia.
    rewrite (proj2 (Nat.leb_le pb (length bits))) by lia. cbn [andb bind].
    rewrite bits_to_u32_le_closed, Nat.sub_0_r, skipn_O.
    rewrite firstn_length_le by lia. destruct (Nat.leb_spec pb 32); [lia|reflexivity].
  - unfold slice_from. rewrite (proj2 (Nat.leb_le 0 (length bits))) by lia. cbn [bind].
    rewrite bits_to_u32_le_closed, skipn_O.
    destruct (Nat.leb_spec (length bits) 32); [lia|reflexivity].
Qed.

(** @C38 More than 32 plaintext bits is an error as soon as the first element has more than
    32 bits. *)
Lemma wide_chunks_error :
  forall (prg : list Z -> nat -> Z) (dbg : bool) (seed : list Z) (s elem : list Z)
         (strs : list (list Z)) (dim m es pb : nat),
    (32 < pb)%nat -> (0 < es)%nat -> (0 < m)%nat ->
    b64_decode s = Ok elem -> (32 < 8 * length elem)%nat ->
    shard_from_base64_strings prg dbg seed (s :: strs) dim m es pb = Err EInputSize.
Proof.
  intros prg dbg seed s elem strs dim m es pb Hpb Hes Hm Hd Hl.
  unfold shard_from_base64_strings, index_db_new, construct_rows.
  destruct (get_row_width_pos es pb) as (w & -> & Hw); [lia|]. cbn [bind].
  destruct m as [|m]; [lia|]. cbn [seq mapM]. unfold idx at 1. cbn [nth_error bind].
  unfold index_construct_row at 1. rewrite Hd. cbn [bind].
  rewrite first_chunk_wide; auto.
  - now rewrite bytes_to_bits_length.
  - destruct Hw as [Hw _]. destruct w; [cbn in Hw; lia|lia].
Qed.

(** @C38 example: hypotheses of the error cases are met. *)
Example validation_example :
  let prg := fun (s : list Z) (k : nat) => Z.of_nat k in
  shard_from_base64_strings prg true [] [b64_encode [1; 2]] 2 2 16 10 = Panic /\
  shard_from_base64_strings prg true [] [b64_encode [1; 2]; [33]] 2 2 16 10 = Err EBase64 /\
  shard_from_base64_strings prg false [] [b64_encode [1; 2; 3; 4; 5]] 2 1 40 33 = Err EInputSize.
Proof. repeat split; vm_compute; reflexivity. Qed.

Lemma mult_left_mismatch cp s tape :
  (0 < length cp)%nat -> length (nth 0 cp []) <> length s ->
  mult_left cp s tape = Err EInputSize.
Proof.
  intros Hn Hne. unfold mult_left. destruct cp as [|c cp]; [cbn in Hn; lia|].
  cbn [length seq foldM]. unfold idx at 1. cbn [nth_error bind]. cbn [nth] in Hne.
  rewrite vec_mult_closed. destruct (Nat.eqb_spec (length s) (length c)); [congruence|reflexivity].
Qed.

(** @C39 Common params whose dimension differs from that of the params (index and KV): query
    params generation returns the input-size error (as soon as the secret can be sampled). *)
Lemma mismatched_dimension_rejected :
  forall (cp : list (list Z)) (tape : list Z) (n d : nat),
    shape cp n d -> (0 < n)%nat ->
    (forall p : index_params, d <> ip_dim p -> (ip_dim p <= length (draws tape))%nat ->
       generate_index_query_params cp p tape = Err EInputSize) /\
    (forall p : kv_params, d <> kp_dim p -> (kp_dim p <= length (draws tape))%nat ->
       generate_kv_query_params cp p tape = Err EInputSize).
Proof.
  intros cp tape n d Hs Hn. pose proof (shape_nth cp n d 0 Hs Hn) as H0. destruct Hs as [Hl _].
  assert (K : forall dim, d <> dim -> (dim <= length (draws tape))%nat ->
     exists s t, random_ternary_vector dim tape = Ok (s, t) /\ mult_left cp s t = Err EInputSize).
  { intros dim Hd Ht. pose proof (random_ternary_vector_draws dim tape) as R.
    destruct (Nat.leb_spec dim (length (draws tape))); [|lia].
    destruct R as (t & R & _). do 2 eexists. split; [exact R|].
    apply mult_left_mismatch; [lia|]. rewrite map_length, firstn_length. lia. }
  split; intros p Hd Ht; destruct (K _ Hd Ht) as (s & t & E1 & E2).
  - unfold generate_index_query_params. rewrite E1. cbn [bind]. now rewrite E2.
  - unfold generate_kv_query_params. rewrite E1. cbn [bind]. now rewrite E2.
Qed.

(** @C39 In particular for common params derived from another shard's params. *)
Lemma foreign_common_params_rejected :
  forall (prg : list Z -> nat -> Z) (p other : index_params) (tape : list Z),
    ip_dim other <> ip_dim p -> (0 < ip_m other)%nat -> (ip_dim p <= length (draws tape))%nat ->
    generate_index_query_params (index_common_params prg other) p tape = Err EInputSize.
Proof.
  intros prg p other tape Hd Hm Ht.
  destruct (mismatched_dimension_rejected (index_common_params prg other) tape (ip_m other) (ip_dim other))
    as [H _]; auto. apply pubmat_shape.
Qed.

(** @C39 example: the hypotheses are met; with the right dimension the call succeeds. *)
Example foreign_common_params_example :
  let prg := fun (s : list Z) (k : nat) => Z.of_nat k in
  let p d := {| ip_dim := d; ip_m := 2; ip_public_seed := []; ip_rhs := [[1; 2]];
                ip_elem_size := 8; ip_plaintext_bits := 10 |} in
  generate_index_query_params (index_common_params prg (p 3%nat)) (p 2%nat) [1; 2; 3; 4]
    = Err EInputSize /\
  exists qp rest,
  generate_index_query_params (index_common_params prg (p 2%nat)) (p 2%nat) [1; 2; 3; 4]
    = Ok (qp, rest).
Proof. split; [vm_compute; reflexivity|]. do 2 eexists. vm_compute; reflexivity. Qed.
