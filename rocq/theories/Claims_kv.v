(** * Claims about the key-value protocol (C21, C22-C24 and C38 for key-value, C34-C37). *)
From Coq Require Import Permutation.
From Verif Require Import Base Spec Fmt Base64 Bincode Mat Lwe Hash Fuse3 Bfusep Db Api SpecFilter Base_facts Fmt_facts Codec_facts Mat_facts Index_facts IndexProto_facts Geom_facts FilterTop_facts KV_facts Claims_filter Claims_index.
Local Open Scope Z_scope.

(** ** C35 *)

(** @C35 every successful construction publishes one seed and one geometry, that of the number
    of keys; the matrix has one column per position of the first value, all of the same
    height, which is the published number of slots; and column c is the reduced fingerprint
    array of a filter with exactly the published seed and geometry, built from the c-th
    value entries under label c. Whatever the per-column randomness and the keys. *)
Lemma kv_columns_share_geometry : forall dbg fe rnd seed kvs m es pb db,
  (pb <= 31)%nat -> kv_db_new dbg fe rnd seed kvs m es pb = Ok db ->
  exists kv0 g, nth_error kvs 0 = Some kv0 /\ geometry dbg fe (length kvs) = Ok g /\
    kd_filter_params db = {| fp_seed := seed; fp_segment_length := g_seglen g;
                             fp_segment_length_mask := g_mask g; fp_segment_count_length := g_scl g |} /\
    shape (kd_entries db) (length (kv_value kv0)) (g_arrlen g) /\
    kv_matrix_height db = Ok (g_arrlen g) /\
    forall c, (c < length (kv_value kv0))%nat -> exists f,
      from_slice dbg fe (rnd c) seed (map kv_key kvs)
        (map (fun kv => nth c (kv_value kv) 0) kvs) (Z.of_nat c) (2 ^ Z.of_nat pb) = Ok f /\
      get_fingerprints_mod f = Ok (nth c (kd_entries db) []) /\
      bp_seed f = seed /\ bp_segment_length f = g_seglen g /\ bp_segment_length_mask f = g_mask g /\
      bp_segment_count_length f = g_scl g /\ length (bp_fingerprints f) = g_arrlen g.
Proof.
  intros dbg fe rnd seed kvs m es pb db Hpb H.
  destruct (kv_db_inv _ _ _ _ _ _ _ _ _ Hpb H) as (kv0 & g & H0 & Hg & _ & _ & _ & Hfp & Hs & HW & _ & HC).
  exists kv0, g. split; auto. split; auto. split; auto. split; auto. split; auto.
  eapply kv_height_ok; eauto.
Qed.

(** Three pairs with 2-entry values; [ex_kvs] is reused in the examples below. *)
Definition ex_kvs : list key_value :=
  [ {| kv_key := key4 1; kv_value := [700; 1] |}; {| kv_key := key4 2; kv_value := [5; 1023] |};
    {| kv_key := key4 3; kv_value := [1023; 88] |} ].
Definition ex_rnd : nat -> nat -> Z := fun c i => (Z.of_nat c + 1) * rnd0 i mod two32.
Definition ex_prg : list Z -> nat -> Z := fun _ k => (Z.of_nat k * 2654435761 + 12345) mod two32.
(** 2 secret draws, then at least 24 error draws, of all three kinds, with rejected words. *)
Definition ex_tape : list Z :=
  flat_map (fun i => [i * 107374182 mod two32; 4294967294; 3000000000; 7; 2000000000]) (map Z.of_nat (seq 0 12)).

(** @C35 *)
Example kv_columns_example : exists db,
  kv_db_new true (est 3 12) ex_rnd seed0 ex_kvs 3 20 10 = Ok db /\
  length (kd_entries db) = 2%nat /\ kv_matrix_height db = Ok 24%nat.
Proof. eexists. split; [vm_compute; reflexivity|]. split; vm_compute; reflexivity. Qed.

(** ** C34 *)

Lemma sane_map {A B} (f : A -> B) fe (l : list A) :
  sane_estimates fe (length l) -> sane_estimates fe (length (map f l)).
Proof. now rewrite map_length. Qed.

(** Everything about a built shard and a query for any key at all. *)
Lemma kv_run prg dbg fe rnd fseed pseed kvs dim m es pb w sh tape rest qp :
  (1 <= pb <= 31)%nat -> is_ceil_div es pb w -> Z.of_nat es < 2 ^ 64 ->
  sane_estimates fe (length kvs) ->
  Forall (fun kv => length (kv_value kv) = w) kvs ->
  kv_shard_new prg dbg fe rnd fseed pseed kvs dim m es pb = Ok sh ->
  generate_kv_query_params (kv_common_params prg (ks_params sh)) (ks_params sh) tape = Ok (qp, rest) ->
  forall key, exists g a b c q,
    geometry dbg fe (length kvs) = Ok g /\ valid_geom g /\
    kd_filter_params (ks_db sh) = fp_of fseed g /\
    hash_eval dbg key fseed (g_seglen g) (g_mask g) (g_scl g) = Ok [a; b; c] /\
    (c < g_arrlen g)%nat /\ (a < b < c)%nat /\ kp_m (ks_params sh) = g_arrlen g /\
    shape (kd_entries (ks_db sh)) w (g_arrlen g) /\
    kv_generate_query dbg qp key = (set_used true qp, Ok q) /\
    (length (qp_lhs qp) = g_arrlen g) /\
    exists bytes resp,
      kv_shard_respond sh q = Ok bytes /\ bincode_de_vec_u32 bytes = Ok resp /\ length resp = w /\
      kv_parse_resp_as_row dbg (set_used true qp) resp key =
      Ok (map (fun i => let col := nth i (kd_entries (ks_db sh)) [] in
             (nth a col 0 + nth b col 0 + nth c col 0 + get_key_fingerprint key fseed (Z.of_nat i)
              + (dot (firstn (g_arrlen g) (skipn dim (draws tape))) col + half pb - 1) / delta pb)
             mod psize pb) (seq 0 w)).
Proof.
  intros Hpb Hw H64 Hsane HF Hsh Hqp key.
  unfold kv_shard_new in Hsh. apply bind_Ok in Hsh as (db & Hdb & Hsh).
  destruct (kv_db_inv dbg fe rnd fseed kvs m es pb db ltac:(lia) Hdb)
    as (kv0 & g & H0 & Hg & Em & Ees & Epb & Hfp & Hs & HW & _ & HC).
  assert (HW' : length (kv_value kv0) = w).
  { rewrite Forall_forall in HF. apply HF. eapply nth_error_In; eauto. }
  rewrite HW' in *.
  destruct (geometry_valid _ _ _ _ Hsane Hg) as [Vg _].
  rewrite <- Ees, <- Epb in Hw.
  rewrite (kv_shard_of_db_ok prg pseed db dim w (g_arrlen g) w) in Hsh; auto; [|lia|now apply geom_pos].
  injection Hsh as <-. cbn [ks_db ks_params] in *.
  apply kv_gen_qp_inv in Hqp as [Ht Eqp].
  destruct (three_slots dbg dbg fe _ g key fseed Hsane Hg) as (a & b & c & Hev & Hab & Hc & _).
  assert (Hlhs : length (qp_lhs qp) = g_arrlen g).
  { rewrite Eqp. cbn [qp_lhs kv_qp_of]. rewrite masked_lhs_length. apply pubmat_shape. }
  assert (Hq : kv_generate_query dbg qp key = (set_used true qp, Ok (add3 (delta pb) (qp_lhs qp) a b c))).
  { rewrite (kv_query_closed dbg qp (fp_of fseed g) key a b c); try lia.
    - rewrite Eqp. cbn [qp_plaintext_bits kv_qp_of]. now rewrite Epb.
    - rewrite Eqp. cbn [qp_plaintext_bits kv_qp_of]. lia.
    - now rewrite Eqp.
    - rewrite Eqp. cbn [qp_extra kv_qp_of]. now rewrite Hfp.
    - exact Hev. }
  exists g, a, b, c, (add3 (delta pb) (qp_lhs qp) a b c).
  repeat (split; [solve [auto]|]).
  assert (Hql : length (add3 (delta pb) (qp_lhs qp) a b c) = g_arrlen g).
  { unfold add3. now rewrite !add_at_length. }
  rewrite (kv_respond_closed _ _ w (g_arrlen g) w); cbn [ks_db]; auto; [|lia].
  pose proof (ceil_div_le es pb w ltac:(lia) ltac:(now rewrite <- Ees, <- Epb)) as Hwe.
  eexists. eexists. split; [reflexivity|]. split.
  { rewrite <- app_nil_r at 1. apply bincode_roundtrip; [apply words_u32|].
    rewrite map_length, seq_length. unfold two64. lia. }
  split; [now rewrite map_length, seq_length|].
  pose proof (kv_protocol_row prg dbg pseed dim db (fp_of fseed g) (g_arrlen g) w w tape key a b c) as P.
  cbv zeta in P. rewrite Ees, Epb in *.
  specialize (P Hpb Hw Hs (le_n w) Ht ltac:(lia) ltac:(lia) Hc).
  rewrite Eqp, Hfp. exact P.
Qed.

(** @C34 A KV shard built from key-value pairs, query parameters generated from its public
    parameters with any randomness, a query for the key at position i: the query always
    succeeds, the server answers, the client decodes a row of the value's width, and the row
    is the stored value modulo 2^plaintext_bits if and only if, for every column, the inner
    product of the drawn error with the column is congruent mod 2^32 to a number in
    (-delta/2, delta/2]. The key must be the last one with its 64-bit hash; in release builds
    no slot may be shared by more than 63 keys (a debug build panics in that case). *)
Lemma kv_retrieval : forall prg dbg fe rnd fseed pseed kvs dim m es pb w sh tape rest qp i kv,
  (1 <= pb <= 31)%nat -> is_ceil_div es pb w -> Z.of_nat es < 2 ^ 64 ->
  sane_estimates fe (length kvs) ->
  Forall (fun kv => length (kv_value kv) = w) kvs ->
  kv_shard_new prg dbg fe rnd fseed pseed kvs dim m es pb = Ok sh ->
  (dbg = true \/ exists slots,
     (forall key, get_hash_evals dbg (kd_filter_params (ks_db sh)) key = Ok (slots key)) /\
     forall j, (load slots (map kv_key kvs) j <= 63)%nat) ->
  nth_error kvs i = Some kv -> last_with_hash fseed (map kv_key kvs) i (kv_key kv) ->
  generate_kv_query_params (kv_common_params prg (ks_params sh)) (ks_params sh) tape = Ok (qp, rest) ->
  exists qp' q bytes resp row,
    kv_generate_query dbg qp (kv_key kv) = (qp', Ok q) /\
    kv_shard_respond sh q = Ok bytes /\ bincode_de_vec_u32 bytes = Ok resp /\
    kv_parse_resp_as_row dbg qp' resp (kv_key kv) = Ok row /\ length row = w /\
    (row = map (fun x => x mod 2 ^ Z.of_nat pb) (kv_value kv) <->
     forall c, (c < w)%nat ->
       congruent_in (dot (firstn (kp_m (ks_params sh)) (skipn dim (draws tape)))
                         (nth c (kd_entries (ks_db sh)) []))
                    (- 2 ^ (31 - Z.of_nat pb)) (2 ^ (31 - Z.of_nat pb))).
Proof.
  intros prg dbg fe rnd fseed pseed kvs dim m es pb w sh tape rest qp i kv
    Hpb Hw H64 Hsane HF Hsh Hload Hi Hlast Hqp.
  destruct (kv_run prg dbg fe rnd fseed pseed kvs dim m es pb w sh tape rest qp
              Hpb Hw H64 Hsane HF Hsh Hqp (kv_key kv))
    as (g & a & b & c & q & Hg & Vg & Hfp & Hev & Hc & Hab & Hm & Hs & Hq & _ & bytes & resp & Hr & Hde & Hrl & Hp).
  exists (set_used true qp), q, bytes, resp. eexists.
  split; [exact Hq|]. split; [exact Hr|]. split; [exact Hde|]. split; [exact Hp|].
  split; [now rewrite map_length, seq_length|]. rewrite Hm.
  set (nz := firstn (g_arrlen g) (skipn dim (draws tape))).
  assert (Hkvw : length (kv_value kv) = w).
  { rewrite Forall_forall in HF. apply HF. eapply nth_error_In; eauto. }
  assert (E : map (fun x => x mod 2 ^ Z.of_nat pb) (kv_value kv)
            = map (fun j => nth j (kv_value kv) 0 mod psize pb) (seq 0 w)).
  { rewrite <- Hkvw. rewrite <- (map_nth_seq (kv_value kv) 0) at 1. rewrite map_map. reflexivity. }
  rewrite E, map_eq_nth. clear E.
  unfold kv_shard_new in Hsh. apply bind_Ok in Hsh as (db & Hdb & Hsh).
  assert (Edb : ks_db sh = db).
  { unfold kv_shard_of_db in Hsh. apply bind_Ok in Hsh as (? & _ & Hsh). now injection Hsh as <-. }
  rewrite Edb in *.
  destruct (kv_db_inv dbg fe rnd fseed kvs m es pb db ltac:(lia) Hdb)
    as (kv0 & g' & H0 & Hg' & Em & Ees & Epb & _ & _ & HW & _ & HC).
  assert (g' = g) by congruence. subst g'.
  assert (HW' : length (kv_value kv0) = w).
  { rewrite Forall_forall in HF. apply HF. eapply nth_error_In; eauto. }
  rewrite HW' in *.
  assert (V : forall j, (j < w)%nat ->
     (nth a (nth j (kd_entries db) []) 0 + nth b (nth j (kd_entries db) []) 0 +
      nth c (nth j (kd_entries db) []) 0 + get_key_fingerprint (kv_key kv) fseed (Z.of_nat j)) mod psize pb
     = nth j (kv_value kv) 0 mod psize pb).
  { intros j Hj. destruct (HC j Hj) as (f & Ef & EF & Es & E1 & E2 & E3 & _).
    unfold from_slice in Ef. destruct (negb _) eqn:EL; [discriminate|].
    apply negb_false_iff, Nat.eqb_eq in EL.
    destruct (fingerprint_sum MAX_ITER dbg fe (rnd j) fseed (map kv_key kvs)
       (map (fun kv => nth j (kv_value kv) 0) kvs) (Z.of_nat pb) (Z.of_nat j) f) as (F & EF' & _ & _ & S); auto.
    - now rewrite map_length.
    - lia.
    - lia.
    - destruct Hload as [->|(slots & Hsl & Hld)]; [now left|right]. exists slots.
      split; auto. rewrite E1, E2, E3. intros key. specialize (Hsl key).
      unfold get_hash_evals in Hsl. rewrite Hfp in Hsl. exact Hsl.
    - rewrite EF in EF'. injection EF' as <-.
      destruct (S dbg i (kv_key kv) a b c) as (_ & _ & _ & S1); auto.
      { rewrite E1, E2, E3. exact Hev. }
      unfold psize. rewrite S1. f_equal.
      rewrite (nth_map' _ _ _ _ kv) by (apply nth_error_Some; congruence).
      f_equal. erewrite nth_error_nth; eauto. }
  pose proof (psize_pos pb) as Hps.
  split; intros H j Hj; specialize (H j Hj); cbv zeta in *.
  - rewrite <- Zplus_mod_idemp_l, (V j Hj) in H.
    apply (decode_noise_iff pb (nth j (kv_value kv) 0 mod psize pb)); auto.
    apply Z.mod_pos_bound. lia.
  - rewrite <- Zplus_mod_idemp_l, (V j Hj).
    apply (decode_noise_iff pb (nth j (kv_value kv) 0 mod psize pb)); auto.
    apply Z.mod_pos_bound. lia.
Qed.

(** @C34 Below the worst-case bound slots * (2^plaintext_bits - 1) < 2^(31 - plaintext_bits),
    the stored value always comes back, whatever the randomness. *)
Lemma kv_retrieval_unconditional :
  forall prg dbg fe rnd fseed pseed kvs dim m es pb w sh tape rest qp i kv,
  (1 <= pb <= 31)%nat -> is_ceil_div es pb w -> Z.of_nat es < 2 ^ 64 ->
  sane_estimates fe (length kvs) ->
  Forall (fun kv => length (kv_value kv) = w) kvs ->
  kv_shard_new prg dbg fe rnd fseed pseed kvs dim m es pb = Ok sh ->
  (dbg = true \/ exists slots,
     (forall key, get_hash_evals dbg (kd_filter_params (ks_db sh)) key = Ok (slots key)) /\
     forall j, (load slots (map kv_key kvs) j <= 63)%nat) ->
  Z.of_nat (kp_m (ks_params sh)) * (2 ^ Z.of_nat pb - 1) < 2 ^ (31 - Z.of_nat pb) ->
  nth_error kvs i = Some kv -> last_with_hash fseed (map kv_key kvs) i (kv_key kv) ->
  generate_kv_query_params (kv_common_params prg (ks_params sh)) (ks_params sh) tape = Ok (qp, rest) ->
  exists qp' q bytes resp,
    kv_generate_query dbg qp (kv_key kv) = (qp', Ok q) /\
    kv_shard_respond sh q = Ok bytes /\ bincode_de_vec_u32 bytes = Ok resp /\
    kv_parse_resp_as_row dbg qp' resp (kv_key kv) = Ok (map (fun x => x mod 2 ^ Z.of_nat pb) (kv_value kv)).
Proof.
  intros prg dbg fe rnd fseed pseed kvs dim m es pb w sh tape rest qp i kv
    Hpb Hw H64 Hsane HF Hsh Hload Hb Hi Hlast Hqp.
  destruct (kv_retrieval prg dbg fe rnd fseed pseed kvs dim m es pb w sh tape rest qp i kv
              Hpb Hw H64 Hsane HF Hsh Hload Hi Hlast Hqp)
    as (qp' & q & bytes & resp & row & H1 & H2 & H3 & H4 & H5 & H6).
  exists qp', q, bytes, resp. split; auto. split; auto. split; auto. rewrite H4. f_equal. apply H6.
  destruct (kv_run prg dbg fe rnd fseed pseed kvs dim m es pb w sh tape rest qp
              Hpb Hw H64 Hsane HF Hsh Hqp (kv_key kv))
    as (g & _ & _ & _ & _ & Hg & _ & _ & _ & _ & _ & Hm & Hs & _ & _ & _).
  intros c Hc. rewrite Hm in *.
  set (e := firstn (g_arrlen g) (skipn dim (draws tape))). set (col := nth c (kd_entries (ks_db sh)) []).
  exists (dot e col), 0. split; [ring|].
  assert (Hcol : length col = g_arrlen g) by (apply (shape_nth _ w); auto).
  assert (Hr : Forall (fun x => 0 <= x < psize pb) col).
  { unfold kv_shard_new in Hsh. apply bind_Ok in Hsh as (db & Hdb & Hsh).
    assert (Edb : ks_db sh = db).
    { unfold kv_shard_of_db in Hsh. apply bind_Ok in Hsh as (? & _ & Hsh). now injection Hsh as <-. }
    unfold col. rewrite Edb in *.
    destruct (kv_db_inv dbg fe rnd fseed kvs m es pb db ltac:(lia) Hdb)
      as (kv0 & g' & H0 & _ & _ & _ & _ & _ & _ & _ & _ & HC).
    assert (HW' : length (kv_value kv0) = w).
    { rewrite Forall_forall in HF. apply HF. eapply nth_error_In; eauto. }
    rewrite HW' in HC. destruct (HC c Hc) as (f & Ef & EF & _).
    apply (fingerprints_mod_range f (Z.of_nat pb)); auto; [lia|]. eapply from_slice_mod; eauto. }
  fold (half pb) in *. fold (psize pb) in *. pose proof (psize_pos pb) as Hps.
  pose proof (draws_ternary tape) as Ht.
  assert (Hf : Forall (fun d => d = 0 \/ d = 1 \/ d = -1) e).
  { unfold e. rewrite <- (firstn_skipn dim (draws tape)) in Ht. apply Forall_app in Ht as [_ Ht].
    rewrite <- (firstn_skipn (g_arrlen g) (skipn dim (draws tape))) in Ht. apply Forall_app in Ht. tauto. }
  assert (Hlen : (length e <= g_arrlen g)%nat) by (unfold e; rewrite firstn_length; lia).
  pose proof (dot_bound e col (psize pb - 1) ltac:(lia) Hf) as B.
  specialize (B ltac:(eapply Forall_impl; [|exact Hr]; cbn; lia) ltac:(lia)).
  assert (Z.of_nat (length e) * (psize pb - 1) <= Z.of_nat (g_arrlen g) * (psize pb - 1))
    by (apply Z.mul_le_mono_nonneg_r; lia).
  lia.
Qed.

(** @C34 With string inputs: the keys' SHA-256 digests are the filter keys; querying the digest
    of string i returns the plaintext chunks of value i under the same noise condition, and,
    when plaintext_bits does not divide elem_size, parse_resp_as_bytes and _as_base64 return
    elem_size bits of the decoded value (see C05 for the dividing case). *)
Lemma kv_retrieval_strings :
  forall sha256 prg dbg fe rnd fseed pseed keys values hkeys dim m es pb w sh tape rest qp i key value,
  (1 <= pb <= 31)%nat -> is_ceil_div es pb w -> Z.of_nat es < 2 ^ 64 ->
  sane_estimates fe (length keys) ->
  kv_shard_from_base64_strings sha256 prg dbg fe rnd fseed pseed keys values dim m es pb = Ok sh ->
  mapM (sha256_into_u64_sized sha256) keys = Ok hkeys ->
  (dbg = true \/ exists slots,
     (forall key, get_hash_evals dbg (kd_filter_params (ks_db sh)) key = Ok (slots key)) /\
     forall j, (load slots hkeys j <= 63)%nat) ->
  last_with_hash fseed hkeys i key -> b64_decode (nth i values []) = Ok value ->
  generate_kv_query_params (kv_common_params prg (ks_params sh)) (ks_params sh) tape = Ok (qp, rest) ->
  exists qp' q bytes resp row,
    kv_generate_query dbg qp key = (qp', Ok q) /\
    kv_shard_respond sh q = Ok bytes /\ bincode_de_vec_u32 bytes = Ok resp /\
    kv_parse_resp_as_row dbg qp' resp key = Ok row /\ length row = w /\
    (row = map (chunk value pb) (seq 0 w) <->
     forall c, (c < w)%nat ->
       congruent_in (dot (firstn (kp_m (ks_params sh)) (skipn dim (draws tape)))
                         (nth c (kd_entries (ks_db sh)) []))
                    (- 2 ^ (31 - Z.of_nat pb)) (2 ^ (31 - Z.of_nat pb))) /\
    (row = map (chunk value pb) (seq 0 w) -> (es mod pb <> 0)%nat ->
     exists out, kv_parse_resp_as_bytes dbg qp' resp key = Ok out /\
       kv_parse_resp_as_base64 dbg qp' resp key = Ok (b64_encode out) /\
       length out = ((es + 7) / 8)%nat /\
       byte_string_bits out = fit es (byte_string_bits value) ++ repeat false (8 * length out - es)).
Proof.
  intros sha prg dbg fe rnd fseed pseed keys values hkeys dim m es pb w sh tape rest qp i key value
    Hpb Hw H64 Hsane Hsh Hh Hload Hlast Hval Hqp.
  unfold kv_shard_from_base64_strings in Hsh. apply bind_Ok in Hsh as (db & Hdb & Hsh).
  apply kv_strings_inv in Hdb as (EL & kvs & Lk & Hdb & Hkv).
  assert (Hpb' : (1 <= pb <= 32)%nat) by lia.
  pose proof (mapM_length _ _ _ Hh) as Lh.
  assert (Ek : hkeys = map kv_key kvs).
  { apply (list_eq_nth _ _ []); [rewrite map_length; congruence|]. intros j Hj.
    apply mapM_Ok_inv in Hh. apply (Forall2_nth _ _ _ [] []) in Hh as [_ Hh].
    specialize (Hh j ltac:(congruence)).
    destruct (kv_from_strings_inv sha dbg _ _ es pb w _ Hpb' Hw (Hkv j ltac:(congruence))) as [Hk _].
    rewrite (nth_map' kv_key kvs j [] kd0) by congruence. congruence. }
  assert (Hi : (i < length keys)%nat).
  { destruct Hlast as [Hn _]. rewrite <- Lh. apply nth_error_Some. congruence. }
  destruct (kv_from_strings_inv sha dbg _ _ es pb w _ Hpb' Hw (Hkv i Hi)) as (Hk & b & Hb & Hbl & Hv).
  rewrite Hval in Hb. injection Hb as <-.
  assert (Ekey : kv_key (nth i kvs kd0) = key).
  { destruct Hlast as [Hn _]. apply (nth_error_nth _ _ []) in Hn. rewrite Ek in Hn.
    rewrite (nth_map' kv_key kvs i [] kd0) in Hn by congruence. exact Hn. }
  assert (HF : Forall (fun kv => length (kv_value kv) = w) kvs).
  { apply Forall_forall. intros kv Hin. apply In_nth with (d := kd0) in Hin. destruct Hin as (j & Hj & <-).
    destruct (kv_from_strings_inv sha dbg _ _ es pb w _ Hpb' Hw (Hkv j ltac:(congruence))) as (_ & b & _ & _ & ->).
    now rewrite map_length, seq_length. }
  assert (Hsh' : kv_shard_new prg dbg fe rnd fseed pseed kvs dim m es pb = Ok sh).
  { unfold kv_shard_new. rewrite Hdb. exact Hsh. }
  destruct (kv_retrieval prg dbg fe rnd fseed pseed kvs dim m es pb w sh tape rest qp i (nth i kvs kd0))
    as (qp' & q & bytes & resp & row & H1 & H2 & H3 & H4 & H5 & H6); auto.
  - now rewrite Lk.
  - now rewrite <- Ek.
  - apply nth_error_nth'. congruence.
  - now rewrite <- Ek, Ekey.
  - rewrite Ekey in *. exists qp', q, bytes, resp, row.
    split; auto. split; auto. split; auto. split; auto. split; auto.
    assert (Em : map (fun x => x mod 2 ^ Z.of_nat pb) (kv_value (nth i kvs kd0)) = map (chunk value pb) (seq 0 w)).
    { rewrite Hv, map_map. apply map_ext. intros c. apply Z.mod_small. apply chunk_range. }
    rewrite Em in H6. split; auto. intros Er Hes.
    destruct (row_entry_bytes dbg value pb es w) as (out & Ho & _ & Hol & Hob); auto.
    exists out. subst row. unfold kv_parse_resp_as_bytes, kv_parse_resp_as_base64. rewrite H4. cbn [bind].
    assert (Eqp' : qp_plaintext_bits qp' = pb /\ qp_elem_size qp' = es).
    { destruct (kv_run prg dbg fe rnd fseed pseed kvs dim m es pb w sh tape rest qp
              Hpb Hw H64 ltac:(now rewrite Lk) HF Hsh' Hqp key)
        as (g & _ & _ & _ & q' & _ & _ & _ & _ & _ & _ & _ & _ & Hq & _).
      rewrite H1 in Hq. injection Hq as -> _. cbn [set_used qp_plaintext_bits qp_elem_size].
      unfold generate_kv_query_params in Hqp.
      apply bind_Ok in Hqp as ([? ?] & _ & Hqp). apply bind_Ok in Hqp as ([? ?] & _ & Hqp).
      apply bind_Ok in Hqp as (? & _ & Hqp). injection Hqp as <- _. cbn [qp_plaintext_bits qp_elem_size].
      unfold kv_shard_of_db in Hsh. apply bind_Ok in Hsh as (p & Hp & [= <-]). cbn [ks_params].
      unfold kv_params_new in Hp. apply bind_Ok in Hp as (? & _ & Hp). apply bind_Ok in Hp as (? & _ & [= <-]).
      cbn [kp_plaintext_bits kp_elem_size].
      destruct (kv_db_inv dbg fe rnd fseed kvs m es pb db ltac:(lia) Hdb) as (? & ? & _ & _ & _ & ? & ? & _). auto. }
    destruct Eqp' as [-> ->]. unfold base64_from_u32_slice. rewrite Ho. cbn [bind]. auto.
Qed.

(** @C34 example: three pairs with two 10-bit entries each, noise of both signs; all hypotheses
    are met (the worst-case bound too) and the value of the second key comes back. *)
Example kv_retrieval_example : exists sh qp rest qp' q bytes resp,
  kv_shard_new ex_prg true (est 3 12) ex_rnd seed0 [] ex_kvs 2 3 19 10 = Ok sh /\
  is_ceil_div 19 10 2 /\ Forall (fun kv => length (kv_value kv) = 2%nat) ex_kvs /\
  sane_estimates (est 3 12) (length ex_kvs) /\
  Z.of_nat (kp_m (ks_params sh)) * (2 ^ 10 - 1) < 2 ^ (31 - 10) /\
  last_with_hash seed0 (map kv_key ex_kvs) 1 (key4 2) /\
  generate_kv_query_params (kv_common_params ex_prg (ks_params sh)) (ks_params sh) ex_tape = Ok (qp, rest) /\
  kv_generate_query true qp (key4 2) = (qp', Ok q) /\
  kv_shard_respond sh q = Ok bytes /\ bincode_de_vec_u32 bytes = Ok resp /\
  kv_parse_resp_as_row true qp' resp (key4 2) = Ok [5; 1023].
Proof.
  do 7 eexists. split; [vm_compute; reflexivity|].
  split; [split; [lia|intros; lia]|]. split; [repeat constructor|].
  split; [apply est_sane; lia|].
  split; [vm_compute; reflexivity|].
  split; [exact ex_last|].
  split; [vm_compute; reflexivity|]. split; [vm_compute; reflexivity|].
  split; [vm_compute; reflexivity|]. split; [vm_compute; reflexivity|]. vm_compute; reflexivity.
Qed.

(** ** C21 *)

Lemma nth_add3 D l a b c j :
  (a < b < c)%nat -> (c < length l)%nat ->
  nth j (add3 D l a b c) 0
  = if in_dec Nat.eq_dec j [a; b; c] then (nth j l 0 + D) mod two32 else nth j l 0.
Proof.
  intros Hab Hc. unfold add3.
  rewrite !nth_add_at by (rewrite ?add_at_length; lia).
  destruct (Nat.eqb_spec j c), (Nat.eqb_spec j b), (Nat.eqb_spec j a);
    destruct (in_dec Nat.eq_dec j [a; b; c]) as [I|I]; cbn [In] in I; try lia; auto.
Qed.

Lemma add3_u32 D l a b c : Forall is_u32 l -> Forall is_u32 (add3 D l a b c).
Proof. intros H. unfold add3. now repeat apply add_at_u32. Qed.
Lemma add3_length D l a b c : length (add3 D l a b c) = length l.
Proof. unfold add3. now rewrite !add_at_length. Qed.

Lemma u32_nth l j : Forall is_u32 l -> is_u32 (nth j l 0).
Proof.
  intros H. destruct (Nat.lt_ge_cases j (length l)) as [L|L].
  - rewrite Forall_forall in H. apply H. now apply nth_In.
  - rewrite nth_overflow by auto. split; [lia|reflexivity].
Qed.

Lemma add3_inv D l a b c :
  (a < b < c)%nat -> (c < length l)%nat -> Forall is_u32 l ->
  add3 (- D) (add3 D l a b c) a b c = l.
Proof.
  intros Hab Hc HF. apply (list_eq_nth _ _ 0); [now rewrite !add3_length|].
  intros j Hj. rewrite !nth_add3 by (rewrite ?add3_length; auto).
  destruct (in_dec Nat.eq_dec j [a; b; c]); auto.
  rewrite Zplus_mod_idemp_l. replace (nth j l 0 + D + - D) with (nth j l 0) by ring.
  apply Z.mod_small. apply (u32_nth l j HF).
Qed.

(** @C21 For every key (present or not) and every query vector there is exactly one masking
    vector that yields it, and every masking vector yields a query: the map from masks to
    queries is a bijection of the u32 vectors of the matrix height. So under a uniformly
    distributed mask the query has the same (uniform) distribution for every key. *)
Lemma kv_query_bijection : forall dbg dbg' fe n g seed mk pb key,
  sane_estimates fe n -> geometry dbg fe n = Ok g -> (1 <= pb <= 31)%nat ->
  (forall lhs : list Z, qp_lhs (mk lhs) = lhs /\ qp_used (mk lhs) = false /\
     qp_plaintext_bits (mk lhs) = pb /\
     qp_extra (mk lhs) = Some {| fp_seed := seed; fp_segment_length := g_seglen g;
                                 fp_segment_length_mask := g_mask g; fp_segment_count_length := g_scl g |}) ->
  (forall lhs, Forall is_u32 lhs -> length lhs = g_arrlen g ->
     exists q, snd (kv_generate_query dbg' (mk lhs) key) = Ok q /\ Forall is_u32 q /\ length q = g_arrlen g) /\
  (forall q, Forall is_u32 q -> length q = g_arrlen g ->
     exists! lhs, (Forall is_u32 lhs /\ length lhs = g_arrlen g) /\
       snd (kv_generate_query dbg' (mk lhs) key) = Ok q).
Proof.
  intros dbg dbg' fe n g seed mk pb key Hsane Hg Hpb Hmk.
  destruct (three_slots dbg dbg' fe n g key seed Hsane Hg) as (a & b & c & Hev & Hab & Hc & _).
  assert (Q : forall lhs, length lhs = g_arrlen g ->
     snd (kv_generate_query dbg' (mk lhs) key) = Ok (add3 (delta pb) lhs a b c)).
  { intros lhs Hl. destruct (Hmk lhs) as (E1 & E2 & E3 & E4).
    rewrite (kv_query_closed dbg' (mk lhs) (fp_of seed g) key a b c); auto; rewrite ?E1, ?E3; auto; try lia. }
  split.
  - intros lhs HF Hl. exists (add3 (delta pb) lhs a b c). split; [now apply Q|].
    split; [now apply add3_u32|]. now rewrite add3_length.
  - intros q HF Hl. exists (add3 (- delta pb) q a b c). split.
    + split; [split; [now apply add3_u32|now rewrite add3_length]|].
      rewrite Q by now rewrite add3_length. f_equal.
      replace (delta pb) with (- - delta pb) at 1 by ring. apply add3_inv; auto. lia.
    + intros lhs ((HF' & Hl') & Eq). rewrite Q in Eq by auto. injection Eq as <-.
      apply add3_inv; auto. lia.
Qed.

(** @C21 example: the same query vector from two different keys, each with its own mask. *)
Example kv_query_bijection_example :
  let fp := {| fp_seed := seed0; fp_segment_length := 8; fp_segment_length_mask := 7; fp_segment_count_length := 8 |} in
  let mk lhs := {| qp_lhs := lhs; qp_rhs := []; qp_elem_size := 20; qp_plaintext_bits := 10;
                   qp_extra := Some fp; qp_used := false |} in
  geometry true (est 3 12) 3 = Ok {| g_seglen := 8; g_mask := 7; g_scl := 8; g_segcount := 1; g_arrlen := 24 |} /\
  sane_estimates (est 3 12) 3 /\
  exists m1 m2 q, m1 <> m2 /\ Forall is_u32 m1 /\ Forall is_u32 m2 /\ length m1 = 24%nat /\ length m2 = 24%nat /\
    snd (kv_generate_query true (mk m1) (key4 7)) = Ok q /\
    snd (kv_generate_query true (mk m2) (key4 1)) = Ok q.
Proof.
  cbv zeta. split; [reflexivity|]. split; [apply est_sane; lia|].
  set (q := map Z.of_nat (seq 0 24)).
  assert (HF : Forall is_u32 q) by (repeat constructor; unfold two32; lia).
  exists (add3 (- 2 ^ 22) q 6 14 22), (add3 (- 2 ^ 22) q 3 15 22), q.
  split; [vm_compute; discriminate|]. split; [now apply add3_u32|]. split; [now apply add3_u32|].
  split; [reflexivity|]. split; [reflexivity|]. split; vm_compute; reflexivity.
Qed.

(** ** C22 *)

(** @C22 Key-value: two queries from the same mask differ by plus or minus delta exactly at the
    slots of one key that are not slots of the other; they are equal iff the two keys have
    the same slots. *)
Lemma kv_mask_reuse_reveals_slots : forall dbg dbg' fe n g seed qp k1 k2 q1 q2 slots,
  sane_estimates fe n -> geometry dbg fe n = Ok g ->
  (1 <= qp_plaintext_bits qp <= 31)%nat -> length (qp_lhs qp) = g_arrlen g -> Forall is_u32 (qp_lhs qp) ->
  qp_extra qp = Some {| fp_seed := seed; fp_segment_length := g_seglen g;
                        fp_segment_length_mask := g_mask g; fp_segment_count_length := g_scl g |} ->
  evaluates dbg' seed (g_seglen g) (g_mask g) (g_scl g) slots ->
  snd (kv_generate_query dbg' (set_used false qp) k1) = Ok q1 ->
  snd (kv_generate_query dbg' (set_used false qp) k2) = Ok q2 ->
  (q1 = q2 <-> slots k1 = slots k2) /\
  (forall j, (nth j q1 0 - nth j q2 0) mod 2 ^ 32 =
     2 ^ (32 - Z.of_nat (qp_plaintext_bits qp)) *
     ((if in_dec Nat.eq_dec j (slots k1) then 1 else 0) - (if in_dec Nat.eq_dec j (slots k2) then 1 else 0))
     mod 2 ^ 32).
Proof.
  intros dbg dbg' fe n g seed qp k1 k2 q1 q2 slots Hsane Hg Hpb Hl HF Hx Hev H1 H2.
  destruct (three_slots dbg dbg' fe n g k1 seed Hsane Hg) as (a1 & b1 & c1 & E1 & O1 & B1 & _).
  destruct (three_slots dbg dbg' fe n g k2 seed Hsane Hg) as (a2 & b2 & c2 & E2 & O2 & B2 & _).
  set (d := delta (qp_plaintext_bits qp)).
  assert (Q1 : q1 = add3 d (qp_lhs qp) a1 b1 c1).
  { rewrite (kv_query_closed dbg' (set_used false qp) (fp_of seed g) k1 a1 b1 c1) in H1;
      cbn [set_used qp_lhs qp_plaintext_bits qp_used qp_extra] in *; auto; try lia. cbn [snd] in H1. unfold d. congruence. }
  assert (Q2 : q2 = add3 d (qp_lhs qp) a2 b2 c2).
  { rewrite (kv_query_closed dbg' (set_used false qp) (fp_of seed g) k2 a2 b2 c2) in H2;
      cbn [set_used qp_lhs qp_plaintext_bits qp_used qp_extra] in *; auto; try lia. cbn [snd] in H2. unfold d. congruence. }
  assert (S1 : slots k1 = [a1; b1; c1]) by (specialize (Hev k1); congruence).
  assert (S2 : slots k2 = [a2; b2; c2]) by (specialize (Hev k2); congruence).
  rewrite S1, S2. fold (delta (qp_plaintext_bits qp)). fold d.
  assert (Hd : 0 < d < two32).
  { unfold d, delta. split; [apply Z.pow_pos_nonneg; lia|]. change two32 with (2 ^ 32).
    apply Z.pow_lt_mono_r; lia. }
  assert (DF : forall j, (nth j q1 0 - nth j q2 0) mod 2 ^ 32 =
     d * ((if in_dec Nat.eq_dec j [a1; b1; c1] then 1 else 0) - (if in_dec Nat.eq_dec j [a2; b2; c2] then 1 else 0))
     mod 2 ^ 32).
  { intros j. rewrite Q1, Q2, !nth_add3 by lia. change (2 ^ 32) with two32.
    destruct (in_dec Nat.eq_dec j [a1; b1; c1]), (in_dec Nat.eq_dec j [a2; b2; c2]).
    - rewrite Z.sub_diag. now rewrite Z.sub_diag, Z.mul_0_r.
    - rewrite Zminus_mod_idemp_l. f_equal. ring.
    - rewrite Zminus_mod_idemp_r. f_equal. ring.
    - rewrite Z.sub_diag. now rewrite Z.sub_diag, Z.mul_0_r. }
  split; [|exact DF]. split.
  - intros E.
    assert (I : forall j, In j [a1; b1; c1] <-> In j [a2; b2; c2]).
    { intros j. specialize (DF j). rewrite E, Z.sub_diag, Z.mod_0_l in DF by discriminate.
      change (2 ^ 32) with two32 in DF.
      destruct (in_dec Nat.eq_dec j [a1; b1; c1]), (in_dec Nat.eq_dec j [a2; b2; c2]); try tauto; exfalso.
      - rewrite Z.sub_0_r, Z.mul_1_r, Z.mod_small in DF by lia. lia.
      - replace (d * (0 - 1)) with (two32 - d + (-1) * two32) in DF by ring.
        rewrite Z.mod_add, Z.mod_small in DF by (discriminate || lia). lia. }
    cbn [In] in I.
    assert (a1 = a2) by (pose proof (proj1 (I a1)); pose proof (proj2 (I a2)); lia).
    assert (c1 = c2) by (pose proof (proj1 (I c1)); pose proof (proj2 (I c2)); lia).
    assert (b1 = b2) by (pose proof (proj1 (I b1)); lia).
    congruence.
  - intros E. injection E as -> -> ->. congruence.
Qed.

(** ** C23 *)

(** @C23 Key-value: a query of the matrix height is answered with one word per column, the
    inner product of query and column mod 2^32, correctly serialized; a query of any other
    length makes the server panic. *)
Lemma kv_respond_shape : forall prg dbg fe rnd fseed pseed kvs dim m es pb w sh q,
  (1 <= pb <= 31)%nat -> is_ceil_div es pb w -> Z.of_nat es < 2 ^ 64 ->
  sane_estimates fe (length kvs) ->
  Forall (fun kv => length (kv_value kv) = w) kvs ->
  kv_shard_new prg dbg fe rnd fseed pseed kvs dim m es pb = Ok sh ->
  (length q = kp_m (ks_params sh) ->
   exists bytes v, kv_shard_respond sh q = Ok bytes /\ bincode_de_vec_u32 bytes = Ok v /\
      length v = w /\ length bytes = (8 + 4 * w)%nat /\
      forall c, (c < w)%nat -> nth c v 0 = dot q (nth c (kd_entries (ks_db sh)) []) mod 2 ^ 32) /\
  (length q <> kp_m (ks_params sh) -> kv_shard_respond sh q = Panic).
Proof.
  intros prg dbg fe rnd fseed pseed kvs dim m es pb w sh q Hpb Hw H64 Hsane HF Hsh.
  unfold kv_shard_new in Hsh. apply bind_Ok in Hsh as (db & Hdb & Hsh).
  destruct (kv_db_inv dbg fe rnd fseed kvs m es pb db ltac:(lia) Hdb)
    as (kv0 & g & H0 & Hg & Em & Ees & Epb & Hfp & Hs & HW & _ & HC).
  assert (HW' : length (kv_value kv0) = w).
  { rewrite Forall_forall in HF. apply HF. eapply nth_error_In; eauto. }
  rewrite HW' in *. destruct (geometry_valid _ _ _ _ Hsane Hg) as [Vg _].
  pose proof (ceil_div_le es pb w ltac:(lia) Hw) as Hwe.
  rewrite <- Ees, <- Epb in Hw.
  rewrite (kv_shard_of_db_ok prg pseed db dim w (g_arrlen g) w) in Hsh; auto; [|lia|now apply geom_pos].
  injection Hsh as <-. cbn [ks_params kp_m kv_params_of]. split; intros Hq.
  - rewrite (kv_respond_closed _ _ w (g_arrlen g) w); cbn [ks_db]; auto; [|lia].
    do 2 eexists. split; [reflexivity|].
    assert (Hrl : length (map (fun c => dot q (nth c (kd_entries db) []) mod two32) (seq 0 w)) = w)
      by now rewrite map_length, seq_length.
    split.
    { rewrite <- app_nil_r at 1. apply bincode_roundtrip; [apply words_u32|rewrite Hrl; unfold two64; lia]. }
    split; [exact Hrl|]. split; [rewrite bincode_ser_length; lia|].
    intros c Hc. now rewrite nth_map_seq.
  - apply (kv_respond_bad _ q w (g_arrlen g) w); cbn [ks_db]; auto; lia.
Qed.

(** @C23 *)
Example kv_respond_example : exists sh,
  kv_shard_new ex_prg true (est 3 12) ex_rnd seed0 [] ex_kvs 2 3 19 10 = Ok sh /\
  kp_m (ks_params sh) = 24%nat /\
  (exists b, kv_shard_respond sh (repeat 1 24) = Ok b /\ length b = 16%nat) /\
  kv_shard_respond sh (repeat 1 23) = Panic.
Proof.
  eexists. split; [vm_compute; reflexivity|]. split; [vm_compute; reflexivity|].
  split; [eexists; split; [vm_compute; reflexivity|reflexivity]|]. vm_compute; reflexivity.
Qed.

(** ** C24 *)

(** @C24 Key-value parsing: for every key, reads only the first row_width words, returns that
    many values below 2^plaintext_bits, panics exactly on shorter responses. *)
Lemma kv_parse_total : forall dbg qp fp key pb w,
  qp_plaintext_bits qp = pb -> (1 <= pb <= 31)%nat -> qp_extra qp = Some fp ->
  is_ceil_div (qp_elem_size qp) pb w -> (w <= length (qp_rhs qp))%nat ->
  (forall resp, (w <= length resp)%nat ->
     exists row, kv_parse_resp_as_row dbg qp resp key = Ok row /\ length row = w /\
       Forall (fun x => 0 <= x < 2 ^ Z.of_nat pb) row /\
       forall resp', (w <= length resp')%nat -> firstn w resp' = firstn w resp ->
         kv_parse_resp_as_row dbg qp resp' key = Ok row) /\
  (forall resp, kv_parse_resp_as_row dbg qp resp key = Panic <-> (length resp < w)%nat).
Proof.
  intros dbg qp fp key pb w <- Hpb Hx Hw Hr. split.
  - intros resp Hl. eexists. split; [apply (kv_parse_closed dbg qp fp resp key w); auto|].
    split; [now rewrite map_length, seq_length|]. split.
    + apply Forall_map, Forall_forall. intros i _. apply Z.mod_pos_bound. pose proof (psize_pos (qp_plaintext_bits qp)). lia.
    + intros resp' Hl' E. rewrite (kv_parse_closed dbg qp fp resp' key w) by auto. f_equal.
      apply map_ext_in. intros i Hi. apply in_seq in Hi. do 2 f_equal. f_equal.
      rewrite <- (nth_firstn' resp' w i 0), <- (nth_firstn' resp w i 0) by lia. now rewrite E.
  - intros resp. split.
    + intros H. destruct (Nat.lt_ge_cases (length resp) w) as [|L]; auto.
      rewrite (kv_parse_closed dbg qp fp resp key w) in H by auto. discriminate.
    + now apply (kv_parse_short dbg qp fp).
Qed.

(** @C24 Index query params given to the key-value parser (no filter parameters): an error. *)
Lemma kv_parse_needs_filter_params : forall dbg qp resp key,
  (1 <= qp_plaintext_bits qp <= 31)%nat -> qp_extra qp = None ->
  kv_parse_resp_as_row dbg qp resp key = Err ENoFilterParams.
Proof.
  intros dbg qp resp key Hpb Hx. unfold kv_parse_resp_as_row.
  rewrite get_rounding_factor_ok, get_rounding_floor_ok, get_plaintext_size_ok by lia. now rewrite Hx.
Qed.

(** ** C36 *)

(** @C36 refuted, for every database: whatever the key, inserted or not, the query succeeds, the
    server answers and the client returns a full row of values below 2^plaintext_bits; no
    error is possible. *)
Lemma kv_every_key_answered : forall prg dbg fe rnd fseed pseed kvs dim m es pb w sh tape rest qp,
  (1 <= pb <= 31)%nat -> is_ceil_div es pb w -> Z.of_nat es < 2 ^ 64 ->
  sane_estimates fe (length kvs) ->
  Forall (fun kv => length (kv_value kv) = w) kvs ->
  kv_shard_new prg dbg fe rnd fseed pseed kvs dim m es pb = Ok sh ->
  generate_kv_query_params (kv_common_params prg (ks_params sh)) (ks_params sh) tape = Ok (qp, rest) ->
  forall key, exists qp' q bytes resp row,
    kv_generate_query dbg qp key = (qp', Ok q) /\
    kv_shard_respond sh q = Ok bytes /\ bincode_de_vec_u32 bytes = Ok resp /\
    kv_parse_resp_as_row dbg qp' resp key = Ok row /\ length row = w /\
    Forall (fun x => 0 <= x < 2 ^ Z.of_nat pb) row.
Proof.
  intros prg dbg fe rnd fseed pseed kvs dim m es pb w sh tape rest qp Hpb Hw H64 Hsane HF Hsh Hqp key.
  destruct (kv_run prg dbg fe rnd fseed pseed kvs dim m es pb w sh tape rest qp
              Hpb Hw H64 Hsane HF Hsh Hqp key)
    as (g & a & b & c & q & _ & _ & _ & _ & _ & _ & _ & _ & Hq & _ & bytes & resp & Hr & Hde & _ & Hp).
  exists (set_used true qp), q, bytes, resp. eexists. split; [exact Hq|]. split; [exact Hr|].
  split; [exact Hde|]. split; [exact Hp|]. split; [now rewrite map_length, seq_length|].
  apply Forall_map, Forall_forall. intros i _. apply Z.mod_pos_bound. pose proof (psize_pos pb). lia.
Qed.

(** @C36 refuted: a concrete absent key and the row a client gets for it. *)
Lemma absent_key_refuted : exists sh qp rest qp' q bytes resp row,
  kv_shard_new ex_prg true (est 3 12) ex_rnd seed0 [] ex_kvs 2 3 19 10 = Ok sh /\
  ~ In (key4 1000) (map kv_key ex_kvs) /\
  generate_kv_query_params (kv_common_params ex_prg (ks_params sh)) (ks_params sh) ex_tape = Ok (qp, rest) /\
  kv_generate_query true qp (key4 1000) = (qp', Ok q) /\
  kv_shard_respond sh q = Ok bytes /\ bincode_de_vec_u32 bytes = Ok resp /\
  kv_parse_resp_as_row true qp' resp (key4 1000) = Ok row /\ length row = 2%nat /\
  Forall (fun x => 0 < x < 1024) row.
Proof.
  do 8 eexists. split; [vm_compute; reflexivity|].
  split; [cbn; intuition discriminate|].
  split; [vm_compute; reflexivity|]. split; [vm_compute; reflexivity|].
  split; [vm_compute; reflexivity|]. split; [vm_compute; reflexivity|].
  split; [vm_compute; reflexivity|]. split; [reflexivity|]. repeat constructor; lia.
Qed.

(** ** C37 *)

(** @C37 refuted: no pairs at all, with either constructor: a panic, not an error. *)
Lemma kv_empty_panics : forall sha256 prg dbg fe rnd fseed pseed dim m es pb,
  kv_shard_new prg dbg fe rnd fseed pseed [] dim m es pb = Panic /\
  kv_shard_from_base64_strings sha256 prg dbg fe rnd fseed pseed [] [] dim m es pb = Panic.
Proof. intros. split; reflexivity. Qed.

Lemma kv_first_column_fails dbg fe rnd seed kvs m es pb kv0 e :
  (pb <= 31)%nat -> nth_error kvs 0 = Some kv0 -> (0 < length (kv_value kv0))%nat ->
  Forall (fun kv => (0 < length (kv_value kv))%nat) kvs ->
  from_slice dbg fe (rnd 0%nat) seed (map kv_key kvs) (map (fun kv => nth 0 (kv_value kv) 0) kvs) 0
    (2 ^ Z.of_nat pb) = e -> (forall f, e <> Ok f) -> e <> Hang ->
  kv_db_new dbg fe rnd seed kvs m es pb = Panic.
Proof.
  intros Hpb H0 HW HF E NO NH. unfold kv_db_new.
  apply idx_Ok in H0. rewrite H0. cbn [bind]. unfold from_kvs.
  rewrite (mapM_seq_panic _ _ 0); auto; [intros; lia|].
  rewrite (mapM_Ok _ (fun kv => nth 0 (kv_value kv) 0)).
  2:{ intros kv Hin. apply idx_nth. rewrite Forall_forall in HF. auto. }
  cbn [bind]. rewrite kv_ptxt_mod_ok by auto. cbn [bind]. change (Z.of_nat 0) with 0. rewrite E.
  destruct e as [f|er| |]; [exfalso; eapply NO; eauto|reflexivity|reflexivity|congruence].
Qed.

(** @C37 refuted, in general: whenever the keys (distinct hashes, at most 63 per slot) are not
    peelable, database construction panics in both build profiles. *)
Lemma kv_unpeelable_panics : forall dbg fe rnd seed kvs m es pb g slots kv0,
  (pb <= 31)%nat -> (dbg = true -> (8 <= pb)%nat) ->
  geometry dbg fe (length kvs) = Ok g -> sane_estimates fe (length kvs) ->
  evaluates dbg seed (g_seglen g) (g_mask g) (g_scl g) slots ->
  nth_error kvs 0 = Some kv0 -> Forall (fun kv => (0 < length (kv_value kv))%nat) kvs ->
  NoDup (map (fun kv => mix256 (kv_key kv) seed) kvs) ->
  (forall j, (load slots (map kv_key kvs) j <= 63)%nat) ->
  ~ peelable slots (map kv_key kvs) ->
  kv_db_new dbg fe rnd seed kvs m es pb = Panic.
Proof.
  intros dbg fe rnd seed kvs m es pb g slots kv0 Hpb Hd Hg Hsane Hev H0 HF ND Hl NP.
  apply (kv_first_column_fails dbg fe rnd seed kvs m es pb kv0 (Err EFilterFail)); auto; try discriminate.
  - rewrite Forall_forall in HF. apply HF. eapply nth_error_In; eauto.
  - unfold from_slice. rewrite !map_length, Nat.eqb_refl. cbn [negb].
    destruct (construct_iff_peelable MAX_ITER dbg fe (rnd 0%nat) seed (map kv_key kvs)
      (map (fun kv => nth 0 (kv_value kv) 0) kvs) (2 ^ Z.of_nat pb) 0 g slots) as [[P _]|[_ E]];
      rewrite ?map_length; auto.
    + apply Z.pow_pos_nonneg; lia.
    + change (2 ^ 32) with two32. pose proof (pow_pb_bounds pb Hpb). rewrite Z.mod_small by (unfold two32; lia). lia.
    + intros D. specialize (Hd D). change 256 with (2 ^ 8). apply Z.pow_le_mono_r; lia.
    + intros F. assert (X : exists k, MAX_ITER = S k) by (exists (Z.to_nat 99999); reflexivity). destruct X; congruence.
    + now rewrite map_map.
    + contradiction.
Qed.

(** @C37 refuted: a concrete pair of distinct keys for which construction panics. *)
Lemma kv_failure_is_error_refuted : forall prg dbg rnd pseed dim m,
  let kvs := [ {| kv_key := key4 7; kv_value := [1; 2] |}; {| kv_key := key4 10; kv_value := [3; 4] |} ] in
  kv_shard_new prg dbg (est 2 12) rnd seed0 pseed kvs dim m 20 10 = Panic.
Proof.
  intros prg dbg rnd pseed dim m kvs. unfold kv_shard_new.
  rewrite (kv_first_column_fails dbg (est 2 12) rnd seed0 kvs m 20 10
             {| kv_key := key4 7; kv_value := [1; 2] |} (Err EFilterFail)); auto; try discriminate; try lia.
  - cbn. lia.
  - repeat constructor.
  - unfold from_slice. cbn [map kvs length Nat.eqb negb].
    apply (hopeless_pair_refuted MAX_ITER (rnd 0%nat) _ _ 0 dbg); auto; try reflexivity; discriminate.
Qed.

(** @C37 refuted: in a debug build fewer than 8 plaintext bits always panic (the filter asserts
    a modulus of at least 256), even for one pair; a release build accepts them. *)
Lemma kv_small_modulus_panics : forall fe rnd seed kvs m es pb kv0,
  (pb < 8)%nat -> nth_error kvs 0 = Some kv0 ->
  kv_db_new true fe rnd seed kvs m es pb = Panic.
Proof.
  intros fe rnd seed kvs m es pb kv0 Hpb H0.
  destruct (mapM (fun kv => idx (kv_value kv) 0) kvs) as [col|e| |] eqn:Ec.
  - destruct (length (kv_value kv0)) as [|W] eqn:EW.
    + unfold kv_db_new. apply idx_Ok in H0. rewrite H0. cbn [bind]. rewrite EW. reflexivity.
    + apply (kv_first_column_fails true fe rnd seed kvs m es pb kv0 Panic); auto; try discriminate; try lia.
      * apply mapM_Ok_inv in Ec. clear - Ec.
        induction Ec as [|kv x kvs' xs E _ IH]; constructor; auto. apply idx_lt in E. lia.
      * unfold from_slice. rewrite !map_length, Nat.eqb_refl. cbn [negb]. unfold bfusep_from_impl.
        cbn [andb]. destruct (negb _); [reflexivity|].
        assert (2 ^ Z.of_nat pb < 2 ^ 8) by (apply Z.pow_lt_mono_r; lia).
        destruct (Z.ltb_spec (2 ^ Z.of_nat pb) 256); [reflexivity|lia].
  - exfalso. clear - Ec. induction kvs as [|kv kvs IH]; cbn [mapM] in Ec; [discriminate|].
    unfold idx in Ec at 1. destruct (nth_error (kv_value kv) 0); cbn [bind] in Ec; [|discriminate].
    destruct (mapM _ kvs) eqn:E; cbn [bind] in Ec; try discriminate. apply IH. congruence.
  - unfold kv_db_new. apply idx_Ok in H0. rewrite H0. cbn [bind]. unfold from_kvs.
    destruct (length (kv_value kv0)) as [|W] eqn:EW; [reflexivity|].
    rewrite (mapM_seq_panic _ (S W) 0); auto; [lia|intros; lia|]. now rewrite Ec.
  - exfalso. clear - Ec. induction kvs as [|kv kvs IH]; cbn [mapM] in Ec; [discriminate|].
    unfold idx in Ec at 1. destruct (nth_error (kv_value kv) 0); cbn [bind] in Ec; [|discriminate].
    destruct (mapM _ kvs) eqn:E; cbn [bind] in Ec; try discriminate. apply IH. congruence.
Qed.

(** @C37 example: the hypotheses of the general theorem are met by that pair. *)
Example kv_unpeelable_example :
  let kvs := [ {| kv_key := key4 7; kv_value := [1; 2] |}; {| kv_key := key4 10; kv_value := [3; 4] |} ] in
  exists g slots, geometry true (est 2 12) (length kvs) = Ok g /\
    evaluates true seed0 (g_seglen g) (g_mask g) (g_scl g) slots /\
    NoDup (map (fun kv => mix256 (kv_key kv) seed0) kvs) /\
    (forall j, (load slots (map kv_key kvs) j <= 63)%nat) /\ ~ peelable slots (map kv_key kvs).
Proof.
  cbv zeta.
  set (g := {| g_seglen := 4; g_mask := 3; g_scl := 4; g_segcount := 1; g_arrlen := 12 |}).
  assert (Hg : geometry true (est 2 12) 2 = Ok g) by reflexivity.
  assert (Hs : sane_estimates (est 2 12) 2) by (apply est_sane; lia).
  destruct (slots_exist true true (est 2 12) 2 g seed0 Hs Hg) as (slots & Hev).
  assert (ND : NoDup (map (fun k => mix256 k seed0) [key4 7; key4 10])).
  { constructor; [|repeat constructor; auto]. cbn [In map]. intros [E|[]].
    assert (B : (mix256 (key4 10) seed0 =? mix256 (key4 7) seed0) = false) by (vm_compute; reflexivity).
    now apply Z.eqb_neq in B. }
  assert (L : forall j, (load slots [key4 7; key4 10] j <= 63)%nat).
  { intros j. unfold load. cbn [filter].
    destruct (in_dec Nat.eq_dec j (slots (key4 7))), (in_dec Nat.eq_dec j (slots (key4 10))); cbn [length]; lia. }
  exists g, slots. split; [exact Hg|]. split; [exact Hev|]. split; [exact ND|]. split; [exact L|].
  intros P.
  assert (M : 1024 mod 2 ^ 32 <> 0) by (vm_compute; discriminate).
  assert (GE : true = true -> 256 <= 1024) by (intros; lia).
  pose proof (hopeless_pair_refuted 1 rnd0 [1; 3] 1024 0 true eq_refl ltac:(lia) M GE) as [_ E'].
  assert (LE : (length [key4 7; key4 10] <= length [1; 3])%nat) by (cbn [length]; lia).
  destruct (construct_iff_peelable 1 true (est 2 12) rnd0 seed0 [key4 7; key4 10] [1; 3] 1024 0 g slots
              Hg Hs Hev LE ltac:(lia) M GE ltac:(lia) ND L) as [[_ (f & E)]|[N _]].
  - rewrite E in E'. discriminate E'.
  - apply N. exact P.
Qed.

(** ** C38 *)

(** @C38 Key-value: different numbers of keys and values: an error, whatever the strings. *)
Lemma kv_count_mismatch : forall sha256 prg dbg fe rnd fseed pseed keys values dim m es pb,
  length keys <> length values ->
  kv_shard_from_base64_strings sha256 prg dbg fe rnd fseed pseed keys values dim m es pb = Err EKeyValueCount.
Proof.
  intros. unfold kv_shard_from_base64_strings, kv_db_from_base64_strings.
  destruct (Nat.eqb_spec (length keys) (length values)); [contradiction|reflexivity].
Qed.

(** @C38 Key-value: if some value cannot be decoded, construction returns an error (provided
    the decodable ones are long enough to be cut into row_width chunks). *)
Lemma kv_undecodable_gives_error :
  forall sha256 prg dbg fe rnd fseed pseed keys values dim m es pb w k,
  (1 <= pb <= 32)%nat -> is_ceil_div es pb w -> length keys = length values -> (k < length values)%nat ->
  (forall s, length (sha256 s) = 32%nat) ->
  (forall i b, (i < length values)%nat -> b64_decode (nth i values []) = Ok b ->
     (w * pb <= 8 * length b + pb)%nat) ->
  (forall b, b64_decode (nth k values []) <> Ok b) ->
  kv_shard_from_base64_strings sha256 prg dbg fe rnd fseed pseed keys values dim m es pb = Err EConstructKV.
Proof.
  intros sha prg dbg fe rnd fseed pseed keys values dim m es pb w k Hpb Hw EL Hk Hsha Hlen Hbad.
  unfold kv_shard_from_base64_strings, kv_db_from_base64_strings.
  destruct (Nat.eqb_spec (length keys) (length values)) as [_|]; [|contradiction]. cbn [negb].
  set (f := fun i => let* k := idx keys i in let* v := idx values i in kv_from_base64_strings sha dbg k v es pb).
  assert (C : forall i, (i < length values)%nat ->
     (exists kv, f i = Ok kv /\ exists b, b64_decode (nth i values []) = Ok b) \/
     (f i = Err EBase64 /\ forall b, b64_decode (nth i values []) <> Ok b)).
  { intros i Hi. unfold f. rewrite (idx_nth keys i []), (idx_nth values i []) by lia. cbn [bind].
    unfold kv_from_base64_strings, sha256_into_u64_sized. rewrite Hsha. cbn [Nat.eqb negb bind].
    unfold kv_construct_row. destruct (get_row_width_pos es pb) as (w' & E & Hw'); [lia|]. rewrite E.
    rewrite (is_ceil_div_unique _ _ _ _ Hw' Hw). cbn [bind].
    destruct (b64_decode_cases (nth i values [])) as [(b & Eb)|Eb]; rewrite Eb; cbn [bind].
    - left. rewrite chunk_row_closed by (rewrite ?bytes_to_bits_length; auto; eapply Hlen; eauto).
      cbn [bind]. eauto.
    - right. split; [reflexivity|discriminate]. }
  destruct (map_all_total f (seq 0 (length keys))) as (rs & Ers).
  { intros i Hi. apply in_seq in Hi. destruct (C i) as [(kv & E & _)|[E _]]; [lia| |]; eauto. }
  rewrite Ers. cbn [bind].
  assert (IE : exists e, In (inl e) rs).
  { apply map_all_inv in Ers. pose proof (Forall2_len _ _ _ Ers) as L. rewrite seq_length in L.
    apply (Forall2_nth _ _ _ 0%nat (inl EIo)) in Ers as [_ Ers].
    specialize (Ers k ltac:(rewrite seq_length; lia)). rewrite seq_nth in Ers by lia. cbn [Nat.add] in Ers.
    destruct (C k Hk) as [(kv & _ & b & Eb)|[E _]]; [exfalso; eapply Hbad; eauto|].
    rewrite E in Ers. destruct (nth k rs (inl EIo)) as [e|] eqn:En; [|discriminate].
    exists e. rewrite <- En. apply nth_In. lia. }
  destruct IE as (e & He). destruct (collect_err rs e He) as (e' & ->). reflexivity.
Qed.

(** @C38 example: both error cases. *)
Example kv_validation_example :
  let sha := fun _ : list Z => repeat 1 32 in
  kv_shard_from_base64_strings sha ex_prg true (est 2 0) ex_rnd seed0 [] [[107]] [] 2 1 16 10 = Err EKeyValueCount /\
  kv_shard_from_base64_strings sha ex_prg true (est 2 0) ex_rnd seed0 [] [[107]; [108]] [b64_encode [1; 2]; [33]]
    2 2 16 10 = Err EConstructKV.
Proof. split; vm_compute; reflexivity. Qed.
