(** C68: the benchmark program behind [make bench]. *)
From Verif Require Import Base Spec Fmt Base64 Bincode Mat Lwe Bfusep Db Api SpecFilter Cli SpecCli Bench Base_facts Fmt_facts Codec_facts Mat_facts Index_facts IndexProto_facts Geom_facts FilterTop_facts KV_facts Claims_format Claims_filter Claims_index Claims_kv Claims_cli Claims_prob.
Local Open Scope Z_scope.

Definition os_bytes (bytes : nat -> nat -> list Z) : Prop :=
  forall i n, length (bytes i n) = n /\ Forall is_u8 (bytes i n).

Lemma iter_n_ok {S} k (body : nat -> S -> res S) s :
  (forall i, (i < k)%nat -> body i s = Ok s) -> iter_n k body s = Ok s.
Proof. induction k as [|k IH]; intros H; [reflexivity|]. cbn [iter_n]. rewrite IH by (intros; apply H; lia). cbn [bind]. apply H. lia. Qed.
Lemma iter_n_unit_iff k (body : nat -> unit -> res unit) :
  iter_n k body tt = Ok tt <-> forall i, (i < k)%nat -> body i tt = Ok tt.
Proof.
  split.
  - induction k as [|k IH]; intros H i Hi; [lia|]. cbn [iter_n] in H. apply bind_Ok in H as ([] & H1 & H2).
    destruct (Nat.eq_dec i k) as [->|]; [exact H2|]. apply IH; [exact H1|lia].
  - intros H. now apply iter_n_ok.
Qed.
Lemma drop_unwrap_iff {A} (r : res A) : drop_unwrap r = Ok tt <-> exists a, r = Ok a.
Proof.
  unfold drop_unwrap. destruct r as [a| | |]; cbn [unwrap bind]; split; intros H; eauto; try discriminate; destruct H as [? H]; discriminate.
Qed.

(** ** Index *)

Lemma eles_stored bytes m es pb w : os_bytes bytes -> (1 <= pb <= 32)%nat -> is_ceil_div es pb w ->
  stored (generate_db_eles bytes m ((es + 7) / 8)) m pb w (map (fun i => bytes i ((es + 7) / 8)%nat) (seq 0 m)).
Proof.
  intros Hb Hpb Hw. unfold generate_db_eles. split; [now rewrite map_length, seq_length|].
  split; [now rewrite map_length, seq_length|]. intros i Hi. rewrite !nth_map_seq by exact Hi.
  destruct (Hb i ((es + 7) / 8)%nat) as [L B]. split; [now apply b64_roundtrip|]. rewrite L.
  assert (X : (es <= 8 * ((es + 7) / 8))%nat).
  { pose proof (Nat.div_mod (es + 7) 8 ltac:(lia)) as D. pose proof (Nat.mod_upper_bound (es + 7) 8 ltac:(lia)) as U.
    revert D U. generalize ((es + 7) / 8)%nat ((es + 7) mod 8)%nat. clear. intros; lia. }
  revert X. generalize (8 * ((es + 7) / 8))%nat. intros y X.
  destruct (Nat.eq_dec w 0) as [->|]; [cbn; lia|].
  assert (~ (es <= (w - 1) * pb)%nat) as N by (intros Y; apply (proj2 Hw) in Y; lia).
  replace (w * pb)%nat with ((w - 1) * pb + pb)%nat by nia. clear - N X. lia.
Qed.

(** @C68 Index benchmark: its shard and its first query parameters always exist. With at most
    ten rows it panics; with more, it completes if the masked word of row 10 leaves room for
    delta, and panics otherwise: whatever the elements, the public matrix, the number of
    iterations of each measurement and the randomness of the later steps. *)
Lemma index_bench_outcome : forall prg dbg seed seeds bytes tape tapes k m dim es pb offline,
  os_bytes bytes -> (1 <= pb <= 31)%nat -> (0 < m)%nat -> Z.of_nat es + 7 < 2 ^ 64 ->
  (dim + m <= length (draws tape))%nat ->
  (forall i, (i < k 0)%nat -> (dim + m <= length (draws (tapes i)))%nat) ->
  exists sh qp rest,
    shard_from_base64_strings prg dbg seed (generate_db_eles bytes m ((es + 7) / 8)) dim m es pb = Ok sh /\
    generate_index_query_params (index_common_params prg (sh_params sh)) (sh_params sh) tape = Ok (qp, rest) /\
    length (qp_lhs qp) = m /\
    bench_index prg dbg seed seeds bytes tape tapes k m dim es pb offline =
    if (10 <? m)%nat then (if nth 10 (qp_lhs qp) 0 + 2 ^ (32 - Z.of_nat pb) <? 2 ^ 32 then Ok tt else Panic) else Panic.
Proof.
  intros prg dbg seed seeds bytes tape tapes k m dim es pb offline Hb Hpb Hm H64 Ht Hts.
  destruct (get_row_width_pos es pb) as (w & Ew & Hw); [clear - Hpb; lia|].
  pose proof (eles_stored bytes m es pb w Hb ltac:(clear - Hpb; lia) Hw) as Hst.
  set (strs := generate_db_eles bytes m ((es + 7) / 8)) in *.
  set (elems := map (fun i => bytes i ((es + 7) / 8)%nat) (seq 0 m)) in *.
  assert (Hl : length elems = m) by apply Hst.
  assert (Hsh : forall s, shard_from_base64_strings prg dbg s strs dim m es pb = Ok (shard_of prg s dim elems m es pb w)).
  { intros s. apply shard_ok; auto. clear - Hpb. lia. }
  destruct (gen_qp_ok prg seed dim elems m es pb w tape Ht) as [rest Hqp].
  set (qp := qp_of (pubmat prg seed dim m) dim elems m es pb w tape) in *.
  exists (shard_of prg seed dim elems m es pb w), qp, rest.
  split; [apply Hsh|]. split; [exact Hqp|].
  assert (Ll : length (qp_lhs qp) = m).
  { unfold qp, qp_of. cbn [qp_lhs]. rewrite masked_lhs_length. apply pubmat_shape. }
  split; [exact Ll|].
  unfold bench_index. fold strs. rewrite Hsh. cbn [unwrap bind].
  unfold bench_client_query. cbn [sh_db sh_params shard_of].
  unfold index_row_width_self at 1. cbn [id_elem_size id_plaintext_bits db_of]. rewrite Ew. cbn [bind].
  rewrite Hqp. cbn [unwrap bind].
  assert (Hq0 : forall q0, q0 = qp -> index_generate_query dbg q0 10 =
    (set_used true qp, if (10 <? m)%nat then if nth 10 (qp_lhs qp) 0 + 2 ^ (32 - Z.of_nat pb) <? 2 ^ 32
      then Ok (upd (qp_lhs qp) 10 ((nth 10 (qp_lhs qp) 0 + delta pb) mod two32)) else Err EOverflownAdd else Panic)).
  { intros q0 ->. rewrite (index_query_closed dbg qp 10 Hpb eq_refl), Ll. reflexivity. }
  rewrite (Hq0 qp eq_refl).
  destruct (10 <? m)%nat eqn:E10; [|reflexivity]. apply Nat.ltb_lt in E10.
  destruct (nth 10 (qp_lhs qp) 0 + 2 ^ (32 - Z.of_nat pb) <? 2 ^ 32) eqn:EO; [|reflexivity].
  set (q := upd (qp_lhs qp) 10 _). cbn [unwrap bind].
  assert (Lq : length q = m) by (unfold q; now rewrite length_upd).
  pose proof (shard_respond_ok prg seed dim elems m es pb w q ltac:(clear - Hpb; lia) Hw Hl Lq) as Hr.
  rewrite Hr. cbn [unwrap bind].
  rewrite (iter_n_ok (k 0%nat)).
  2:{ intros i Hi. destruct (gen_qp_ok prg seed dim elems m es pb w (tapes i) (Hts i Hi)) as [r0 ->]. reflexivity. }
  cbn [bind].
  rewrite (iter_n_ok (k 1%nat)).
  2:{ intros i Hi. rewrite Hq0; [|reflexivity]. cbn [unwrap bind]. reflexivity. }
  cbn [bind].
  rewrite (iter_n_ok (k 2%nat)) by (intros i Hi; reflexivity). cbn [bind].
  rewrite (iter_n_ok (k 3%nat)).
  2:{ intros i Hi. pose proof (ceil_div_le es pb w ltac:(clear - Hpb; lia) Hw) as Hwe.
      set (resp := map _ (seq 0 w)). assert (R : bincode_de_vec_u32 (bincode_ser_vec_u32 resp) = Ok resp).
      { rewrite <- (app_nil_r (bincode_ser_vec_u32 resp)). apply bincode_roundtrip.
        - unfold resp. apply Forall_map, Forall_forall. intros c _. apply Z.mod_pos_bound. reflexivity.
        - unfold resp. rewrite map_length, seq_length. unfold two64. clear - Hwe H64. lia. }
      rewrite R. cbn [unwrap bind]. unfold index_parse_resp_as_base64.
      rewrite (index_parse_closed dbg (set_used true qp) resp w).
      + cbn [bind]. unfold base64_from_u32_slice. rewrite bytes_from_u32_slice_closed by (cbn; clear - Hpb; lia).
        match goal with |- context[bits_to_bytes_le dbg ?l] => destruct (bits_to_bytes_roundtrip dbg l) as (out & -> & _) end.
        reflexivity.
      + exact Hpb.
      + exact Hw.
      + unfold qp, qp_of, rhs_of. cbn [qp_rhs set_used]. rewrite !map_length, seq_length. apply le_n.
      + unfold resp. rewrite map_length, seq_length. apply le_n. }
  cbn [bind]. destruct offline; [|reflexivity].
  unfold bench_db_generation, index_row_width_self, index_matrix_height.
  cbn [sh_db sh_params shard_of ip_dim params_of id_m db_of id_elem_size id_plaintext_bits].
  rewrite Ew. cbn [bind].
  apply iter_n_ok. intros i Hi. rewrite Hsh. reflexivity.
Qed.

(** @C68 Refuted: "the index benchmark completes for every accepted configuration": with
    PIR_NUMBER_OF_ELEMENTS_EXP at most 3 (at most 8 rows) it always panics, because it queries row
    10; the other settings are the Makefile's. *)
Lemma small_index_bench_panics_refuted : forall sha dbg fe env r k fl,
  os_bytes (br_bytes r) -> parse_from_env dbg env = Ok fl -> cf_keyword fl = false ->
  1 <= cf_plaintext_bits fl <= 31 -> 0 < cf_m fl <= 10 -> cf_elem_size fl + 7 < 2 ^ 64 ->
  (Z.to_nat (cf_lwe_dim fl) + Z.to_nat (cf_m fl) <= length (draws (br_tape r)))%nat ->
  bench_main sha dbg fe env r k = Panic.
Proof.
  intros sha dbg fe env r k fl Hb Hf Hk Hpb Hm He7 Ht. unfold bench_main. rewrite Hf. cbn [bind]. rewrite Hk.
  set (m := Z.to_nat (cf_m fl)). set (dim := Z.to_nat (cf_lwe_dim fl)). set (es := Z.to_nat (cf_elem_size fl)).
  set (pb := Z.to_nat (cf_plaintext_bits fl)).
  assert (Hpb' : (1 <= pb <= 31)%nat) by (unfold pb; clear - Hpb; lia).
  assert (Hm' : (0 < m <= 10)%nat) by (unfold m; clear - Hm; lia).
  assert (H64 : Z.of_nat es + 7 < 2 ^ 64).
  { unfold es. clear - He7. change (2 ^ 64) with 18446744073709551616 in *. lia. }
  destruct (index_bench_outcome (br_prg r) dbg (br_seed r) (br_seeds r) (br_bytes r) (br_tape r) (br_tapes r)
     (fun j => if Nat.eqb j 0 then 0%nat else k j) m dim es pb false Hb Hpb' ltac:(clear - Hm'; lia) H64 Ht ltac:(intros i Hi; cbn in Hi; lia))
    as (sh & qp & rest & Hsh & Hqp & Ll & _).
  unfold bench_index. rewrite Hsh. cbn [unwrap bind]. unfold bench_client_query.
  assert (P : (10 <? length (qp_lhs qp))%nat = false) by (rewrite Ll; apply Nat.ltb_ge; clear - Hm'; lia).
  destruct (get_row_width_pos es pb) as (w & Ew & Hw); [clear - Hpb'; lia|].
  assert (Hpb32 : (1 <= pb <= 32)%nat) by (clear - Hpb'; lia).
  destruct (shard_inv _ _ _ _ _ _ _ _ w _ Hpb32 Hw Hsh) as (_ & elems & _ & ->).
  unfold index_row_width_self at 1. cbn [sh_db shard_of id_elem_size id_plaintext_bits db_of]. rewrite Ew. cbn [bind].
  cbn [sh_params shard_of] in Hqp |- *. rewrite Hqp. cbn [unwrap bind].
  assert (Q : qp_used qp = false /\ qp_plaintext_bits qp = pb).
  { apply gen_qp_inv in Hqp as [_ ->]. split; reflexivity. }
  rewrite (index_query_closed dbg qp 10); [|rewrite (proj2 Q); exact Hpb'|apply Q].
  rewrite P. reflexivity.
Qed.

(** @C68 Refuted: nor does it complete for every randomness when there are enough rows: two runs
    with the same 16 rows, one that completes and one that panics. *)
Lemma index_bench_randomness_refuted :
  exists seed seeds bytes tape tapes k, os_bytes bytes /\
    (forall dbg offline, bench_index (fun _ _ => 7) dbg seed seeds bytes tape tapes k 16 1 16 10 offline = Ok tt) /\
    (forall dbg offline, bench_index (fun _ _ => 4294967290) dbg seed seeds bytes tape tapes k 16 1 16 10 offline = Panic).
Proof.
  exists [], (fun _ => []), (fun _ n => repeat 1 n), (2000000000 :: repeat 0 16), (fun _ => 2000000000 :: repeat 0 16), (fun _ => 2%nat).
  split.
  - intros i n. split; [apply repeat_length|]. apply Forall_forall. intros x Hx. apply repeat_spec in Hx. subst x. unfold is_u8, two8. lia.
  - split; intros [] []; vm_compute; reflexivity.
Qed.

(** ** Keyword *)

Lemma kv_m_irrelevant sha prg dbg fe rnd fseed pseed keys values dim m m' es pb sh :
  kv_shard_from_base64_strings sha prg dbg fe rnd fseed pseed keys values dim m es pb = Ok sh ->
  exists sh', kv_shard_from_base64_strings sha prg dbg fe rnd fseed pseed keys values dim m' es pb = Ok sh'.
Proof.
  intros H. unfold kv_shard_from_base64_strings, kv_db_from_base64_strings in *.
  destruct (negb _); [discriminate|]. apply bind_Ok in H as (db & Hdb & H).
  apply bind_Ok in Hdb as (rs & -> & Hdb). cbn [bind]. destruct (collect_results rs) as [kvs| | |]; try discriminate.
  unfold kv_db_new in *. apply bind_Ok in Hdb as (kv0 & -> & Hdb). apply bind_Ok in Hdb as ([fs fp] & Hf & Hdb).
  apply bind_Ok in Hdb as (en & He & Hdb).
  cbn [bind]. rewrite Hf. cbn [bind]. rewrite He. cbn [bind]. injection Hdb as <-.
  unfold kv_shard_of_db in *. apply bind_Ok in H as (p & Hp & H).
  unfold kv_params_new, kv_matrix_height, kv_row_width_self, kv_vec_mult in *.
  cbn [kd_entries kd_elem_size kd_plaintext_bits kd_filter_params kd_m] in *.
  apply bind_Ok in Hp as (rhs & Hrhs & Hp). apply bind_Ok in Hp as (h & Hh & Hp).
  eexists. rewrite Hrhs. cbn [bind]. rewrite Hh. cbn [bind]. reflexivity.
Qed.

Lemma kv_generate_fresh dbg qp key q' q :
  kv_generate_query dbg qp key = (q', Ok q) -> qp_used qp = false.
Proof. unfold kv_generate_query. destruct (qp_used qp); [|reflexivity]. intros H. apply (f_equal snd) in H. discriminate H. Qed.

(** @C68 Keyword benchmark: it completes exactly when its shard and, with the offline part, each
    rebuild of it can be built (C63 says when that is); once a shard exists no step of the
    measured client and server runs can fail, whatever the randomness. The filter height that
    the program passes on as the number of elements makes no difference. *)
Lemma kv_bench_outcome : forall sha prg dbg fe rnd fseed pseed rnds fseeds pseeds kbytes bytes tape tapes k m dim es pb offline,
  (1 <= pb <= 31)%nat -> (0 < m)%nat -> Z.of_nat es + 7 < 2 ^ 64 -> sane_estimates fe m ->
  (forall g, geometry dbg fe m = Ok g -> (dim + g_arrlen g <= length (draws tape))%nat /\
     forall i, (i < k 0)%nat -> (dim + g_arrlen g <= length (draws (tapes i)))%nat) ->
  let eles := generate_kv_db_elems kbytes bytes m ((es + 7) / 8) in
  let build rnd fseed pseed := kv_shard_from_base64_strings sha prg dbg fe rnd fseed pseed (map fst eles) (map snd eles) dim m es pb in
  bench_kv sha prg dbg fe rnd fseed pseed rnds fseeds pseeds kbytes bytes tape tapes k m dim es pb offline = Ok tt <->
  (exists sh, build rnd fseed pseed = Ok sh) /\
  (offline = true -> forall i, (i < k 5)%nat -> exists sh, build (rnds i) (fseeds i) (pseeds i) = Ok sh).
Proof.
  intros sha prg dbg fe rnd fseed pseed rnds fseeds pseeds kbytes bytes tape tapes k m dim es pb offline Hpb Hm H64' Hsane Ht eles build.
  assert (H64 : Z.of_nat es < 2 ^ 64) by (clear - H64'; lia).
  assert (Hpb32 : (1 <= pb <= 32)%nat) by (clear - Hpb; lia).
  unfold bench_kv. fold eles. fold (build rnd fseed pseed).
  destruct (build rnd fseed pseed) as [sh| | |] eqn:Hb; cbn [unwrap bind];
    try (split; [discriminate|intros [[? X] _]; discriminate X]).
  assert (Le : length eles = m) by (unfold eles, generate_kv_db_elems; now rewrite map_length, seq_length).
  rewrite (idx_nth (map fst eles) 0 []), (idx_nth (map snd eles) 0 []) by (rewrite map_length, Le; exact Hm). cbn [bind].
  unfold build, kv_shard_from_base64_strings in Hb. apply bind_Ok in Hb as (db & Hdb & Hsh).
  destruct (kv_strings_inv _ _ _ _ _ _ _ _ _ _ _ Hdb) as (_ & kvs & Lk & Hnew & Hkv).
  rewrite map_length, Le in Lk, Hkv.
  destruct (get_row_width_pos es pb) as (w & Ew & Hw); [clear - Hpb; lia|].
  assert (HF : Forall (fun kv => length (kv_value kv) = w) kvs).
  { apply Forall_forall. intros kv Hin. apply (In_nth _ _ kd0) in Hin as (i & Hi & <-). rewrite Lk in Hi.
    destruct (kv_from_strings_inv _ _ _ _ _ _ w _ Hpb32 Hw (Hkv i Hi)) as (_ & b & _ & _ & ->).
    now rewrite map_length, seq_length. }
  assert (Hkn : kv_shard_new prg dbg fe rnd fseed pseed kvs dim m es pb = Ok sh).
  { unfold kv_shard_new. rewrite Hnew. exact Hsh. }
  rewrite <- Lk in Hsane.
  destruct (kv_db_inv dbg fe rnd fseed kvs m es pb db ltac:(clear - Hpb; lia) Hnew)
    as (kv0 & g & H0 & Hg & Em & Ees & Epb & Hfp & Hs & HW & _ & _).
  assert (HW' : length (kv_value kv0) = w).
  { rewrite Forall_forall in HF. apply HF. eapply nth_error_In; eauto. }
  rewrite HW' in *. destruct (geometry_valid _ _ _ _ Hsane Hg) as [Vg _].
  assert (Hw' : is_ceil_div (kd_elem_size db) (kd_plaintext_bits db) w) by (rewrite Ees, Epb; exact Hw).
  rewrite Lk in Hg. destruct (Ht g Hg) as [Ht0 Hts].
  assert (Hsh' := kv_shard_of_db_ok prg pseed db dim w (g_arrlen g) w ltac:(rewrite Epb; clear - Hpb; lia) Hw' Hs HW (geom_pos g Vg) (le_n w)).
  rewrite Hsh' in Hsh.
  assert (Esh : sh = {| ks_db := db; ks_params := kv_params_of prg pseed dim db (g_arrlen g) w |}) by congruence.
  assert (GQ : forall t, (dim + g_arrlen g <= length (draws t))%nat ->
    exists qp rest, generate_kv_query_params (kv_common_params prg (ks_params sh)) (ks_params sh) t = Ok (qp, rest)).
  { intros t Hd. rewrite Esh. cbn [ks_params]. apply kv_gen_qp_total. exact Hd. }
  destruct (GQ tape Ht0) as (qp & rest & Hqp).
  unfold bench_client_kv_query. cbn [fst snd].
  replace (kp_elem_size (ks_params sh)) with es by (rewrite Esh; cbn; now rewrite Ees).
  replace (kp_plaintext_bits (ks_params sh)) with pb by (rewrite Esh; cbn; now rewrite Epb).
  rewrite (Hkv 0%nat Hm). cbn [unwrap bind].
  set (key := kv_key (nth 0 kvs kd0)).
  assert (Erw : kv_row_width_self (ks_db sh) = Ok w) by (rewrite Esh; unfold kv_row_width_self; cbn [ks_db]; rewrite Ees, Epb; exact Ew).
  rewrite Erw. cbn [bind]. rewrite Hqp. cbn [unwrap bind].
  destruct (kv_run prg dbg fe rnd fseed pseed kvs dim m es pb w sh tape rest qp Hpb Hw H64 Hsane HF Hkn Hqp key)
    as (g' & a & b & c & q & _ & _ & _ & _ & _ & _ & _ & _ & Hq & _ & resb & resp & Hr & Hde & _ & Hp).
  rewrite Hq. cbn [unwrap bind]. rewrite Hr. cbn [unwrap bind].
  assert (Eu : set_used false (set_used true qp) = qp).
  { apply kv_generate_fresh in Hq. destruct qp as [l r e p x u]. cbn in Hq |- *. now rewrite Hq. }
  rewrite (iter_n_ok (k 0%nat)).
  2:{ intros i Hi. destruct (GQ (tapes i) (Hts i Hi)) as (q0 & r0 & ->). reflexivity. }
  cbn [bind]. rewrite (iter_n_ok (k 1%nat)).
  2:{ intros i Hi. rewrite Eu, Hq. reflexivity. }
  cbn [bind]. rewrite (iter_n_ok (k 2%nat)).
  2:{ intros i Hi. reflexivity. }
  cbn [bind]. rewrite (iter_n_ok (k 3%nat)).
  2:{ intros i Hi. rewrite Hde. cbn [unwrap bind]. apply drop_unwrap_iff. unfold kv_parse_resp_as_base64. rewrite Hp. cbn [bind].
      unfold base64_from_u32_slice. rewrite bytes_from_u32_slice_closed.
      2:{ replace (qp_plaintext_bits (set_used true qp)) with pb; [clear - Hpb; lia|].
          rewrite Esh in Hqp. cbn [ks_params] in Hqp. apply kv_gen_qp_inv in Hqp as [_ ->]. cbn. now rewrite Epb. }
      match goal with |- context[bits_to_bytes_le dbg ?l] => destruct (bits_to_bytes_roundtrip dbg l) as (out & -> & _) end.
      eexists. reflexivity. }
  cbn [bind]. destruct offline.
  - unfold bench_kv_db_generation. rewrite Erw. cbn [bind]. rewrite Esh. cbn [ks_db ks_params kp_dim kv_params_of].
    rewrite (kv_height_ok db w (g_arrlen g) Hs HW). cbn [bind]. rewrite iter_n_unit_iff, Ees, Epb. split.
    + intros R. split; [eauto|]. intros _ i Hi. specialize (R i Hi). apply drop_unwrap_iff in R as [s R].
      unfold build. eapply kv_m_irrelevant. exact R.
    + intros [_ R] i Hi. destruct (R eq_refl i Hi) as [s R']. apply drop_unwrap_iff.
      unfold build in R'. eapply kv_m_irrelevant. exact R'.
  - split; [|reflexivity]. intros _. split; [eauto|]. discriminate.
Qed.

(** The environment of a run: 16-bit elements, LWE dimension 2, 10 plaintext bits, 2^1 elements,
    the offline part too. *)
Definition ex_env (kw : bool) : env_vars :=
  {| PIR_ELEM_SIZE_BITS := Some [49; 54]; PIR_LWE_DIM := Some [50]; PIR_PLAINTEXT_BITS := Some [49; 48];
     PIR_NUMBER_OF_ELEMENTS_EXP := Some [49]; BENCH_DB_GEN := Some [116; 114; 117; 101];
     BENCH_KV := Some (if kw then [116; 114; 117; 101] else [102; 97; 108; 115; 101]) |}.
Definition ex_br : bench_randomness :=
  {| br_prg := ex_prg; br_seed := []; br_seeds := fun _ => []; br_rnd := ex_rnd; br_fseed := seed0;
     br_rnds := fun _ => ex_rnd; br_fseeds := fun _ => seed0;
     br_kbytes := fun i n => repeat (Z.of_nat i + 1) n; br_bytes := fun i n => repeat (Z.of_nat i + 5) n;
     br_tape := repeat 1000000000 30; br_tapes := fun _ => repeat 1000000000 30 |}.

(** @C68 example: one environment of two elements: the keyword benchmark completes, three
    iterations of everything, and the index benchmark panics. *)
Example bench_example :
  bench_main (firstn 32) true (est 3 12) (ex_env true) ex_br (fun _ => 3%nat) = Ok tt /\
  bench_main (firstn 32) true (est 3 12) (ex_env false) ex_br (fun _ => 3%nat) = Panic /\
  sane_estimates (est 3 12) 2 /\
  (exists fl, parse_from_env true (ex_env false) = Ok fl /\ cf_keyword fl = false /\ cf_m fl = 2).
Proof.
  split; [vm_compute; reflexivity|]. split; [vm_compute; reflexivity|]. split; [apply est_sane; lia|].
  eexists. split; [vm_compute; reflexivity|]. split; reflexivity.
Qed.
