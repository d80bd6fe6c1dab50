(** C66: what the read accessors of databases and parameters report. *)
From Verif Require Import Base Spec Fmt Base64 Mat Bfusep Db Api SpecFilter Access Base_facts Fmt_facts Codec_facts Mat_facts Index_facts IndexProto_facts Geom_facts FilterTop_facts KV_facts Claims_format Claims_filter Claims_kv.
Local Open Scope Z_scope.

Lemma idx_oob {A} (l : list A) i : (length l <= i)%nat -> idx l i = Panic.
Proof. intros H. unfold idx. now rewrite (proj2 (nth_error_None l i) H). Qed.

(** @C66 Index databases: [get_row j] is the j-th plaintext chunk of every one of the m
    elements (a column of the element table), and panics from the row width on;
    [get_db_entry] panics from m on. *)
Lemma index_get_row_is_chunk_column :
  forall (dbg : bool) (strs : list (list Z)) (m es pb w : nat) (db : index_db),
    (1 <= pb <= 32)%nat -> (0 < es)%nat -> is_ceil_div es pb w ->
    index_db_new dbg strs m es pb = Ok db ->
    exists elems, length elems = m /\
      (forall i, (i < m)%nat -> b64_decode (nth i strs []) = Ok (nth i elems [])) /\
      (forall j, (j < w)%nat -> index_get_row db j = Ok (map (fun e => chunk e pb j) elems)) /\
      (forall j, (w <= j)%nat -> index_get_row db j = Panic) /\
      (forall dbg i, (m <= i)%nat -> index_get_db_entry dbg db i = Panic).
Proof.
  intros dbg strs m es pb w db Hpb Hes Hw H.
  destruct (index_db_new_inv _ _ _ _ _ w _ Hpb Hw H) as (Hm & elems & (Hl & Hls & Hst) & ->).
  assert (Hw0 : (0 < w)%nat) by (destruct w; [destruct Hw as [Hw _]; lia|lia]).
  exists elems. split; [exact Hl|]. split; [intros i Hi; exact (proj1 (Hst i Hi))|].
  split; [intros j Hj; unfold index_get_row; now rewrite db_of_col|].
  split.
  - intros j Hj. apply idx_oob. cbn [id_entries db_of]. now rewrite map_length, seq_length.
  - intros dbg' i Hi. unfold index_get_db_entry, get_matrix_second_at. cbn [id_entries db_of].
    destruct w as [|w']; [lia|]. cbn [seq map mapM].
    rewrite idx_oob by (rewrite column_length; lia). reflexivity.
Qed.

(** @C66 After [switch_fmt], [get_row i] is the row of element i, and a second [switch_fmt]
    restores the database. *)
Lemma index_get_row_after_switch :
  forall (dbg : bool) (strs : list (list Z)) (m es pb w : nat) (db : index_db),
    (1 <= pb <= 32)%nat -> (0 < es)%nat -> is_ceil_div es pb w ->
    index_db_new dbg strs m es pb = Ok db ->
    exists db', index_switch_fmt db = Ok db' /\ index_switch_fmt db' = Ok db /\
      forall i e, (i < m)%nat -> b64_decode (nth i strs []) = Ok e ->
        index_get_row db' i = Ok (map (chunk e pb) (seq 0 w)).
Proof.
  intros dbg strs m es pb w db Hpb Hes Hw H.
  destruct (index_db_new_inv _ _ _ _ _ w _ Hpb Hw H) as (Hm & elems & (Hl & Hls & Hst) & ->).
  assert (Hw0 : (0 < w)%nat) by (destruct w; [destruct Hw as [Hw _]; lia|lia]).
  set (R := map (fun b => map (chunk b pb) (seq 0 w)) elems).
  assert (SR : shape R m w).
  { split; [unfold R; now rewrite map_length|]. apply Forall_map, Forall_forall. intros b _. now rewrite map_length, seq_length. }
  assert (E1 : swap_matrix_fmt R = Ok (map (column elems pb) (seq 0 w))).
  { rewrite (swap_matrix_rect R m w) by auto. f_equal. apply columns_transpose. }
  assert (E2 : swap_matrix_fmt (map (column elems pb) (seq 0 w)) = Ok R).
  { pose proof (swap_swap R m w SR Hm Hw0) as X. rewrite E1 in X. exact X. }
  exists {| id_entries := R; id_m := m; id_elem_size := es; id_plaintext_bits := pb |}.
  split; [unfold index_switch_fmt; cbn [id_entries db_of]; rewrite E2; reflexivity|].
  split; [unfold index_switch_fmt; cbn [id_entries]; rewrite E1; reflexivity|].
  intros i e Hi Ed. unfold index_get_row. cbn [id_entries].
  rewrite (idx_nth _ _ []) by (rewrite (proj1 SR); exact Hi). f_equal. unfold R.
  rewrite (nth_map' _ _ _ _ []) by lia. destruct (Hst i Hi) as [X _]. rewrite Ed in X. congruence.
Qed.

(** @C66 Refuted: "get_row(i) is the row of element i". Two elements of three chunks: [get_row]
    answers for 2, where there is no element, and [get_row 0] is not the row of element 0. *)
Lemma get_row_is_element_row_refuted :
  exists strs m es pb db e w, index_db_new true strs m es pb = Ok db /\ (0 < m)%nat /\
    b64_decode (nth 0 strs []) = Ok e /\ is_ceil_div es pb w /\
    index_get_row db 0 <> Ok (map (chunk e pb) (seq 0 w)) /\
    (exists r, index_get_row db m = Ok r).
Proof.
  exists [b64_encode [1; 2; 3]; b64_encode [4; 5; 6]], 2%nat, 24%nat, 8%nat.
  eexists. exists [1; 2; 3], 3%nat. split; [vm_compute; reflexivity|]. split; [lia|].
  split; [vm_compute; reflexivity|]. split; [split; [lia|intros; lia]|].
  split; [vm_compute; discriminate|]. eexists. vm_compute. reflexivity.
Qed.

(** @C66 The parameter getters of an index shard report what construction was given. *)
Lemma index_getters : forall prg dbg seed strs dim m es pb sh,
  shard_from_base64_strings prg dbg seed strs dim m es pb = Ok sh ->
  index_params_getters (sh_params sh) = (m, dim, es, pb) /\ ip_public_seed (sh_params sh) = seed.
Proof.
  intros prg dbg seed strs dim m es pb sh H. unfold shard_from_base64_strings in H.
  apply bind_Ok in H as (db & Hdb & H). apply bind_Ok in H as (p & Hp & H).
  assert (ip_m p = m /\ ip_dim p = dim /\ ip_elem_size p = es /\ ip_plaintext_bits p = pb /\ ip_public_seed p = seed) as X.
  { unfold index_db_new in Hdb. apply bind_Ok in Hdb as (rows & _ & Hdb). apply bind_Ok in Hdb as (en & _ & Hdb).
    injection Hdb as <-. unfold index_params_new in Hp. apply bind_Ok in Hp as (rhs & _ & Hp). injection Hp as <-. now cbn. }
  injection H as <-. cbn [sh_params]. unfold index_params_getters. destruct X as (-> & -> & -> & -> & ->). auto.
Qed.

(** @C66 Key-value shards: [into_row_iter] never fails and yields one string per filter slot
    (not per pair); [get_db_entry] panics from there on, [get_row] from the number of columns
    on, and [get_total_records] is the number of slots. *)
Lemma kv_row_iter : forall prg dbg fe rnd fseed pseed kvs dim m es pb sh,
  (1 <= pb <= 31)%nat -> sane_estimates fe (length kvs) ->
  kv_shard_new prg dbg fe rnd fseed pseed kvs dim m es pb = Ok sh ->
  exists g rows, geometry dbg fe (length kvs) = Ok g /\
    kv_shard_into_row_iter dbg sh = Ok rows /\ length rows = g_arrlen g /\
    kv_params_getters (ks_params sh) = (g_arrlen g, dim, es, pb) /\
    (forall i, (i < g_arrlen g)%nat -> kv_get_db_entry dbg (ks_db sh) i = Ok (nth i rows [])) /\
    (forall i, (g_arrlen g <= i)%nat -> kv_get_db_entry dbg (ks_db sh) i = Panic) /\
    (forall j, (length (kd_entries (ks_db sh)) <= j)%nat -> kv_get_row (ks_db sh) j = Panic).
Proof.
  intros prg dbg fe rnd fseed pseed kvs dim m es pb sh Hpb Hsane H.
  unfold kv_shard_new in H. apply bind_Ok in H as (db & Hdb & H).
  destruct (kv_db_inv dbg fe rnd fseed kvs m es pb db ltac:(clear - Hpb; lia) Hdb)
    as (kv0 & g & H0 & Hg & Em & Ees & Epb & Hfp & Hs & HW & _ & HC).
  assert (Edb : ks_db sh = db /\ kv_params_getters (ks_params sh) = (g_arrlen g, dim, es, pb)).
  { unfold kv_shard_of_db in H. apply bind_Ok in H as (p & Hp & H). injection H as <-. cbn [ks_db ks_params].
    split; [reflexivity|]. unfold kv_params_new in Hp. apply bind_Ok in Hp as (rhs & _ & Hp).
    rewrite (kv_height_ok db _ _ Hs HW) in Hp. cbn [bind] in Hp. injection Hp as <-. unfold kv_params_getters. cbn. now rewrite Ees, Epb. }
  destruct Edb as [-> Gp].
  assert (Ent : forall i, (i < g_arrlen g)%nat -> exists s, kv_get_db_entry dbg db i = Ok s).
  { intros i Hi. unfold kv_get_db_entry, get_matrix_second_at.
    rewrite (mapM_Ok _ (fun col => nth i col 0)).
    2:{ intros col Hc. apply idx_nth. destruct Hs as [_ HF]. rewrite Forall_forall in HF. now rewrite (HF col Hc). }
    cbn [bind]. unfold base64_from_u32_slice. rewrite bytes_from_u32_slice_closed by (rewrite Epb; clear - Hpb; lia).
    match goal with |- context[bits_to_bytes_le dbg ?l] => destruct (bits_to_bytes_roundtrip dbg l) as (out & -> & _) end.
    eexists. reflexivity. }
  exists g. set (rows := map (fun i => match kv_get_db_entry dbg db i with Ok s => s | _ => [] end) (seq 0 (g_arrlen g))).
  exists rows. split; [exact Hg|].
  assert (R : forall i, (i < g_arrlen g)%nat -> kv_get_db_entry dbg db i = Ok (nth i rows [])).
  { intros i Hi. unfold rows. rewrite nth_map_seq by exact Hi. destruct (Ent i Hi) as [s ->]. reflexivity. }
  assert (Esh : ks_db sh = db).
  { clear - H. unfold kv_shard_of_db in H. apply bind_Ok in H as (? & _ & H). now injection H as <-. }
  split.
  { unfold kv_shard_into_row_iter. rewrite Esh, (kv_height_ok db _ _ Hs HW). cbn [bind].
    rewrite (mapM_Ok _ (fun i => nth i rows [])).
    - f_equal. apply (list_eq_nth _ _ []); [unfold rows; now rewrite !map_length|].
      intros i Hi. rewrite map_length, seq_length in Hi. now rewrite nth_map_seq.
    - intros i Hi. apply in_seq in Hi. apply R. clear - Hi. lia. }
  split; [unfold rows; now rewrite map_length, seq_length|]. split; [exact Gp|]. split; [exact R|]. split.
  - intros i Hi. unfold kv_get_db_entry, get_matrix_second_at. destruct Hs as [L HF].
    destruct (kd_entries db) as [|c0 cs]; [cbn in L; clear - L HW; lia|]. cbn [mapM].
    inversion_clear HF as [|? ? F0 _]. rewrite idx_oob by (rewrite F0; exact Hi). reflexivity.
  - intros j Hj. now apply idx_oob.
Qed.

(** @C66 What the slots hold: for every stored key that is the last with its hash, in every
    column, the three slots of the key and its fingerprint sum to the stored value modulo
    2^plaintext_bits. *)
Lemma kv_get_row_slots : forall prg dbg fe rnd fseed pseed kvs dim m es pb w sh i kv,
  (1 <= pb <= 31)%nat -> sane_estimates fe (length kvs) ->
  Forall (fun kv => length (kv_value kv) = w) kvs ->
  kv_shard_new prg dbg fe rnd fseed pseed kvs dim m es pb = Ok sh ->
  (dbg = true \/ exists slots,
     (forall key, get_hash_evals dbg (kd_filter_params (ks_db sh)) key = Ok (slots key)) /\
     forall j, (load slots (map kv_key kvs) j <= 63)%nat) ->
  nth_error kvs i = Some kv -> last_with_hash fseed (map kv_key kvs) i (kv_key kv) ->
  exists a b c, get_hash_evals dbg (kd_filter_params (ks_db sh)) (kv_key kv) = Ok [a; b; c] /\
    (a < b < c)%nat /\
    forall j, (j < w)%nat -> exists col, kv_get_row (ks_db sh) j = Ok col /\ (c < length col)%nat /\
      (nth a col 0 + nth b col 0 + nth c col 0 + get_key_fingerprint (kv_key kv) fseed (Z.of_nat j)) mod 2 ^ Z.of_nat pb
      = nth j (kv_value kv) 0 mod 2 ^ Z.of_nat pb.
Proof.
  intros prg dbg fe rnd fseed pseed kvs dim m es pb w sh i kv Hpb Hsane HF H Hload Hi Hlast.
  unfold kv_shard_new in H. apply bind_Ok in H as (db & Hdb & H).
  assert (Esh : ks_db sh = db).
  { clear - H. unfold kv_shard_of_db in H. apply bind_Ok in H as (? & _ & H). now injection H as <-. }
  rewrite Esh in *. clear H.
  destruct (kv_db_inv dbg fe rnd fseed kvs m es pb db ltac:(clear - Hpb; lia) Hdb)
    as (kv0 & g & H0 & Hg & Em & Ees & Epb & Hfp & Hs & HW & _ & HC).
  assert (HW' : length (kv_value kv0) = w).
  { rewrite Forall_forall in HF. apply HF. eapply nth_error_In; eauto. }
  rewrite HW' in *.
  destruct (three_slots dbg dbg fe _ g (kv_key kv) fseed Hsane Hg) as (a & b & c & Hev & Hab & Hc & _).
  exists a, b, c. split; [unfold get_hash_evals; rewrite Hfp; exact Hev|]. split; [clear - Hab; lia|].
  intros j Hj. exists (nth j (kd_entries db) []).
  split; [unfold kv_get_row; apply idx_nth; rewrite (proj1 Hs); exact Hj|].
  split; [rewrite (shape_nth _ w (g_arrlen g)) by auto; clear - Hc; lia|].
  destruct (HC j Hj) as (f & Ef & EF & Es & E1 & E2 & E3 & _).
  unfold from_slice in Ef. destruct (negb _) eqn:EL; [discriminate|].
  destruct (fingerprint_sum MAX_ITER dbg fe (rnd j) fseed (map kv_key kvs)
       (map (fun kv => nth j (kv_value kv) 0) kvs) (Z.of_nat pb) (Z.of_nat j) f) as (F & EF' & _ & _ & S); auto.
  - now rewrite map_length.
  - rewrite !map_length. reflexivity.
  - clear - Hpb. lia.
  - destruct Hload as [->|(slots & Hsl & Hld)]; [now left|right]. exists slots.
    split; auto. rewrite E1, E2, E3. intros key. specialize (Hsl key).
    unfold get_hash_evals in Hsl. rewrite Hfp in Hsl. exact Hsl.
  - rewrite EF in EF'. injection EF' as <-.
    destruct (S dbg i (kv_key kv) a b c) as (_ & _ & _ & S1); auto.
    { rewrite E1, E2, E3. exact Hev. }
    rewrite S1. f_equal.
    rewrite (nth_map' _ _ _ _ kv) by (apply nth_error_Some; congruence).
    f_equal. erewrite nth_error_nth; eauto.
Qed.

(** @C66 Refuted: "into_row_iter lists the stored values" for key-value shards. Three pairs give
    24 strings, and none of them is the string of a stored value. *)
Lemma kv_row_iter_lists_values_refuted :
  exists fe rnd fseed pseed kvs es pb sh rows,
    sane_estimates fe (length kvs) /\
    kv_shard_new ex_prg true fe rnd fseed pseed kvs 2 (length kvs) es pb = Ok sh /\
    kv_shard_into_row_iter true sh = Ok rows /\
    length rows <> length kvs /\ kp_m (ks_params sh) <> length kvs /\
    forall kv s, In kv kvs -> base64_from_u32_slice true (kv_value kv) pb es = Ok s -> ~ In s rows.
Proof.
  exists (est 3 12), ex_rnd, seed0, seed0, ex_kvs, 16%nat, 10%nat.
  eexists. eexists. split; [apply est_sane; lia|]. split; [vm_compute; reflexivity|].
  split; [vm_compute; reflexivity|]. split; [vm_compute; discriminate|]. split; [vm_compute; discriminate|].
  intros kv s [<-|[<-|[<-|[]]]] E; vm_compute in E; injection E as <-; cbn [In];
    intros X; repeat (destruct X as [X|X]; [discriminate X|]); exact X.
Qed.

(** @C66 example: the hypotheses of the shard statements are met. *)
Example access_example : exists sh rows,
  kv_shard_new ex_prg true (est 3 12) ex_rnd seed0 seed0 ex_kvs 2 3 16 10 = Ok sh /\
  kv_shard_into_row_iter true sh = Ok rows /\ length rows = 24%nat /\
  sane_estimates (est 3 12) (length ex_kvs) /\ Forall (fun kv => length (kv_value kv) = 2%nat) ex_kvs.
Proof.
  eexists. eexists. split; [vm_compute; reflexivity|]. split; [vm_compute; reflexivity|].
  split; [reflexivity|]. split; [apply est_sane; lia|]. repeat constructor.
Qed.
