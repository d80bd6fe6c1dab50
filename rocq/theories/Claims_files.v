(** * Claims about files (C40-C42, C52-C55). *)
From Coq Require Import String.
From Verif Require Import Base Spec Base64 Mat Hash Fuse3 Bfusep Db Api Json Files SpecFilter SpecFiles Base_facts Fmt_facts Codec_facts Mat_facts Index_facts IndexProto_facts KV_facts Json_facts Files_facts Claims_filter Claims_index Claims_kv.
Local Open Scope Z_scope.

(** ** C42 *)

(** The texts an index shard writes. *)
Definition db_text (entries : list (list Z)) : list Z := write_json (json_matrix entries).
Definition params_text (seed : list Z) (rhs : list (list Z)) : list Z := write_json (params_json seed rhs).

Lemma two_writes d p1 v1 p2 v2 k : p1 <> p2 ->
  let ops := write_ops p1 v1 ++ write_ops p2 v2 in
  let d' := fs_run d (firstn k ops) in
  let n1 := S (length (write_json v1)) in
  (forall q, q <> p1 -> q <> p2 -> d' q = d q) /\
  d' p1 = match k with O => d p1 | S j => Some (firstn j (write_json v1)) end /\
  d' p2 = (if (k <=? n1)%nat then d p2 else Some (firstn (k - n1 - 1) (write_json v2))).
Proof.
  intros N ops d' n1. subst ops d'. rewrite firstn_app, fs_run_app, write_ops_length.
  destruct (write_ops_prefix d p1 v1 k) as [A1 B1].
  destruct (write_ops_prefix (fs_run d (firstn k (write_ops p1 v1))) p2 v2 (k - n1)) as [A2 B2].
  subst n1. split; [|split].
  - intros q N1 N2. rewrite A2, A1 by auto. reflexivity.
  - rewrite A2 by auto. exact B1.
  - rewrite B2. destruct (Nat.leb_spec k (S (length (write_json v1)))).
    + replace (k - S (length (write_json v1)))%nat with O by lia. apply A1. congruence.
    + destruct (k - S (length (write_json v1)))%nat eqn:E; [lia|]. f_equal. f_equal. lia.
Qed.

(** @C42 What [Shard::write_to_file] leaves behind after [k] successful file operations, for
    every [k] (a crash, or an I/O error which it reports, at that point): other files are
    untouched; the database file is the old one (k = 0) or a prefix of the new text; the
    parameters file is the old one until the whole database text is written and then a
    prefix of its new text; success is reported exactly when nothing is missing. *)
Lemma shard_write_states : forall d s dbp pp k, dbp <> pp ->
  let (d', r) := shard_write_to_file d s dbp pp k in
  let t1 := write_json (json_matrix (id_entries (sh_db s))) in
  let t2 := write_json (params_json (ip_public_seed (sh_params s)) (ip_rhs (sh_params s))) in
  (forall q, q <> dbp -> q <> pp -> d' q = d q) /\
  (d' dbp = d dbp /\ k = 0%nat \/ exists j, d' dbp = Some (firstn j t1)) /\
  (d' pp = d pp \/ d' dbp = Some t1 /\ exists j, d' pp = Some (firstn j t2)) /\
  ((r = Ok tt /\ d' dbp = Some t1 /\ d' pp = Some t2) \/ (r = Err EIo /\ (k <= length t1 + length t2 + 1)%nat)).
Proof.
  intros d s dbp pp k N. unfold shard_write_to_file, run_io, shard_write_ops, db_write_ops, params_write_ops.
  set (v1 := json_matrix _). set (v2 := params_json _ _). cbv zeta.
  destruct (two_writes d dbp v1 pp v2 k N) as (A & B & C). cbv zeta in A, B, C.
  set (ops := write_ops dbp v1 ++ write_ops pp v2) in *.
  assert (Lo : length ops = (length (write_json v1) + length (write_json v2) + 2)%nat)
    by (unfold ops; rewrite app_length, !write_ops_length; lia).
  split; [exact A|]. split; [|split].
  - destruct k; [left; auto|right]. eexists. exact B.
  - rewrite C, B. destruct (Nat.leb_spec k (S (length (write_json v1)))); [now left|].
    right. destruct k; [lia|]. split; [|eexists; reflexivity]. f_equal. apply firstn_all2. lia.
  - destruct (Nat.ltb_spec k (length ops)); [right; split; [reflexivity|lia]|left].
    split; [reflexivity|]. rewrite B, C. destruct (Nat.leb_spec k (S (length (write_json v1)))); [lia|].
    destruct k; [lia|]. split; f_equal; apply firstn_all2; lia.
Qed.

(** @C42 What [KVShard::write_to_file] leaves behind after [k] successful file operations, for
    every [k] (a crash, or an I/O error which it reports, at that point): other files are
    untouched; the database file is the old one (k = 0) or a prefix of the new text; the
    parameters file is the old one until the whole database text is written and then a
    prefix of its new text; success is reported exactly when nothing is missing. *)
Lemma kv_shard_write_states : forall d s dbp pp k, dbp <> pp ->
  let (d', r) := kv_shard_write_to_file d s dbp pp k in
  let t1 := write_json (json_matrix (kd_entries (ks_db s))) in
  let t2 := write_json (params_json (kp_public_seed (ks_params s)) (kp_rhs (ks_params s))) in
  (forall q, q <> dbp -> q <> pp -> d' q = d q) /\
  (d' dbp = d dbp /\ k = 0%nat \/ exists j, d' dbp = Some (firstn j t1)) /\
  (d' pp = d pp \/ d' dbp = Some t1 /\ exists j, d' pp = Some (firstn j t2)) /\
  ((r = Ok tt /\ d' dbp = Some t1 /\ d' pp = Some t2) \/ (r = Err EIo /\ (k <= length t1 + length t2 + 1)%nat)).
Proof.
  intros d s dbp pp k N. unfold kv_shard_write_to_file, run_io, kv_shard_write_ops, db_write_ops, params_write_ops.
  set (v1 := json_matrix _). set (v2 := params_json _ _). cbv zeta.
  destruct (two_writes d dbp v1 pp v2 k N) as (A & B & C). cbv zeta in A, B, C.
  set (ops := write_ops dbp v1 ++ write_ops pp v2) in *.
  assert (Lo : length ops = (length (write_json v1) + length (write_json v2) + 2)%nat)
    by (unfold ops; rewrite app_length, !write_ops_length; lia).
  split; [exact A|]. split; [|split].
  - destruct k; [left; auto|right]. eexists. exact B.
  - rewrite C, B. destruct (Nat.leb_spec k (S (length (write_json v1)))); [now left|].
    right. destruct k; [lia|]. split; [|eexists; reflexivity]. f_equal. apply firstn_all2. lia.
  - destruct (Nat.ltb_spec k (length ops)); [right; split; [reflexivity|lia]|left].
    split; [reflexivity|]. rewrite B, C. destruct (Nat.leb_spec k (S (length (write_json v1)))); [lia|].
    destruct k; [lia|]. split; f_equal; apply firstn_all2; lia.
Qed.

(** @C42 refuted: whatever the shard, the paths and the old contents, a failure (or crash)
    after the database has been written leaves the new database next to the old parameters,
    and a failure right after the first operation has already destroyed the old database. *)
Lemma write_is_atomic_refuted : forall d s dbp pp, dbp <> pp ->
  (exists k, let (d', r) := shard_write_to_file d s dbp pp k in
     r = Err EIo /\ d' dbp = Some (write_json (json_matrix (id_entries (sh_db s)))) /\ d' pp = d pp) /\
  (exists k, let (d', r) := shard_write_to_file d s dbp pp k in
     r = Err EIo /\ d' dbp = Some [] /\ d' pp = d pp) /\
  (exists k, let (d', r) := shard_write_to_file d s dbp pp k in
     r = Err EIo /\ d' dbp = Some (write_json (json_matrix (id_entries (sh_db s)))) /\ d' pp = Some []).
Proof.
  intros d s dbp pp N. unfold shard_write_to_file, run_io, shard_write_ops, db_write_ops, params_write_ops.
  set (v1 := json_matrix _). set (v2 := params_json _ _).
  assert (Lo : length (write_ops dbp v1 ++ write_ops pp v2) = (length (write_json v1) + length (write_json v2) + 2)%nat)
    by (rewrite app_length, !write_ops_length; lia).
  split; [|split].
  - exists (S (length (write_json v1))). destruct (two_writes d dbp v1 pp v2 (S (length (write_json v1))) N) as (_ & B & C).
    cbv zeta in B, C. rewrite B, C, firstn_all, Nat.leb_refl. split; [|split; reflexivity].
    destruct (Nat.ltb_spec (S (length (write_json v1))) (length (write_ops dbp v1 ++ write_ops pp v2))); [reflexivity|lia].
  - exists 1%nat. destruct (two_writes d dbp v1 pp v2 1 N) as (_ & B & C). cbv zeta in B, C. rewrite B, C. split; [|split; reflexivity].
    destruct (Nat.ltb_spec 1 (length (write_ops dbp v1 ++ write_ops pp v2))); [reflexivity|].
    rewrite Lo in *. destruct (length (write_json v2)); lia.
  - exists (S (S (length (write_json v1)))). destruct (two_writes d dbp v1 pp v2 (S (S (length (write_json v1)))) N) as (_ & B & C).
    cbv zeta in B, C. rewrite B, C, firstn_all2 by lia.
    destruct (Nat.leb_spec (S (S (length (write_json v1)))) (S (length (write_json v1)))); [lia|].
    replace (S (S (length (write_json v1))) - S (length (write_json v1)) - 1)%nat with 0%nat by lia. split; [|split; reflexivity].
    destruct (Nat.ltb_spec (S (S (length (write_json v1)))) (length (write_ops dbp v1 ++ write_ops pp v2))); [reflexivity|].
    rewrite Lo in *. assert (0 < length (write_json v2))%nat by (unfold v2, params_json; cbn [write_json app length]; lia). lia.
Qed.

(** @C42 If both paths are the same file, a successful write keeps only the parameters. *)
Lemma same_path_loses_database : forall d s p,
  exists k d', shard_write_to_file d s p p k = (d', Ok tt) /\
    d' p = Some (write_json (params_json (ip_public_seed (sh_params s)) (ip_rhs (sh_params s)))).
Proof.
  intros d s p. unfold shard_write_to_file, run_io, shard_write_ops, db_write_ops, params_write_ops.
  set (v1 := json_matrix _). set (v2 := params_json _ _).
  exists (length (write_ops p v1 ++ write_ops p v2)), (fs_run d (write_ops p v1 ++ write_ops p v2)).
  rewrite firstn_all, Nat.ltb_irrefl. split; [reflexivity|]. rewrite fs_run_app.
  destruct (write_ops_prefix (fs_run d (write_ops p v1)) p v2 (length (write_ops p v2))) as [_ B].
  rewrite firstn_all in B. rewrite B, write_ops_length. now rewrite firstn_all.
Qed.

(** @C42 A torn file is never mistaken for a shorter one: if a shard's database file (or
    parameters file) was cut off anywhere, reading it is an error (a panic for
    [Shard::from_json_file]), whatever parameters are passed. *)
Lemma torn_files_are_rejected : forall prg dbg pseed d p s cut,
  typed_shard s ->
  ((exists rest, write_json (json_matrix (id_entries (sh_db s))) = cut ++ rest /\ rest <> []) \/
   (exists rest, write_json (params_json (ip_public_seed (sh_params s)) (ip_rhs (sh_params s))) = cut ++ rest /\ rest <> [])) ->
  d p = Some cut ->
  (forall m es pb, exists e, index_db_from_file dbg d p m es pb = Err e) /\
  (forall dim m es pb, shard_from_json_file prg dbg pseed d p dim m es pb = Panic) /\
  index_params_load d p = Err EDeserialize.
Proof.
  intros prg dbg pseed d p s cut (T1 & T2 & T3 & _) H Hd.
  assert (PT : parse_text cut = None).
  { destruct H as [(rest & E & N)|(rest & E & N)]; eapply parse_text_torn; eauto.
    - apply utf8_wf, json_matrix_utf8, T1.
    - exact I.
    - apply utf8_wf, params_json_utf8; auto.
    - exact I. }
  unfold index_db_from_file, shard_from_json_file, index_params_load, read_to_string, json_strings.
  rewrite Hd, PT. destruct (is_utf8 cut); cbn [bind unwrap of_opt]; rewrite ?PT; cbn [bind of_opt unwrap]; eauto.
Qed.

(** ** C40 *)

(** @C40 refuted: for every shard, after a completely successful [write_to_file],
    [IndexParams::load] of the parameters file fails. *)
Lemma saved_params_load_refuted : forall d s dbp pp k d',
  typed_shard s -> dbp <> pp -> shard_write_to_file d s dbp pp k = (d', Ok tt) ->
  index_params_load d' pp = Err EDeserialize.
Proof.
  intros d s dbp pp k d' (_ & T2 & T3 & _) N H. pose proof (shard_write_states d s dbp pp k N) as W.
  rewrite H in W. cbv zeta in W. destruct W as (_ & _ & _ & [(_ & _ & E)|(E & _)]); [|discriminate].
  unfold index_params_load. rewrite E. rewrite parse_text_write by (apply utf8_wf, params_json_utf8; auto).
  reflexivity.
Qed.

(** @C40 By contrast the JSON of the derived [Serialize] impl is loaded back exactly. *)
Lemma serialized_params_load : forall d p q,
  d p = Some (write_json (ser_index_params q)) ->
  Forall is_u8 (ip_public_seed q) -> length (ip_public_seed q) = 32%nat -> Forall (Forall is_u32) (ip_rhs q) ->
  Z.of_nat (ip_dim q) < two64 -> Z.of_nat (ip_m q) < two64 -> Z.of_nat (ip_elem_size q) < two64 ->
  Z.of_nat (ip_plaintext_bits q) < two64 ->
  index_params_load d p = Ok q.
Proof.
  intros d p q Hd H1 H2 H3 H4 H5 H6 H7. unfold index_params_load. rewrite Hd.
  rewrite parse_text_write.
  - unfold de_index_params, ser_index_params. rewrite struct_object_fields.
    + rewrite !de_usize_ok, de_seed_ok, de_matrix_ok by auto. destruct q; reflexivity.
    + repeat constructor; cbn [In]; intros X;
        repeat match type of X with _ \/ _ => destruct X as [X|X] end; try discriminate X; destruct X.
    + reflexivity.
  - apply utf8_wf, utf8_obj. unfold index_params_names. cbn [combine].
    repeat (constructor; [cbn [fst snd]; split; [apply utf8_ascii; repeat constructor; lia|]|]); try constructor;
      try (cbn [utf8_json]; lia); [now apply seed_utf8|now apply json_matrix_utf8].
Qed.

(** ** C41 *)

(** @C41 refuted: for every shard with at least one column, reloading the database file that
    was just written successfully is an error, and [Shard::from_json_file] on it panics. *)
Lemma saved_db_reload_refuted : forall prg dbg pseed d s dbp pp k d',
  typed_shard s -> dbp <> pp -> id_entries (sh_db s) <> [] ->
  shard_write_to_file d s dbp pp k = (d', Ok tt) ->
  (forall m es pb, index_db_from_file dbg d' dbp m es pb = Err EDeserialize) /\
  (forall dim m es pb, shard_from_json_file prg dbg pseed d' dbp dim m es pb = Panic).
Proof.
  intros prg dbg pseed d s dbp pp k d' (T1 & _) N NE H. pose proof (shard_write_states d s dbp pp k N) as W.
  rewrite H in W. cbv zeta in W. destruct W as (_ & _ & _ & [(_ & E & _)|(E & _)]); [|discriminate].
  assert (U : is_utf8 (write_json (json_matrix (id_entries (sh_db s)))) = true)
    by (apply is_utf8_iff, write_utf8, json_matrix_utf8, T1).
  assert (J : json_strings (write_json (json_matrix (id_entries (sh_db s)))) = Err EDeserialize).
  { unfold json_strings. rewrite parse_text_write by (apply utf8_wf, json_matrix_utf8, T1).
    unfold json_matrix. cbn [de_vec]. destruct (id_entries (sh_db s)) as [|r t]; [congruence|]. reflexivity. }
  unfold index_db_from_file, shard_from_json_file, read_to_string. rewrite E, U. cbn [bind unwrap].
  rewrite J. split; reflexivity.
Qed.

(** Every shard that construction returns has u32 matrices. *)
Lemma constructed_typed prg dbg seed strs dim m es pb w sh :
  (1 <= pb <= 32)%nat -> is_ceil_div es pb w -> Forall is_u8 seed -> length seed = 32%nat ->
  shard_from_base64_strings prg dbg seed strs dim m es pb = Ok sh ->
  typed_shard sh /\ length (id_entries (sh_db sh)) = w.
Proof.
  intros Hpb Hw Hs Hl H. destruct (shard_inv _ _ _ _ _ _ _ _ w _ Hpb Hw H) as (_ & elems & _ & ->).
  unfold typed_shard, shard_of, db_of, params_of, rhs_of, column.
  cbn [sh_db sh_params id_entries ip_rhs ip_public_seed]. split; [|rewrite map_length, seq_length; reflexivity].
  split; [|split; [|split; auto]].
  - apply Forall_map, Forall_forall. intros c _. apply Forall_map, Forall_forall. intros b _.
    unfold is_u32. pose proof (chunk_range b pb c). unfold psize in *.
    assert (2 ^ Z.of_nat pb <= 2 ^ 32) by (apply Z.pow_le_mono_r; lia). change (2 ^ 32) with two32 in *. lia.
  - apply Forall_map, Forall_forall. intros c _. apply Forall_map, Forall_forall. intros b _.
    apply Z.mod_pos_bound. reflexivity.
Qed.

(** @C41 refuted, end to end: every shard built from strings (elements of at least one bit,
    so at least one column) cannot be reloaded from the files it writes: neither the database
    nor the parameters. *)
Lemma constructed_shard_reload_refuted : forall prg dbg seed strs dim m es pb sh d dbp pp k d',
  (1 <= pb <= 32)%nat -> (0 < es)%nat -> Forall is_u8 seed -> length seed = 32%nat -> dbp <> pp ->
  shard_from_base64_strings prg dbg seed strs dim m es pb = Ok sh ->
  shard_write_to_file d sh dbp pp k = (d', Ok tt) ->
  (forall m' es' pb', index_db_from_file dbg d' dbp m' es' pb' = Err EDeserialize) /\
  index_params_load d' pp = Err EDeserialize.
Proof.
  intros prg dbg seed strs dim m es pb sh d dbp pp k d' Hpb Hes Hs Hl N H W.
  destruct (get_row_width_pos es pb) as (w & _ & Hw); [lia|].
  destruct (constructed_typed _ _ _ _ _ _ _ _ w _ Hpb Hw Hs Hl H) as [T L].
  split.
  - apply (saved_db_reload_refuted prg dbg seed d sh dbp pp k d'); auto. intros X. rewrite X in L. cbn in L. subst w.
    unfold is_ceil_div in Hw. lia.
  - eapply saved_params_load_refuted; eauto.
Qed.

(** @C41 *)
Example files_example : exists sh d',
  shard_from_base64_strings ex_prg true (repeat 7 32) [b64_encode [1; 2]; b64_encode [3; 4]] 2 2 16 10 = Ok sh /\
  shard_write_to_file (fun _ => None) sh [100] [112] (Z.to_nat 500) = (d', Ok tt) /\
  d' [100] = Some (write_json (json_matrix (id_entries (sh_db sh)))) /\
  index_params_load d' [112] = Err EDeserialize /\ index_db_from_file true d' [100] 2 16 10 = Err EDeserialize.
Proof.
  eexists. eexists. split; [vm_compute; reflexivity|]. split; [vm_compute; reflexivity|].
  repeat split; vm_compute; reflexivity.
Qed.

(** @C42 example: the hypotheses are met by that shard with its database text cut in half. *)
Example torn_example : exists sh cut rest,
  shard_from_base64_strings ex_prg true (repeat 7 32) [b64_encode [1; 2]; b64_encode [3; 4]] 2 2 16 10 = Ok sh /\
  typed_shard sh /\ write_json (json_matrix (id_entries (sh_db sh))) = cut ++ rest /\ rest <> [] /\ cut <> [] /\
  index_db_from_file true (fun _ => Some cut) [100] 2 16 10 = Err EDeserialize.
Proof.
  destruct (shard_from_base64_strings ex_prg true (repeat 7 32) [b64_encode [1; 2]; b64_encode [3; 4]] 2 2 16 10)
    as [sh|e| |] eqn:E; [|vm_compute in E; discriminate E|vm_compute in E; discriminate E|vm_compute in E; discriminate E].
  exists sh, (firstn 7 (write_json (json_matrix (id_entries (sh_db sh))))), (skipn 7 (write_json (json_matrix (id_entries (sh_db sh))))).
  split; [reflexivity|]. split.
  { apply (constructed_typed ex_prg true (repeat 7 32) [b64_encode [1; 2]; b64_encode [3; 4]] 2 2 16 10 2 sh); [lia|split; intros; lia| |reflexivity|exact E].
    apply Forall_forall. intros x Hx. apply repeat_spec in Hx. subst. unfold is_u8, two8. lia. }
  vm_compute in E. injection E as <-.
  split; [symmetry; apply firstn_skipn|]. split; [discriminate|]. split; [discriminate|]. vm_compute. reflexivity.
Qed.

(** ** C52 *)

(** @C52 Building from a JSON file of a list of strings is the same as building from the
    strings, for every list of (UTF-8) strings and every outcome: same shard, same error,
    same panic. *)
Lemma json_file_is_strings : forall prg dbg pseed d p strs dim m es pb,
  Forall (fun s => is_utf8 s = true) strs -> d p = Some (strings_text strs) ->
  shard_from_json_file prg dbg pseed d p dim m es pb = shard_from_base64_strings prg dbg pseed strs dim m es pb /\
  index_db_from_file dbg d p m es pb = index_db_new dbg strs m es pb.
Proof.
  intros prg dbg pseed d p strs dim m es pb HF Hd.
  assert (U : utf8_json (JArr (map JStr strs))).
  { apply utf8_arr, Forall_map. eapply Forall_impl; [|exact HF]. intros s Hs. now apply is_utf8_iff. }
  assert (R : read_to_string d p = Ok (strings_text strs)).
  { unfold read_to_string, strings_text. rewrite Hd. unfold strings_text.
    now rewrite (proj2 (is_utf8_iff _) (write_utf8 _ U)). }
  assert (J : json_strings (strings_text strs) = Ok strs).
  { unfold json_strings, strings_text. rewrite parse_text_write by now apply utf8_wf. cbn [de_vec].
    rewrite all_some_id by reflexivity. reflexivity. }
  unfold shard_from_json_file, index_db_from_file. rewrite R. cbn [unwrap bind]. rewrite J. split; reflexivity.
Qed.

(** @C52 Key-value shards from a JSON file of {key, value} objects. *)
Lemma json_file_is_kvs : forall sha prg dbg fe rnd fseed pseed d p kvs dim m es pb,
  Forall (fun kv => is_utf8 (fst kv) = true /\ is_utf8 (snd kv) = true) kvs -> d p = Some (kvs_text kvs) ->
  kv_shard_from_json_file sha prg dbg fe rnd fseed pseed d p dim m es pb =
  kv_shard_from_base64_strings sha prg dbg fe rnd fseed pseed (map fst kvs) (map snd kvs) dim m es pb.
Proof.
  intros sha prg dbg fe rnd fseed pseed d p kvs dim m es pb HF Hd.
  set (o := fun kv : list Z * list Z => JObj [ (bytes_of "key", JStr (fst kv)); (bytes_of "value", JStr (snd kv)) ]).
  assert (U : utf8_json (JArr (map o kvs))).
  { apply utf8_arr, Forall_map. eapply Forall_impl; [|exact HF]. intros kv [A B]. apply utf8_obj.
    repeat (constructor; [cbn [fst snd]; split; [apply utf8_ascii; repeat constructor; lia|now apply is_utf8_iff]|]).
    constructor. }
  assert (R : read_to_string d p = Ok (kvs_text kvs)).
  { unfold read_to_string. rewrite Hd. unfold kvs_text. fold o.
    now rewrite (proj2 (is_utf8_iff _) (write_utf8 _ U)). }
  assert (J : json_kvs (kvs_text kvs) = Ok kvs).
  { unfold json_kvs, kvs_text. fold o. rewrite parse_text_write by now apply utf8_wf. cbn [de_vec].
    rewrite all_some_id; [reflexivity|]. intros [k v] _. reflexivity. }
  unfold kv_shard_from_json_file. rewrite R. cbn [unwrap bind]. now rewrite J.
Qed.

(** @C52 example: strings with characters that need escaping. *)
Example json_file_example :
  let strs := [ [34; 92; 10; 1]; [195; 169]; b64_encode [1; 2] ] in
  Forall (fun s => is_utf8 s = true) strs /\ json_strings (strings_text strs) = Ok strs /\
  shard_from_json_file ex_prg true (repeat 7 32) (fun _ => Some (strings_text strs)) [100] 2 1 16 10 = Err EBase64.
Proof. repeat split; try (repeat constructor; fail); vm_compute; reflexivity. Qed.

(** ** C53 *)

(** @C53 refuted: a missing, non-UTF-8 or ill-formed input file makes
    [Shard::from_json_file] and [KVShard::from_json_file] panic instead of returning an
    error, for every such file; [IndexDatabase::from_file] returns an error. *)
Lemma bad_file_is_error_refuted : forall sha prg dbg fe rnd fseed pseed d p dim m es pb,
  (d p = None \/ exists c, d p = Some c /\ (is_utf8 c = false \/ parse_text c = None)) ->
  shard_from_json_file prg dbg pseed d p dim m es pb = Panic /\
  kv_shard_from_json_file sha prg dbg fe rnd fseed pseed d p dim m es pb = Panic /\
  exists e, index_db_from_file dbg d p m es pb = Err e.
Proof.
  intros sha prg dbg fe rnd fseed pseed d p dim m es pb H.
  unfold shard_from_json_file, kv_shard_from_json_file, index_db_from_file, read_to_string, json_strings, json_kvs.
  destruct H as [->|(c & -> & [->|PT])]; cbn [unwrap bind]; eauto 6.
  destruct (is_utf8 c); cbn [unwrap bind]; rewrite ?PT; cbn [of_opt unwrap bind]; eauto 6.
Qed.

(** @C53 A well-formed file whose value is not a list of strings: the same. *)
Lemma wrong_json_is_error_refuted : forall prg dbg pseed d p c v dim m es pb,
  d p = Some c -> is_utf8 c = true -> parse_text c = Some v ->
  (forall strs, v <> JArr (map JStr strs)) ->
  shard_from_json_file prg dbg pseed d p dim m es pb = Panic /\
  index_db_from_file dbg d p m es pb = Err EDeserialize.
Proof.
  intros prg dbg pseed d p c v dim m es pb Hd Hu Hp Hv.
  assert (J : json_strings c = Err EDeserialize).
  { unfold json_strings. rewrite Hp. destruct v as [| | | | |l|]; try reflexivity. cbn [de_vec].
    destruct (all_some de_string l) as [strs|] eqn:E; [|reflexivity]. exfalso. apply (Hv strs). f_equal.
    clear - E. revert strs E. induction l as [|x l IH]; intros strs E; cbn [all_some] in E.
    - now injection E as <-.
    - destruct x; cbn [de_string] in E; try discriminate. destruct (all_some de_string l); [|discriminate].
      injection E as <-. cbn [map]. f_equal. now apply IH. }
  unfold shard_from_json_file, index_db_from_file, read_to_string. rewrite Hd, Hu. cbn [unwrap bind].
  rewrite J. split; reflexivity.
Qed.

(** @C53 example: a file holding [[1]]. *)
Example bad_file_example :
  parse_text [91; 91; 49; 93; 93] = Some (JArr [JArr [JInt 1]]) /\
  shard_from_json_file ex_prg true [] (fun _ => Some [91; 91; 49; 93; 93]) [100] 2 1 16 10 = Panic /\
  shard_from_json_file ex_prg true [] (fun _ => Some [91; 34]) [100] 2 1 16 10 = Panic.
Proof. repeat split; vm_compute; reflexivity. Qed.

(** ** C54 *)
Definition seed1 : list Z := map (fun i => (7 * Z.of_nat i + 3) mod 256) (seq 0 32).

(** @C54 refuted: two key-value shards, each built by [KVShard::new] from one pair (same key,
    different values, different filter seeds), write byte-identical files although their
    filter parameters (which a client needs to query and to unmask) differ. *)
Lemma kv_files_determine_shard_refuted : exists rnd1 rnd2 v1 v2 s1 s2,
  kv_shard_new ex_prg true (est 2 12) rnd1 seed0 (repeat 7 32) [ {| kv_key := key4 1; kv_value := [v1] |} ] 2 1 10 10 = Ok s1 /\
  kv_shard_new ex_prg true (est 2 12) rnd2 seed1 (repeat 7 32) [ {| kv_key := key4 1; kv_value := [v2] |} ] 2 1 10 10 = Ok s2 /\
  (forall dbp pp, kv_shard_write_ops s1 dbp pp = kv_shard_write_ops s2 dbp pp) /\
  kp_filter_params (ks_params s1) <> kp_filter_params (ks_params s2) /\ v1 <> v2.
Proof.
  exists ex_rnd.
  set (e1 := match kv_shard_new ex_prg true (est 2 12) ex_rnd seed0 (repeat 7 32) [ {| kv_key := key4 1; kv_value := [77] |} ] 2 1 10 10
             with Ok s => nth 0 (kd_entries (ks_db s)) [] | _ => [] end).
  vm_compute in e1.
  exists (fun _ i => nth i e1 0), 77, 237. subst e1.
  eexists. eexists. split; [vm_compute; reflexivity|]. split; [vm_compute; reflexivity|].
  split; [intros; reflexivity|]. split; [|discriminate]. intros E. apply (f_equal fp_seed) in E. discriminate E.
Qed.

(** @C54 refuted for the index parameters: the file depends only on the seed and the right
    hand side; shards that differ in the dimension, the number of records, the element size
    or the plaintext bits (all of which [load] and a client need) write the same file. *)
Lemma params_file_omits_fields : forall s p' dbp pp,
  ip_public_seed p' = ip_public_seed (sh_params s) -> ip_rhs p' = ip_rhs (sh_params s) ->
  shard_write_ops {| sh_db := sh_db s; sh_params := p' |} dbp pp = shard_write_ops s dbp pp.
Proof. intros s p' dbp pp E1 E2. unfold shard_write_ops. cbn [sh_db sh_params]. now rewrite E1, E2. Qed.
