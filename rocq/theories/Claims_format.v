(** Proofs of the property statements C01-C07. *)
From Verif Require Import Base Fmt Base64 Bincode Db Api Spec
  Base_facts Fmt_facts Codec_facts Mat_facts Index_facts IndexProto_facts.
From Coq Require Import ZifyBool ZifyNat.
Local Open Scope Z_scope.
Ltac Zify.zify_post_hook ::= Z.div_mod_to_equations.

(** @C01 [bytes_to_bits_le] lists the bits of the byte string in order: bit i of the result
    is bit (i mod 8) of byte (i / 8). *)
Lemma bytes_to_bits_positions :
  forall bytes : list Z,
    length (bytes_to_bits_le bytes) = (8 * length bytes)%nat /\
    forall i, (i < 8 * length bytes)%nat ->
      nth_error (bytes_to_bits_le bytes) i
      = Some (Z.testbit (nth (i / 8) bytes 0) (Z.of_nat (i mod 8))).
Proof.
  intros bytes. split; [apply bytes_to_bits_length|]. intros i Hi.
  rewrite (nth_error_nth' _ false) by now rewrite bytes_to_bits_length.
  rewrite bytes_to_bits_spec. unfold byte_string_bits. rewrite nth_map_seq by auto. reflexivity.
Qed.

(** @C01 bytes -> bits -> bytes is the identity, in both build profiles. *)
Lemma bytes_bits_bytes :
  forall (dbg : bool) (bytes : list Z),
    Forall is_u8 bytes -> bits_to_bytes_le dbg (bytes_to_bits_le bytes) = Ok bytes.
Proof. exact bytes_roundtrip. Qed.

(** @C01 bits -> bytes -> bits restores the bits, padded with [false] to whole bytes. *)
Lemma bits_bytes_bits :
  forall (dbg : bool) (bits : list bool),
    exists bytes, bits_to_bytes_le dbg bits = Ok bytes /\ Forall is_u8 bytes /\
      length bytes = ((length bits + 7) / 8)%nat /\
      bytes_to_bits_le bytes = bits ++ repeat false (8 * length bytes - length bits).
Proof. exact bits_to_bytes_roundtrip. Qed.

(** @C01 example: the byte hypothesis is met and the functions compute. *)
Example bytes_bits_example :
  Forall is_u8 [5; 255] /\
  bytes_to_bits_le [5; 255] = [true; false; true; false; false; false; false; false;
                               true; true; true; true; true; true; true; true] /\
  bits_to_bytes_le true [true; false; true] = Ok [5].
Proof.
  split; [|split; reflexivity]. repeat constructor; unfold two8; lia.
Qed.

(** @C02 [bits_to_u32_le] accepts exactly the bit strings of at most 32 bits and returns the
    sum of 2^i over the set bits; longer ones are the size error, never a panic. *)
Lemma bits_to_u32_exact :
  forall (dbg : bool) (bits : list bool),
    ((length bits <= 32)%nat -> bits_to_u32_le dbg bits = Ok (bits_value bits)) /\
    ((32 < length bits)%nat -> bits_to_u32_le dbg bits = Err EInputSize).
Proof.
  intros dbg bits. rewrite bits_to_u32_le_closed.
  destruct (Nat.leb_spec (length bits) 32); split; intros; auto; lia.
Qed.

(** @C02 [u32_to_bits_le x n] is the list of the n low bits for n <= 32, a panic otherwise. *)
Lemma u32_to_bits_exact :
  forall (x : Z) (n : nat),
    ((n <= 32)%nat -> u32_to_bits_le x n = Ok (low_bits x n)) /\
    ((32 < n)%nat -> u32_to_bits_le x n = Panic).
Proof.
  intros x n. rewrite u32_to_bits_le_closed.
  destruct (Nat.leb_spec n 32); split; intros; auto; lia.
Qed.

(** @C02 The two conversions are mutually inverse. *)
Lemma u32_bits_inverse :
  forall (dbg : bool),
    (forall (x : Z) (n : nat), (n <= 32)%nat -> 0 <= x < 2 ^ Z.of_nat n ->
       (let* bits := u32_to_bits_le x n in bits_to_u32_le dbg bits) = Ok x) /\
    (forall bits : list bool, (length bits <= 32)%nat ->
       (let* x := bits_to_u32_le dbg bits in u32_to_bits_le x (length bits)) = Ok bits).
Proof.
  intros dbg. split.
  - intros x n Hn Hx. rewrite u32_to_bits_le_closed.
    destruct (Nat.leb_spec n 32); [|lia]. cbn [bind].
    rewrite bits_to_u32_le_closed, low_bits_length.
    destruct (Nat.leb_spec n 32); [|lia]. now rewrite bits_value_low_bits.
  - intros bits Hb. rewrite bits_to_u32_le_closed.
    destruct (Nat.leb_spec (length bits) 32); [|lia]. cbn [bind].
    rewrite u32_to_bits_le_closed. destruct (Nat.leb_spec (length bits) 32); [|lia].
    now rewrite low_bits_value, fit_same.
Qed.

(** @C02 example. *)
Example u32_bits_example :
  bits_to_u32_le true [true; false; true; true] = Ok 13 /\
  u32_to_bits_le 13 5 = Ok [true; false; true; true; false] /\
  bits_to_u32_le false (repeat true 33) = Err EInputSize.
Proof. repeat split; reflexivity. Qed.

(** @C03 Row width is the least w with w * plaintext_bits >= elem_size; zero plaintext bits
    panic. *)
Lemma row_width_is_ceiling :
  forall es pb : nat,
    (pb <> 0%nat -> exists w, get_row_width es pb = Ok w /\ is_ceil_div es pb w) /\
    (pb = 0%nat -> get_row_width es pb = Panic).
Proof.
  intros es pb. split.
  - intros H. apply get_row_width_pos. lia.
  - intros ->. reflexivity.
Qed.

(** @C03 Index and key-value databases with the same parameters report the same width. *)
Lemma row_width_agrees :
  forall (d : index_db) (k : kv_db),
    id_elem_size d = kd_elem_size k -> id_plaintext_bits d = kd_plaintext_bits k ->
    index_row_width_self d = kv_row_width_self k.
Proof. intros d k H1 H2. unfold index_row_width_self, kv_row_width_self. now rewrite H1, H2. Qed.

(** @C03 example: 256 bits in 11-bit chunks take 24 chunks. *)
Example row_width_example : get_row_width 256 11 = Ok 24%nat /\ is_ceil_div 256 11 24.
Proof.
  split; [reflexivity|]. split; [lia|]. intros w' Hw'. lia.
Qed.

(** ** Storing and reading back *)
Lemma stored_unique strs m pb w elems i b :
  stored strs m pb w elems -> (i < m)%nat -> b64_decode (nth i strs []) = Ok b ->
  nth i elems [] = b.
Proof. intros (_ & _ & H) Hi Hb. destruct (H i Hi) as [E _]. congruence. Qed.

Lemma db_entry_bits dbg elems m es pb w i :
  (1 <= pb <= 32)%nat -> (1 <= w)%nat -> (i < length elems)%nat ->
  (w * pb <= 8 * length (nth i elems []) + pb)%nat ->
  index_get_db_entry dbg (db_of elems m es pb w) i =
  let* out := bits_to_bytes_le dbg (fit ((w - 1) * pb + es mod pb)
                                        (byte_string_bits (nth i elems []))) in
  Ok (b64_encode out).
Proof.
  intros Hpb Hw Hi Hl. unfold index_get_db_entry, get_matrix_second_at.
  cbn [id_entries db_of id_plaintext_bits id_elem_size].
  rewrite (mapM_Ok _ (fun col => nth i col 0)).
  2:{ intros col Hc. apply in_map_iff in Hc as (c & <- & Hc).
      apply idx_nth. now rewrite column_length. }
  cbn [bind]. rewrite map_map.
  rewrite (map_ext _ (chunk (nth i elems []) pb)).
  2:{ intros c. unfold column. now rewrite (nth_map' _ _ _ _ []) by auto. }
  rewrite <- row_of_bits_chunk. unfold base64_from_u32_slice.
  rewrite reassemble by (rewrite ?bytes_to_bits_length; auto).
  now rewrite bytes_to_bits_spec.
Qed.

Lemma fit_bytes dbg n bits :
  exists out, bits_to_bytes_le dbg (fit n bits) = Ok out /\ Forall is_u8 out /\
    length out = ((n + 7) / 8)%nat /\
    byte_string_bits out = fit n bits ++ repeat false (8 * length out - n).
Proof.
  destruct (bits_to_bytes_roundtrip dbg (fit n bits)) as (out & H1 & H2 & H3 & H4).
  rewrite fit_length in H3, H4. exists out. repeat split; auto. now rewrite <- bytes_to_bits_spec.
Qed.

(** @C04 Index databases: when plaintext_bits does not divide elem_size, entry i read back is
    exactly elem_size bits of element i (cut, or extended with zeros), as whole bytes. *)
Lemma store_and_read :
  forall (dbg : bool) (strs : list (list Z)) (m es pb : nat) (db : index_db)
         (i : nat) (elem : list Z),
    (1 <= pb <= 32)%nat -> (es mod pb <> 0)%nat ->
    index_db_new dbg strs m es pb = Ok db ->
    (i < m)%nat -> b64_decode (nth i strs []) = Ok elem ->
    exists out, index_get_db_entry dbg db i = Ok (b64_encode out) /\
      Forall is_u8 out /\ length out = ((es + 7) / 8)%nat /\
      byte_string_bits out = fit es (byte_string_bits elem) ++ repeat false (8 * length out - es).
Proof.
  intros dbg strs m es pb db i elem Hpb Hes Hdb Hi Hel.
  destruct (get_row_width_pos es pb) as (w & _ & Hw); [lia|].
  destruct (index_db_new_inv _ _ _ _ _ w _ Hpb Hw Hdb) as (Hm & elems & Hst & ->).
  pose proof (stored_unique _ _ _ _ _ _ _ Hst Hi Hel) as E. subst elem.
  destruct (ceil_notdiv es pb w) as [Hw1 Hw2]; auto; [lia|].
  destruct Hst as (Hl & _ & Hst). destruct (Hst i Hi) as [_ Hlen].
  rewrite db_entry_bits by (auto; lia). rewrite Hw2.
  destruct (fit_bytes dbg es (byte_string_bits (nth i elems []))) as (out & -> & H).
  exists out. split; auto.
Qed.

(** @C04 Key-value elements: the same for the row produced from a value string. *)
Lemma kv_store_and_read :
  forall (sha : list Z -> list Z) (dbg : bool) (k v : list Z) (es pb : nat)
         (kv : key_value) (elem : list Z),
    (1 <= pb <= 32)%nat -> (es mod pb <> 0)%nat ->
    kv_from_base64_strings sha dbg k v es pb = Ok kv -> b64_decode v = Ok elem ->
    exists out, bytes_from_u32_slice dbg (kv_value kv) pb es = Ok out /\
      Forall is_u8 out /\ length out = ((es + 7) / 8)%nat /\
      byte_string_bits out = fit es (byte_string_bits elem) ++ repeat false (8 * length out - es).
Proof.
  intros sha dbg k v es pb kv elem Hpb Hes H Hel.
  unfold kv_from_base64_strings in H. apply bind_Ok in H as (key & _ & H).
  apply bind_Ok in H as (row & Hr & [= <-]). cbn [kv_value].
  unfold kv_construct_row in Hr.
  destruct (get_row_width_pos es pb) as (w & E & Hw); [lia|]. rewrite E in Hr. cbn [bind] in Hr.
  rewrite Hel in Hr. cbn [bind] in Hr.
  destruct (ceil_notdiv es pb w) as [Hw1 Hw2]; auto; [lia|].
  destruct (Nat.le_gt_cases (w * pb) (8 * length elem + pb)) as [Hl|Hl].
  - rewrite chunk_row_closed in Hr by (rewrite ?bytes_to_bits_length; auto). injection Hr as <-.
    fold (row_of_bits (bytes_to_bits_le elem) pb w).
    rewrite reassemble by (rewrite ?bytes_to_bits_length; auto). rewrite Hw2, bytes_to_bits_spec.
    destruct (fit_bytes dbg es (byte_string_bits elem)) as (out & -> & H).
    exists out. auto.
  - rewrite chunk_row_panic in Hr by (rewrite ?bytes_to_bits_length; auto). discriminate.
Qed.

(** @C04 Construction is total on long enough elements: if the first m strings decode to
    elements reaching at least into the last chunk, a database is built (m > 0). *)
Lemma construction_succeeds :
  forall (dbg : bool) (strs elems : list (list Z)) (m es pb w : nat),
    (1 <= pb <= 32)%nat -> is_ceil_div es pb w -> (0 < m <= length strs)%nat ->
    length elems = m ->
    (forall i, (i < m)%nat -> b64_decode (nth i strs []) = Ok (nth i elems []) /\
                              (w * pb <= 8 * length (nth i elems []) + pb)%nat) ->
    exists db, index_db_new dbg strs m es pb = Ok db.
Proof.
  intros dbg strs elems m es pb w Hpb Hw Hm Hl H.
  eexists. apply (index_db_new_ok dbg strs m es pb w elems); auto; [lia|].
  split; auto. split; [lia|]. auto.
Qed.

(** @C04 An element that ends before its last chunk starts makes construction panic (when the
    strings before it are fine). *)
Lemma short_element_panics :
  forall (dbg : bool) (strs elems : list (list Z)) (m es pb w k : nat) (short : list Z),
    (1 <= pb <= 32)%nat -> is_ceil_div es pb w -> (k < m <= length strs)%nat ->
    (forall i, (i < k)%nat -> b64_decode (nth i strs []) = Ok (nth i elems []) /\
                              (w * pb <= 8 * length (nth i elems []) + pb)%nat) ->
    b64_decode (nth k strs []) = Ok short -> (8 * length short + pb < w * pb)%nat ->
    index_db_new dbg strs m es pb = Panic.
Proof.
  intros dbg strs elems m es pb w k short Hpb Hw Hm Hok Hk Hs.
  unfold index_db_new, construct_rows.
  destruct (get_row_width_pos es pb) as (w' & -> & Hw'); [lia|].
  rewrite (is_ceil_div_unique _ _ _ _ Hw' Hw). cbn [bind].
  rewrite (mapM_seq_panic _ _ k); [reflexivity|lia| |].
  - intros i Hi. rewrite (idx_nth strs i []) by lia. cbn [bind].
    destruct (Hok i Hi) as [H1 H2]. eexists. apply construct_row_ok; eauto.
  - rewrite (idx_nth strs k []) by lia. cbn [bind]. unfold index_construct_row. rewrite Hk.
    cbn [bind]. apply chunk_row_panic; auto. now rewrite bytes_to_bits_length.
Qed.

(** @C04 A string that is not base64 makes construction return the decode error (when the
    strings before it are fine). *)
Lemma undecodable_element_err :
  forall (dbg : bool) (strs elems : list (list Z)) (m es pb w k : nat),
    (1 <= pb <= 32)%nat -> is_ceil_div es pb w -> (k < m <= length strs)%nat ->
    (forall i, (i < k)%nat -> b64_decode (nth i strs []) = Ok (nth i elems []) /\
                              (w * pb <= 8 * length (nth i elems []) + pb)%nat) ->
    b64_decode (nth k strs []) = Err EBase64 ->
    index_db_new dbg strs m es pb = Err EBase64.
Proof.
  intros dbg strs elems m es pb w k Hpb Hw Hm Hok Hk.
  unfold index_db_new, construct_rows.
  destruct (get_row_width_pos es pb) as (w' & -> & Hw'); [lia|].
  rewrite (is_ceil_div_unique _ _ _ _ Hw' Hw). cbn [bind].
  replace (seq 0 m) with (seq 0 k ++ k :: seq (S k) (m - S k)).
  2:{ change (k :: seq (S k) (m - S k)) with (seq k (S (m - S k))).
      rewrite <- seq_app. f_equal. lia. }
  rewrite mapM_first_fail.
  - rewrite (idx_nth strs k []) by lia. cbn [bind]. unfold index_construct_row. rewrite Hk.
    reflexivity.
  - intros i Hi. apply in_seq in Hi. rewrite (idx_nth strs i []) by lia. cbn [bind].
    destruct (Hok i) as [H1 H2]; [lia|]. eexists. apply construct_row_ok; eauto.
Qed.

(** @C04 example: 16-bit elements in 10-bit chunks. *)
Example store_and_read_example :
  exists db, index_db_new true [b64_encode [1; 2]; b64_encode [255; 128]] 2 16 10 = Ok db /\
    (16 mod 10 <> 0)%nat /\ b64_decode (b64_encode [255; 128]) = Ok [255; 128] /\
    index_get_db_entry true db 1 = Ok (b64_encode [255; 128]).
Proof.
  destruct (index_db_new true [b64_encode [1; 2]; b64_encode [255; 128]] 2 16 10) eqn:E;
    vm_compute in E; try discriminate.
  injection E as <-. eexists. split; [reflexivity|]. split; [discriminate|].
  split; vm_compute; reflexivity.
Qed.

(** @C04 example: a 1-byte element where three 10-bit chunks are needed panics; a string with a
    foreign symbol is an error. *)
Example short_and_bad_example :
  index_db_new true [b64_encode [7; 7; 7]; b64_encode [7]] 2 24 10 = Panic /\
  index_db_new true [b64_encode [7; 7; 7]; [33; 33; 33; 33]] 2 24 10 = Err EBase64.
Proof. split; vm_compute; reflexivity. Qed.

(** @C05 When plaintext_bits divides elem_size, the last chunk of every element is dropped:
    only elem_size - plaintext_bits bits come back, whatever the element. *)
Lemma divisible_loses_last_chunk :
  forall (dbg : bool) (strs : list (list Z)) (m es pb : nat) (db : index_db)
         (i : nat) (elem : list Z),
    (1 <= pb <= 32)%nat -> (es mod pb = 0)%nat -> (0 < es)%nat ->
    index_db_new dbg strs m es pb = Ok db ->
    (i < m)%nat -> b64_decode (nth i strs []) = Ok elem ->
    exists out, index_get_db_entry dbg db i = Ok (b64_encode out) /\
      length out = ((es - pb + 7) / 8)%nat /\
      byte_string_bits out =
        fit (es - pb) (byte_string_bits elem) ++ repeat false (8 * length out - (es - pb)).
Proof.
  intros dbg strs m es pb db i elem Hpb Hes Hpos Hdb Hi Hel.
  destruct (get_row_width_pos es pb) as (w & _ & Hw); [lia|].
  destruct (index_db_new_inv _ _ _ _ _ w _ Hpb Hw Hdb) as (Hm & elems & Hst & ->).
  pose proof (stored_unique _ _ _ _ _ _ _ Hst Hi Hel) as E. subst elem.
  pose proof (ceil_div es pb w ltac:(lia) Hw Hes) as Hwe.
  destruct Hst as (Hl & _ & Hst). destruct (Hst i Hi) as [_ Hlen].
  rewrite db_entry_bits by (auto; nia).
  replace ((w - 1) * pb + es mod pb)%nat with (es - pb)%nat by nia.
  destruct (fit_bytes dbg (es - pb) (byte_string_bits (nth i elems []))) as (out & -> & H).
  exists out. split; [reflexivity|]. tauto.
Qed.

(** @C05 Refuted: a database accepts an element of exactly elem_size bits and returns a
    different one. *)
Lemma divisible_roundtrip_refuted :
  exists (strs : list (list Z)) (es pb : nat) (db : index_db) (elem : list Z),
    (es mod pb = 0)%nat /\ (8 * length elem = es)%nat /\ strs = [b64_encode elem] /\
    (forall dbg, index_db_new dbg strs 1 es pb = Ok db) /\
    (forall dbg, exists got, index_get_db_entry dbg db 0 = Ok got /\ got <> b64_encode elem).
Proof.
  exists [b64_encode [1; 2]], 16%nat, 8%nat,
    {| id_entries := [[1]; [2]]; id_m := 1; id_elem_size := 16; id_plaintext_bits := 8 |}, [1; 2].
  split; [reflexivity|]. split; [reflexivity|]. split; [reflexivity|]. split.
  - intros []; vm_compute; reflexivity.
  - intros []; (eexists; split; [vm_compute; reflexivity|vm_compute; discriminate]).
Qed.

(** @C05 example: the repository's own configurations 819200/10 and 245760/10 are divisible. *)
Example repo_configs_divisible :
  (Z.to_nat 819200 mod 10 = 0)%nat /\ (Z.to_nat 245760 mod 10 = 0)%nat.
Proof.
  split; apply Nat2Z.inj; rewrite Nat2Z.inj_mod, Z2Nat.id by (apply Z.leb_le; reflexivity); reflexivity.
Qed.

(** @C06 Rows enumerate the inputs: with canonical base64 strings of elem_size bits and
    plaintext_bits not dividing elem_size, the shard exists, [into_row_iter] is the list of
    the first m strings, and [get_db_entry i] is the i-th. *)
Lemma rows_are_inputs :
  forall (prg : list Z -> nat -> Z) (dbg : bool) (seed : list Z) (elems : list (list Z))
         (dim m es pb : nat),
    (1 <= pb <= 32)%nat -> (es mod pb <> 0)%nat ->
    (0 < m <= length elems)%nat ->
    Forall (fun b => Forall is_u8 b /\ (8 * length b = es)%nat) elems ->
    exists sh,
      shard_from_base64_strings prg dbg seed (map b64_encode elems) dim m es pb = Ok sh /\
      shard_into_row_iter dbg sh = Ok (firstn m (map b64_encode elems)) /\
      forall i, (i < m)%nat ->
        index_get_db_entry dbg (sh_db sh) i = Ok (nth i (map b64_encode elems) []).
Proof.
  intros prg dbg seed elems dim m es pb Hpb Hes Hm HF.
  destruct (get_row_width_pos es pb) as (w & _ & Hw); [lia|].
  destruct (ceil_notdiv es pb w) as [Hw1 Hw2]; auto; [lia|].
  pose proof (Nat.mod_upper_bound es pb ltac:(lia)) as Hmod.
  rewrite Forall_forall in HF.
  assert (Hst : stored (map b64_encode elems) m pb w (firstn m elems)).
  { split; [rewrite firstn_length; lia|]. split; [rewrite map_length; lia|].
    intros i Hi. rewrite (nth_map' _ _ _ _ []) by lia. rewrite nth_firstn' by auto.
    destruct (HF (nth i elems [])) as [Hu Hl]; [apply nth_In; lia|].
    split; [now apply b64_roundtrip|]. rewrite Hl. nia. }
  exists (shard_of prg seed dim (firstn m elems) m es pb w).
  split; [apply shard_ok; auto; lia|].
  assert (Hent : forall i, (i < m)%nat ->
     index_get_db_entry dbg (db_of (firstn m elems) m es pb w) i
     = Ok (nth i (map b64_encode elems) [])).
  { intros i Hi. destruct Hst as (Hl & _ & Hst). destruct (Hst i Hi) as [_ Hlen].
    rewrite db_entry_bits by (auto; lia). rewrite Hw2.
    rewrite nth_firstn' by auto. rewrite (nth_map' _ _ _ _ []) by lia.
    destruct (HF (nth i elems [])) as [Hu Hl']; [apply nth_In; lia|].
    rewrite <- bytes_to_bits_spec.
    replace es with (length (bytes_to_bits_le (nth i elems []))) by now rewrite bytes_to_bits_length.
    rewrite fit_same, bytes_roundtrip by auto. reflexivity. }
  split; [|exact Hent].
  unfold shard_into_row_iter, index_matrix_height. cbn [sh_db shard_of bind].
  change (id_m (db_of (firstn m elems) m es pb w)) with m.
  rewrite (mapM_Ok _ (fun i => nth i (map b64_encode elems) [])).
  - f_equal. apply (list_eq_nth _ _ []).
    + rewrite firstn_length, !map_length, seq_length. lia.
    + intros i Hi. rewrite map_length, seq_length in Hi.
      rewrite nth_map_seq, nth_firstn' by auto. reflexivity.
  - intros i Hi. apply in_seq in Hi. apply Hent. lia.
Qed.

(** @C06 example: hypotheses are met by two 16-bit elements with 10-bit chunks; extra elements
    beyond m are ignored. *)
Example rows_are_inputs_example :
  (16 mod 10 <> 0)%nat /\
  Forall (fun b => Forall is_u8 b /\ (8 * length b = 16)%nat) [[1; 2]; [3; 200]; [9; 9]] /\
  (0 < 2 <= length [[1; 2]; [3; 200]; [9; 9]])%nat.
Proof.
  split; [discriminate|]. split; [|simpl; lia].
  repeat constructor; unfold two8; lia.
Qed.

(** @C07 Deserialising a serialised response gives the vector back; trailing bytes are ignored. *)
Lemma response_roundtrip :
  forall (v tail : list Z),
    Forall is_u32 v -> Z.of_nat (length v) < 2 ^ 64 ->
    bincode_de_vec_u32 (bincode_ser_vec_u32 v ++ tail) = Ok v /\
    length (bincode_ser_vec_u32 v) = (8 + 4 * length v)%nat.
Proof. intros v tail Hv Hl. split; [now apply bincode_roundtrip|apply bincode_ser_length]. Qed.

Lemma firstn_app_exact {A} n (a b : list A) : length a = n -> firstn n (a ++ b) = a.
Proof. intros <-. rewrite firstn_app, Nat.sub_diag, firstn_O, app_nil_r. apply firstn_all. Qed.

(** @C07 Every strict prefix of an encoding is rejected. *)
Lemma response_prefix_rejected :
  forall (v : list Z) (n : nat),
    Z.of_nat (length v) < 2 ^ 64 -> (n < length (bincode_ser_vec_u32 v))%nat ->
    bincode_de_vec_u32 (firstn n (bincode_ser_vec_u32 v)) = Err EDeserialize.
Proof.
  intros v n Hl Hn. rewrite bincode_ser_length in Hn. unfold bincode_de_vec_u32.
  rewrite firstn_length, bincode_ser_length.
  destruct (Nat.ltb_spec (Nat.min n (8 + 4 * length v)) 8) as [H|H]; auto.
  rewrite firstn_firstn. replace (Nat.min 8 n) with 8%nat by lia.
  assert (E8 : firstn 8 (bincode_ser_vec_u32 v) = le_bytes 8 (Z.of_nat (length v))).
  { unfold bincode_ser_vec_u32. apply firstn_app_exact. now rewrite length_le_bytes. }
  rewrite E8.
  rewrite of_le_le_bytes by (split; [lia|exact Hl]).
  rewrite skipn_length, firstn_length, bincode_ser_length.
  destruct (Z.ltb_spec (Z.of_nat (Nat.min n (8 + 4 * length v) - 8)) (4 * Z.of_nat (length v)));
    auto. lia.
Qed.

Lemma read_u32s_bytes n l :
  Forall is_u8 l -> (4 * n <= length l)%nat ->
  length (read_u32s n l) = n /\ flat_map (le_bytes 4) (read_u32s n l) = firstn (4 * n) l /\
  Forall is_u32 (read_u32s n l).
Proof.
  revert l; induction n as [|n IH]; intros l Hu Hl.
  - rewrite Nat.mul_0_r. repeat split; constructor.
  - cbn [read_u32s].
    assert (Hf : Forall is_u8 (firstn 4 l)) by (rewrite <- (firstn_skipn 4 l) in Hu; apply Forall_app in Hu; tauto).
    assert (Hs : Forall is_u8 (skipn 4 l)) by (rewrite <- (firstn_skipn 4 l) in Hu; apply Forall_app in Hu; tauto).
    destruct (IH (skipn 4 l)) as (H1 & H2 & H3); auto; [rewrite skipn_length; lia|].
    split; [cbn [length]; now rewrite H1|]. split.
    + cbn [flat_map]. rewrite H2.
      pose proof (le_of_le_bytes (firstn 4 l) Hf) as E. rewrite firstn_length_le in E by lia.
      rewrite E. rewrite <- (firstn_skipn 4 l) at 3. rewrite firstn_app, firstn_firstn.
      rewrite firstn_length_le by lia.
      replace (Nat.min (4 * S n) 4) with 4%nat by lia. f_equal. f_equal. lia.
    + constructor; auto. pose proof (of_le_bytes_range _ Hf) as R.
      rewrite firstn_length_le in R by lia. exact R.
Qed.

(** @C07 Conversely, every byte string that deserialises starts with the canonical encoding of
    the vector it yields (so two vectors never share an encoding). *)
Lemma response_decoding_canonical :
  forall (bytes v : list Z),
    Forall is_u8 bytes -> bincode_de_vec_u32 bytes = Ok v ->
    Forall is_u32 v /\ exists tail, bytes = bincode_ser_vec_u32 v ++ tail.
Proof.
  intros bytes v Hu H. unfold bincode_de_vec_u32 in H.
  destruct (Nat.ltb_spec (length bytes) 8) as [|H8]; [discriminate|].
  assert (Hf : Forall is_u8 (firstn 8 bytes)) by (rewrite <- (firstn_skipn 8 bytes) in Hu; apply Forall_app in Hu; tauto).
  assert (Hs : Forall is_u8 (skipn 8 bytes)) by (rewrite <- (firstn_skipn 8 bytes) in Hu; apply Forall_app in Hu; tauto).
  pose proof (of_le_bytes_range _ Hf) as R. rewrite firstn_length_le in R by lia.
  set (n := of_le_bytes (firstn 8 bytes)) in *.
  destruct (Z.ltb_spec (Z.of_nat (length (skipn 8 bytes))) (4 * n)) as [|Hl]; [discriminate|].
  assert (Ev : read_u32s (Z.to_nat n) (skipn 8 bytes) = v) by congruence. clear H. subst v.
  destruct (read_u32s_bytes (Z.to_nat n) (skipn 8 bytes)) as (H1 & H2 & H3); auto; [lia|].
  split; auto. exists (skipn (4 * Z.to_nat n) (skipn 8 bytes)).
  unfold bincode_ser_vec_u32. rewrite H1, H2, Z2Nat.id by lia.
  unfold n. pose proof (le_of_le_bytes _ Hf) as E. rewrite firstn_length_le in E by lia.
  rewrite E, <- app_assoc, firstn_skipn. symmetry. apply firstn_skipn.
Qed.

(** @C07 example. *)
Example response_example :
  bincode_de_vec_u32 (bincode_ser_vec_u32 [1; 4294967295] ++ [9]) = Ok [1; 4294967295].
Proof. vm_compute. reflexivity. Qed.
