(** C81: the layout of everything the library serialises. *)
From Coq Require Import String.
From Verif Require Import Base Db Api Json Files Serde SpecSerde SpecWire Base_facts Files_facts Claims_files.
Local Open Scope Z_scope.

(** ** Bytes *)
Lemma le_bytes_uint k : forall x, le_bytes k x = uint_le k x.
Proof.
  induction k as [|k IH]; intros x; [reflexivity|]. unfold uint_le. cbn [le_bytes seq map].
  rewrite Z.pow_0_r, Z.div_1_r. f_equal. rewrite IH. unfold uint_le. rewrite <- seq_shift, map_map.
  apply map_ext. intros i. rewrite Nat2Z.inj_succ, Z.pow_succ_r by lia. rewrite Z.div_div by (try apply Z.pow_pos_nonneg; lia).
  reflexivity.
Qed.

Lemma w_array_flat {A} (f g : A -> list Z) l : (forall a, f a = g a) -> flat_map f l = w_array g l.
Proof. intros E. unfold w_array. rewrite flat_map_concat_map. f_equal. now apply map_ext. Qed.

Lemma benc_usize n : benc b_usize n = w_size n.
Proof. apply le_bytes_uint. Qed.

Lemma benc_vec {A} (c : bcodec A) g l : (forall a, benc c a = g a) -> benc (b_vec c) l = w_vector g l.
Proof.
  intros E. unfold b_vec, w_vector. cbn [benc]. rewrite benc_usize. f_equal. now apply w_array_flat.
Qed.

Lemma benc_arr {A} n (c : bcodec A) g l : (forall a, benc c a = g a) -> benc (b_arr n c) l = w_array g l.
Proof. intros E. unfold b_arr. cbn [benc]. now apply w_array_flat. Qed.

Lemma benc_uint k x : benc (b_uint k) x = uint_le k x. Proof. apply le_bytes_uint. Qed.
Lemma benc_seed s : benc b_seed s = bytes32 s.
Proof. apply benc_arr. apply benc_uint. Qed.
Lemma benc_words l : benc b_words l = w_words l.
Proof. apply benc_vec. apply benc_uint. Qed.
Lemma benc_matrix m : benc b_matrix m = w_matrix m.
Proof. apply benc_vec. intros l. apply benc_words. Qed.
Lemma benc_pair {A B} (c : bcodec A) (d : bcodec B) a b : benc (b_pair c d) (a, b) = benc c a ++ benc d b.
Proof. reflexivity. Qed.
Lemma benc_iso {A B} (f : A -> B) g (c : bcodec A) b : benc (b_iso f g c) b = benc c (g b).
Proof. reflexivity. Qed.
Lemma benc_filter_params p : benc b_filter_params p = w_filter_params p.
Proof.
  unfold b_filter_params, w_filter_params. rewrite benc_iso, !benc_pair, benc_seed. unfold b_u32. now rewrite !benc_uint.
Qed.

(** @C81 bincode: the bytes of every serialisable type are the fields in declaration order:
    integers little-endian in their own width, usize in 8 bytes, vectors with an 8-byte length
    in front, arrays without, options and flags with one byte, nothing for markers. *)
Lemma wire_bincode :
  (forall v, bin_serialize b_query v = w_words v /\ bin_serialize b_response v = w_words v) /\
  (forall a, bin_serialize b_common_params a = w_matrix a) /\
  (forall p, bin_serialize b_filter_params p = w_filter_params p) /\
  (forall d, bin_serialize b_index_db d = w_index_db d) /\
  (forall p, bin_serialize b_index_params p = w_index_params p) /\
  (forall s, bin_serialize b_shard s = w_index_db (sh_db s) ++ w_index_params (sh_params s)) /\
  (forall x, bin_serialize b_key_value x = w_key_value x) /\
  (forall d, bin_serialize b_kv_db d = w_kv_db d) /\
  (forall p, bin_serialize b_kv_params p = w_kv_params p) /\
  (forall s, bin_serialize b_kv_shard s = w_kv_db (ks_db s) ++ w_kv_params (ks_params s)) /\
  (forall k v, bin_serialize b_encoded_kv (k, v) = w_vector (uint_le 1) k ++ w_vector (uint_le 1) v) /\
  (forall q, bin_serialize b_index_query_params q = w_query_params None q) /\
  (forall q, bin_serialize b_kv_query_params q = w_query_params (option_map w_filter_params (qp_extra q)) q) /\
  (forall f, bin_serialize b_bfusep f = w_bfusep f) /\
  (forall k f, bin_serialize (b_bfuse k) f = w_bfuse k f) /\
  (forall k f, bin_serialize (b_xor k) f = w_xor k f) /\
  (forall k f, bin_serialize (b_fuse k) f = w_fuse k f).
Proof.
  unfold bin_serialize.
  assert (DB : forall d, benc b_index_db d = w_index_db d).
  { intros d. unfold b_index_db, w_index_db. now rewrite benc_iso, !benc_pair, benc_matrix, !benc_usize. }
  assert (PA : forall p, benc b_index_params p = w_index_params p).
  { intros p. unfold b_index_params, w_index_params. now rewrite benc_iso, !benc_pair, benc_matrix, !benc_usize, benc_seed. }
  assert (KD : forall d, benc b_kv_db d = w_kv_db d).
  { intros d. unfold b_kv_db, w_kv_db. now rewrite benc_iso, !benc_pair, benc_matrix, !benc_usize, benc_filter_params. }
  assert (KP : forall p, benc b_kv_params p = w_kv_params p).
  { intros p. unfold b_kv_params, w_kv_params. now rewrite benc_iso, !benc_pair, benc_matrix, !benc_usize, benc_seed, benc_filter_params. }
  split. { intros v. split; apply benc_words. }
  split; [exact benc_matrix|]. split; [exact benc_filter_params|]. split; [exact DB|]. split; [exact PA|].
  split. { intros s. unfold b_shard. now rewrite benc_iso, benc_pair, DB, PA. }
  split. { intros x. unfold b_key_value, w_key_value. rewrite benc_iso, benc_pair, benc_words. f_equal. apply benc_arr. apply benc_uint. }
  split; [exact KD|]. split; [exact KP|].
  split. { intros s. unfold b_kv_shard. now rewrite benc_iso, benc_pair, KD, KP. }
  split. { intros k v. unfold b_encoded_kv. rewrite benc_pair. f_equal; apply benc_vec, benc_uint. }
  split. { intros q. unfold b_index_query_params, w_query_params. now rewrite benc_iso, !benc_pair, !benc_words, !benc_usize. }
  split. { intros q. unfold b_kv_query_params, w_query_params. rewrite benc_iso, !benc_pair, !benc_words, !benc_usize.
           do 4 f_equal. cbn [b_unit benc app]. f_equal. destruct (qp_extra q) as [f|]; [|reflexivity]. cbn [option_map b_opt benc].
           f_equal. apply benc_filter_params. }
  split. { intros f. unfold b_bfusep, w_bfusep. rewrite benc_iso, !benc_pair, benc_seed, benc_words. unfold b_u32, b_u64. now rewrite !benc_uint. }
  split. { intros k f. unfold b_bfuse, w_bfuse. rewrite benc_iso, !benc_pair. unfold b_u32, b_u64. rewrite !benc_uint. do 4 f_equal. apply benc_vec, benc_uint. }
  split. { intros k f. unfold b_xor, w_xor. rewrite benc_iso, !benc_pair, benc_usize. unfold b_u64. rewrite !benc_uint. do 2 f_equal. apply benc_vec, benc_uint. }
  intros k f. unfold b_fuse, w_fuse. rewrite benc_iso, !benc_pair, benc_usize. unfold b_u64. rewrite !benc_uint. do 2 f_equal. apply benc_vec, benc_uint.
Qed.

(** ** Text *)
Lemma places_is x k : (k <= 19)%nat -> (k = 0%nat \/ 10 ^ Z.of_nat k <= x) -> x < 10 ^ Z.of_nat (S k) -> places x = S k.
Proof.
  intros K L U. unfold places. f_equal. replace 19%nat with (k + (19 - k))%nat by lia.
  rewrite seq_app, filter_app, app_length.
  assert (A : forall a n, (forall i, (a <= i < a + n)%nat -> (10 ^ Z.of_nat i <=? x) = true) ->
     length (filter (fun i => 10 ^ Z.of_nat i <=? x) (seq a n)) = n).
  { intros a n; revert a; induction n as [|n IH]; intros a H; [reflexivity|]. cbn [seq filter]. rewrite H by lia. cbn [length].
    f_equal. apply IH. intros i Hi. apply H. lia. }
  assert (B : forall a n, (forall i, (a <= i < a + n)%nat -> (10 ^ Z.of_nat i <=? x) = false) ->
     length (filter (fun i => 10 ^ Z.of_nat i <=? x) (seq a n)) = 0%nat).
  { intros a n; revert a; induction n as [|n IH]; intros a H; [reflexivity|]. cbn [seq filter]. rewrite H by lia.
    apply IH. intros i Hi. apply H. lia. }
  rewrite A, B; [lia| |].
  - intros i Hi. apply Z.leb_gt. eapply Z.lt_le_trans; [exact U|]. apply Z.pow_le_mono_r; lia.
  - intros i Hi. apply Z.leb_le. destruct L as [L|L]; [lia|]. eapply Z.le_trans; [|exact L]. apply Z.pow_le_mono_r; lia.
Qed.

Lemma dec_digits_number f : forall x, 0 <= x < 10 ^ Z.of_nat f -> exists k,
  (k < f \/ f = 0 /\ k = 0)%nat /\ (k = 0%nat \/ 10 ^ Z.of_nat k <= x) /\ (x < 10 ^ Z.of_nat (S k)) /\
  (0 < f -> dec_digits f x = rev (map (fun i => (48 + x / 10 ^ Z.of_nat i mod 10)%Z) (seq 0 (S k))))%nat.
Proof.
  induction f as [|f IH]; intros x Hx.
  - exists 0%nat. change (10 ^ Z.of_nat 0) with 1 in Hx. change (10 ^ Z.of_nat 1) with 10. repeat split; try lia.
  - cbn [dec_digits]. destruct (Z.ltb_spec x 10) as [L|L].
    + exists 0%nat. split; [left; lia|]. split; [now left|]. split; [exact L|]. intros _. cbn [seq map rev app].
      change (10 ^ Z.of_nat 0) with 1. rewrite Z.div_1_r, Z.mod_small by lia. reflexivity.
    + rewrite Nat2Z.inj_succ, Z.pow_succ_r in Hx by lia.
      assert (D : 0 <= x / 10 < 10 ^ Z.of_nat f).
      { split; [apply Z.div_pos; lia|apply Z.div_lt_upper_bound; lia]. }
      destruct (IH _ D) as (k & K & Lo & Up & E).
      assert (F : (0 < f)%nat).
      { destruct f; [|lia]. change (10 ^ Z.of_nat 0) with 1 in Hx. lia. }
      exists (S k). split; [left; lia|].
      assert (P : forall n, 10 ^ Z.of_nat (S n) = 10 * 10 ^ Z.of_nat n) by (intros n; rewrite Nat2Z.inj_succ, Z.pow_succ_r by lia; reflexivity).
      pose proof (Z.div_mod x 10 ltac:(lia)) as DM. pose proof (Z.mod_pos_bound x 10 ltac:(lia)) as MB.
      split. { right. rewrite P. destruct Lo as [->|Lo]; [change (10 ^ Z.of_nat 0) with 1; lia|lia]. }
      split. { rewrite P. lia. }
      intros _. rewrite (E F). set (m := S k). change (seq 0 (S m)) with (0%nat :: seq 1 m). cbn [map rev].
      change (10 ^ Z.of_nat 0) with 1. rewrite Z.div_1_r. f_equal. f_equal. rewrite <- seq_shift, map_map.
      apply map_ext. intros i. rewrite P, Z.div_div by (try apply Z.pow_pos_nonneg; lia). reflexivity.
Qed.

Lemma dec_of_number x : 0 <= x < two64 -> dec_of x = number x.
Proof.
  intros Hx. unfold dec_of, number.
  assert (H : 0 <= x < 10 ^ Z.of_nat 20) by (split; [lia|]; eapply Z.lt_trans; [apply Hx|reflexivity]).
  destruct (dec_digits_number 20 x H) as (k & K & Lo & Up & E). rewrite E by lia. f_equal. f_equal. f_equal.
  symmetry. apply places_is; [lia|exact Lo|exact Up].
Qed.

Lemma join_commas l : join [44] l = commas l.
Proof. induction l as [|x [|y t] IH]; [reflexivity..|]. change (x ++ [44] ++ join [44] (y :: t) = x ++ [44] ++ commas (y :: t)). now rewrite IH. Qed.

Lemma arr_text {A} (f : A -> json) (g : A -> list Z) l : (forall a, In a l -> write_json (f a) = g a) ->
  write_json (JArr (map f l)) = t_list g l.
Proof.
  intros E. cbn [write_json]. unfold t_list. rewrite join_commas, map_map. f_equal. f_equal. f_equal. now apply map_ext_in.
Qed.

Definition plain (s : string) : Prop := write_str (bytes_of s) = txt """" ++ txt s ++ txt """".
Lemma obj_text (l : list (string * json)) : Forall (fun kv => plain (fst kv)) l ->
  write_json (JObj (map (fun kv => (bytes_of (fst kv), snd kv)) l)) = t_object (map (fun kv => (fst kv, write_json (snd kv))) l).
Proof.
  intros P. cbn [write_json]. unfold t_object. rewrite join_commas, !map_map. f_equal. f_equal. f_equal.
  apply map_ext_in. intros [k v] H. rewrite Forall_forall in P. specialize (P _ H). cbn [fst snd] in *. rewrite P.
  rewrite <- !app_assoc. reflexivity.
Qed.

Lemma int_text x : 0 <= x < two64 -> write_json (JInt x) = number x.
Proof. apply dec_of_number. Qed.
Lemma usize_text n : wt_usize n -> write_json (jenc j_usize n) = count n.
Proof. unfold wt_usize. intros H. apply dec_of_number. unfold two64. lia. Qed.
Lemma nums_text {k} l : Forall (fun x => 0 <= x < two64) l -> write_json (JArr (map (jenc (j_uint k)) l)) = t_numbers l.
Proof. intros H. apply arr_text. intros a Ha. rewrite Forall_forall in H. apply dec_of_number. auto. Qed.
Lemma u32_u64 l : Forall is_u32 l -> Forall (fun x => 0 <= x < two64) l.
Proof. apply Forall_impl. unfold is_u32, two32, two64. lia. Qed.
Lemma u8_u64 l : Forall is_u8 l -> Forall (fun x => 0 <= x < two64) l.
Proof. apply Forall_impl. unfold is_u8, two8, two64. lia. Qed.
Lemma words_text l : wt_words l -> write_json (jenc j_words l) = t_numbers l.
Proof. intros [H _]. apply (@nums_text 4). now apply u32_u64. Qed.
Lemma seed_text l : wt_seed l -> write_json (jenc j_seed l) = t_numbers l.
Proof. intros [_ H]. apply (@nums_text 1). now apply u8_u64. Qed.
Lemma matrix_text m : wt_matrix m -> write_json (jenc j_matrix m) = t_matrix m.
Proof. intros [H _]. apply arr_text. intros l Hl. rewrite Forall_forall in H. apply words_text. auto. Qed.
Lemma u32_text x : is_u32 x -> write_json (jenc j_u32 x) = number x.
Proof. intros H. apply dec_of_number. unfold is_u32, two32, two64 in *. lia. Qed.
Lemma u64_text x : is_u64 x -> write_json (jenc j_u64 x) = number x.
Proof. intros H. apply dec_of_number. exact H. Qed.
Lemma prints_text k l : (k <= 8)%nat -> wt_prints k l -> write_json (jenc (j_vec (j_uint k)) l) = t_numbers l.
Proof.
  intros K [H _]. apply nums_text. eapply Forall_impl; [|exact H]. cbn. intros x Hx. split; [lia|].
  eapply Z.lt_le_trans; [apply Hx|]. change two64 with (256 ^ 8). apply Z.pow_le_mono_r; lia.
Qed.

Ltac obj l := etransitivity; [apply (obj_text l); repeat constructor|cbn [map fst snd]].

Lemma filter_params_text p : wt_filter_params p -> write_json (jenc j_filter_params p) = t_filter_params p.
Proof.
  intros (S & A & B & C).
  obj [("seed"%string, jenc j_seed (fp_seed p)); ("segment_length"%string, jenc j_u32 (fp_segment_length p));
       ("segment_length_mask"%string, jenc j_u32 (fp_segment_length_mask p)); ("segment_count_length"%string, jenc j_u32 (fp_segment_count_length p))].
  rewrite seed_text, !u32_text by assumption. reflexivity.
Qed.
Lemma index_db_text d : wt_index_db d -> write_json (jenc j_index_db d) = t_index_db d.
Proof.
  intros (E & M & S & P).
  obj [("entries"%string, jenc j_matrix (id_entries d)); ("m"%string, jenc j_usize (id_m d));
       ("elem_size"%string, jenc j_usize (id_elem_size d)); ("plaintext_bits"%string, jenc j_usize (id_plaintext_bits d))].
  rewrite matrix_text, !usize_text by assumption. reflexivity.
Qed.
Lemma index_params_text p : wt_index_params p -> write_json (jenc j_index_params p) = t_index_params p.
Proof.
  intros (D & M & S & R & E & P).
  obj [("dim"%string, jenc j_usize (ip_dim p)); ("m"%string, jenc j_usize (ip_m p)); ("public_seed"%string, jenc j_seed (ip_public_seed p));
       ("rhs"%string, jenc j_matrix (ip_rhs p)); ("elem_size"%string, jenc j_usize (ip_elem_size p)); ("plaintext_bits"%string, jenc j_usize (ip_plaintext_bits p))].
  rewrite matrix_text, seed_text, !usize_text by assumption. reflexivity.
Qed.
Lemma kv_db_text d : wt_kv_db d -> write_json (jenc j_kv_db d) = t_kv_db d.
Proof.
  intros (E & M & S & P & F).
  obj [("entries"%string, jenc j_matrix (kd_entries d)); ("m"%string, jenc j_usize (kd_m d));
       ("elem_size"%string, jenc j_usize (kd_elem_size d)); ("plaintext_bits"%string, jenc j_usize (kd_plaintext_bits d));
       ("filter_params"%string, jenc j_filter_params (kd_filter_params d))].
  rewrite matrix_text, !usize_text, filter_params_text by assumption. reflexivity.
Qed.
Lemma kv_params_text p : wt_kv_params p -> write_json (jenc j_kv_params p) = t_kv_params p.
Proof.
  intros (D & M & S & R & E & P & F).
  obj [("dim"%string, jenc j_usize (kp_dim p)); ("m"%string, jenc j_usize (kp_m p)); ("public_seed"%string, jenc j_seed (kp_public_seed p));
       ("rhs"%string, jenc j_matrix (kp_rhs p)); ("elem_size"%string, jenc j_usize (kp_elem_size p)); ("plaintext_bits"%string, jenc j_usize (kp_plaintext_bits p));
       ("filter_params"%string, jenc j_filter_params (kp_filter_params p))].
  rewrite matrix_text, seed_text, !usize_text, filter_params_text by assumption. reflexivity.
Qed.
Lemma query_params_text q x t : wt_query_params q -> write_json x = t ->
  write_json (JObj (map (fun kv => (bytes_of (fst kv), snd kv))
    [("lhs"%string, jenc j_words (qp_lhs q)); ("rhs"%string, jenc j_words (qp_rhs q)); ("elem_size"%string, jenc j_usize (qp_elem_size q));
     ("plaintext_bits"%string, jenc j_usize (qp_plaintext_bits q)); ("db"%string, JNull); ("extra_params"%string, x); ("used"%string, JBool (qp_used q))]))
  = t_query_params t q.
Proof.
  intros (L & R & E & P & _) <-. rewrite obj_text by repeat constructor. cbn [map fst snd].
  rewrite !words_text, !usize_text by assumption. unfold t_query_params. destruct (qp_used q); reflexivity.
Qed.

Lemma no_escape s : Forall (fun c => 32 <= c /\ c <> 34 /\ c <> 92) s -> flat_map escape_byte s = s.
Proof.
  induction 1 as [|c s (A & B & C) _ IH]; [reflexivity|]. cbn [flat_map]. rewrite IH. unfold escape_byte.
  repeat (match goal with |- context [?a =? ?b] => destruct (Z.eqb_spec a b); [lia|] end).
  destruct (Z.ltb_spec c 32); [lia|]. reflexivity.
Qed.

(** @C81 JSON: the text of every serialisable type is the compact object of its fields, under their
    declared names and in declared order, numbers in decimal; newtypes are their content, a marker is
    null, an absent option is null. *)
Lemma wire_json :
  (forall v, wt_words v -> json_to_string j_query v = t_numbers v /\ json_to_string j_response v = t_numbers v) /\
  (forall a, wt_matrix a -> json_to_string j_common_params a = t_matrix a) /\
  (forall p, wt_filter_params p -> json_to_string j_filter_params p = t_filter_params p) /\
  (forall d, wt_index_db d -> json_to_string j_index_db d = t_index_db d) /\
  (forall p, wt_index_params p -> json_to_string j_index_params p = t_index_params p) /\
  (forall s, wt_shard s -> json_to_string j_shard s =
     t_object [("db"%string, t_index_db (sh_db s)); ("base_params"%string, t_index_params (sh_params s))]) /\
  (forall x, wt_key_value x -> json_to_string j_key_value x = t_key_value x) /\
  (forall d, wt_kv_db d -> json_to_string j_kv_db d = t_kv_db d) /\
  (forall p, wt_kv_params p -> json_to_string j_kv_params p = t_kv_params p) /\
  (forall s, wt_kv_shard s -> json_to_string j_kv_shard s =
     t_object [("db"%string, t_kv_db (ks_db s)); ("base_params"%string, t_kv_params (ks_params s))]) /\
  (let quiet := Forall (fun c => 32 <= c /\ c <> 34 /\ c <> 92) in
   forall k v, quiet k -> quiet v -> json_to_string j_encoded_kv (k, v) =
     t_object [("key"%string, txt """" ++ k ++ txt """"); ("value"%string, txt """" ++ v ++ txt """")]) /\
  (forall q, wt_query_params q -> json_to_string j_index_query_params q = t_query_params (txt "null") q) /\
  (forall q, wt_query_params q -> json_to_string j_kv_query_params q =
     t_query_params (match qp_extra q with None => txt "null" | Some f => t_filter_params f end) q) /\
  (forall f, wt_bfusep f -> json_to_string j_bfusep f = t_bfusep f) /\
  (forall k f, (k <= 8)%nat -> wt_bfuse k f -> json_to_string (j_bfuse k) f = t_bfuse f) /\
  (forall k f, (k <= 8)%nat -> wt_xor k f -> json_to_string (j_xor k) f = t_xor f) /\
  (forall k f, (k <= 8)%nat -> wt_fuse k f -> json_to_string (j_fuse k) f = t_fuse f).
Proof.
  unfold json_to_string.
  split. { intros v H. split; now apply words_text. }
  split; [exact matrix_text|]. split; [exact filter_params_text|]. split; [exact index_db_text|]. split; [exact index_params_text|].
  split. { intros s (D & P). obj [("db"%string, jenc j_index_db (sh_db s)); ("base_params"%string, jenc j_index_params (sh_params s))].
           now rewrite index_db_text, index_params_text. }
  split. { intros x ((_ & K) & V). obj [("key"%string, jenc (j_arr 4 j_u64) (kv_key x)); ("value"%string, jenc j_words (kv_value x))].
           rewrite words_text by assumption. unfold t_key_value. do 4 f_equal. apply (@nums_text 8). exact K. }
  split; [exact kv_db_text|]. split; [exact kv_params_text|].
  split. { intros s (D & P). obj [("db"%string, jenc j_kv_db (ks_db s)); ("base_params"%string, jenc j_kv_params (ks_params s))].
           now rewrite kv_db_text, kv_params_text. }
  split. { cbv zeta. intros k v K V. obj [("key"%string, JStr k); ("value"%string, JStr v)]. cbn [write_json]. unfold write_str.
           now rewrite !no_escape. }
  split. { intros q W. apply (query_params_text q JNull); [exact W|reflexivity]. }
  split. { intros q W. apply (query_params_text q (jenc (j_opt j_filter_params) (qp_extra q))); [exact W|].
           destruct W as (_ & _ & _ & _ & X). destruct (qp_extra q) as [f|]; [|reflexivity]. now apply filter_params_text. }
  split. { intros f (S & A & B & C & F & P).
           obj [("seed"%string, jenc j_seed (bp_seed f)); ("segment_length"%string, jenc j_u32 (bp_segment_length f));
                ("segment_length_mask"%string, jenc j_u32 (bp_segment_length_mask f)); ("segment_count_length"%string, jenc j_u32 (bp_segment_count_length f));
                ("fingerprints"%string, jenc j_words (bp_fingerprints f)); ("ptxt_mod"%string, jenc j_u64 (bp_ptxt_mod f))].
           rewrite seed_text, !u32_text, words_text, u64_text by assumption. reflexivity. }
  split. { intros k f K (S & A & B & C & F).
           obj [("seed"%string, jenc j_u64 (bf_seed f)); ("segment_length"%string, jenc j_u32 (bf_segment_length f));
                ("segment_length_mask"%string, jenc j_u32 (bf_segment_length_mask f)); ("segment_count_length"%string, jenc j_u32 (bf_segment_count_length f));
                ("fingerprints"%string, jenc (j_vec (j_uint k)) (bf_fingerprints f))].
           rewrite u64_text, !u32_text, prints_text by assumption. reflexivity. }
  split. { intros k f K (S & A & F).
           obj [("seed"%string, jenc j_u64 (xf_seed f)); ("block_length"%string, jenc j_usize (xf_block_length f));
                ("fingerprints"%string, jenc (j_vec (j_uint k)) (xf_fingerprints f))].
           rewrite u64_text, usize_text, prints_text by assumption. reflexivity. }
  intros k f K (S & A & F).
  obj [("seed"%string, jenc j_u64 (ff_seed f)); ("segment_length"%string, jenc j_usize (ff_segment_length f));
       ("fingerprints"%string, jenc (j_vec (j_uint k)) (ff_fingerprints f))].
  rewrite u64_text, usize_text, prints_text by assumption. reflexivity.
Qed.

(** @C81 [write_to_file] of a shard: when it succeeds, the database file holds the matrix as an
    array of arrays, one per column, and the parameters file the object with the members lhs_seed
    (the public seed) and rhs, and nothing else: in particular neither dimension nor sizes. *)
Lemma wire_files : forall d d' dbp pp k, dbp <> pp ->
  (forall s, wt_shard s -> shard_write_to_file d s dbp pp k = (d', Ok tt) ->
     d' dbp = Some (t_matrix (id_entries (sh_db s))) /\
     d' pp = Some (t_object [("lhs_seed"%string, t_numbers (ip_public_seed (sh_params s))); ("rhs"%string, t_matrix (ip_rhs (sh_params s)))])) /\
  (forall s, wt_kv_shard s -> kv_shard_write_to_file d s dbp pp k = (d', Ok tt) ->
     d' dbp = Some (t_matrix (kd_entries (ks_db s))) /\
     d' pp = Some (t_object [("lhs_seed"%string, t_numbers (kp_public_seed (ks_params s))); ("rhs"%string, t_matrix (kp_rhs (ks_params s)))])).
Proof.
  intros d d' dbp pp k N.
  assert (PT : forall seed rhs, wt_seed seed -> wt_matrix rhs ->
    write_json (params_json seed rhs) = t_object [("lhs_seed"%string, t_numbers seed); ("rhs"%string, t_matrix rhs)]).
  { intros seed rhs S R. obj [("lhs_seed"%string, jenc j_seed seed); ("rhs"%string, jenc j_matrix rhs)].
    now rewrite seed_text, matrix_text. }
  split; intros s W E.
  - pose proof (shard_write_states d s dbp pp k N) as X. rewrite E in X. cbv zeta in X.
    destruct X as (_ & _ & _ & [(_ & A & B)|(X & _)]); [|discriminate].
    destruct W as ((M & _) & (_ & _ & S & R & _)). rewrite A, B. split; [|now rewrite PT].
    f_equal. exact (matrix_text _ M).
  - pose proof (kv_shard_write_states d s dbp pp k N) as X. rewrite E in X. cbv zeta in X.
    destruct X as (_ & _ & _ & [(_ & A & B)|(X & _)]); [|discriminate].
    destruct W as ((M & _) & (_ & _ & S & R & _)). rewrite A, B. split; [|now rewrite PT].
    f_equal. exact (matrix_text _ M).
Qed.

(** @C81 example: a one-element database and its parameters, byte by byte and as text, and the two
    files of the shard made of them. *)
Example wire_example :
  let db := {| id_entries := [[257; 3]; [4; 5]]; id_m := 2; id_elem_size := 16; id_plaintext_bits := 10 |} in
  let pa := {| ip_dim := 1; ip_m := 2; ip_public_seed := repeat 7 32; ip_rhs := [[5]; [60]]; ip_elem_size := 16; ip_plaintext_bits := 10 |} in
  let sh := {| sh_db := db; sh_params := pa |} in
  wt_shard sh /\
  bin_serialize b_index_db db =
    [2;0;0;0;0;0;0;0; 2;0;0;0;0;0;0;0; 1;1;0;0; 3;0;0;0; 2;0;0;0;0;0;0;0; 4;0;0;0; 5;0;0;0;
     2;0;0;0;0;0;0;0; 16;0;0;0;0;0;0;0; 10;0;0;0;0;0;0;0] /\
  w_index_db db = bin_serialize b_index_db db /\
  json_to_string j_index_db db = bytes_of "{""entries"":[[257,3],[4,5]],""m"":2,""elem_size"":16,""plaintext_bits"":10}" /\
  t_index_db db = json_to_string j_index_db db /\
  number 18446744073709551615 = bytes_of "18446744073709551615" /\ number 0 = bytes_of "0" /\
  (exists d', shard_write_to_file (fun _ => None) sh [100] [112] (Z.to_nat 500) = (d', Ok tt) /\
     d' [100] = Some (bytes_of "[[257,3],[4,5]]") /\
     d' [112] = Some (bytes_of "{""lhs_seed"":[7,7,7,7,7,7,7,7,7,7,7,7,7,7,7,7,7,7,7,7,7,7,7,7,7,7,7,7,7,7,7,7],""rhs"":[[5],[60]]}")).
Proof.
  cbv zeta. split.
  { unfold wt_shard, wt_index_db, wt_index_params, wt_matrix, wt_words, wt_vec, wt_seed, wt_usize, is_u32, is_u8, two32, two8; cbn;
    repeat (split || constructor || lia || reflexivity). }
  repeat (split; [vm_compute; reflexivity|]).
  eexists. split; [vm_compute; reflexivity|]. split; vm_compute; reflexivity.
Qed.
