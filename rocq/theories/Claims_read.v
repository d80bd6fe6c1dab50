(** C82: what every JSON text reads as, for every serialisable type. *)
From Coq Require Import Permutation.
From Coq Require Import String.
From Verif Require Import Base Db Api Json Files Serde SpecJson SpecSerde SpecRead Base_facts Json_facts Files_facts
  JsonSpec_facts Serde_facts Claims_json Read_facts ReadFit_facts ReadUtf_facts.
Local Open Scope Z_scope.

(** @C82 Reading JSON gives a value exactly when the text is a JSON document that denotes it (see
    [SpecRead]: fields by name in any order, unknown members ignored, or the array of the fields;
    numbers in range; arrays of the right length); every other text is an error, never a panic.
    For every type the library and (with feature "serde") the filter crate can read. *)
Lemma json_reading : forall k,
  exact_text d_words (json_from_str j_query) /\
  exact_text d_words (json_from_str j_response) /\
  exact_text d_matrix (json_from_str j_common_params) /\
  exact_text d_filter_params (json_from_str j_filter_params) /\
  exact_text d_index_db (json_from_str j_index_db) /\
  exact_text d_index_params (json_from_str j_index_params) /\
  exact_text d_shard (json_from_str j_shard) /\
  exact_text d_key_value (json_from_str j_key_value) /\
  exact_text d_kv_db (json_from_str j_kv_db) /\
  exact_text d_kv_params (json_from_str j_kv_params) /\
  exact_text d_kv_shard (json_from_str j_kv_shard) /\
  exact_text d_encoded_kv (json_from_str j_encoded_kv) /\
  exact_text d_kv_query_params (json_from_str j_kv_query_params) /\
  exact_text d_index_query_params (json_from_str j_index_query_params) /\
  exact_text d_bfusep (json_from_str j_bfusep) /\
  exact_text (d_bfuse k) (json_from_str (j_bfuse k)) /\
  exact_text (d_xor k) (json_from_str (j_xor k)) /\
  exact_text (d_fuse k) (json_from_str (j_fuse k)).
Proof.
  intros k.
  split; [exact (exact_of_jspec _ _ words_spec)|]. split; [exact (exact_of_jspec _ _ words_spec)|].
  split; [exact (exact_of_jspec _ _ matrix_spec)|]. split; [exact (exact_of_jspec _ _ filter_params_spec)|].
  split; [exact (exact_of_jspec _ _ index_db_spec)|]. split; [exact (exact_of_jspec _ _ index_params_spec)|].
  split; [exact (exact_of_jspec _ _ shard_spec)|]. split; [exact (exact_of_jspec _ _ key_value_spec)|].
  split; [exact (exact_of_jspec _ _ kv_db_spec)|]. split; [exact (exact_of_jspec _ _ kv_params_spec)|].
  split; [exact (exact_of_jspec _ _ kv_shard_spec)|]. split; [exact (exact_of_jspec _ _ encoded_kv_spec)|].
  split; [exact (exact_of_jspec _ _ kv_query_params_spec)|]. split; [exact (exact_of_jspec _ _ index_query_params_spec)|].
  split; [exact (exact_of_jspec _ _ bfusep_spec)|]. split; [exact (exact_of_jspec _ _ (bfuse_spec k))|].
  split; [exact (exact_of_jspec _ _ (xor_spec k))|exact (exact_of_jspec _ _ (fuse_spec k))].
Qed.

(** ** Order of members, unknown members *)
Definition loose {A} (ns : list (list Z)) (c : jcodec A) : Prop :=
  forall l l' extra, Permutation (l ++ extra) l' -> Forall (fun kv => ~ In (fst kv) ns) extra ->
    jdec c (JObj l) = jdec c (JObj l').
Lemma loose_iso {A B} (f : A -> B) g ns c : loose ns c -> loose ns (j_iso f g c).
Proof. intros L l l' e P F. cbn [j_iso jdec]. now rewrite (L l l' e P F). Qed.
Lemma lookups_in k (l : list (list Z * json)) v : In v (lookups k l) <-> In (k, v) l.
Proof.
  unfold lookups. rewrite in_map_iff. split.
  - intros ([k' x] & <- & I). apply filter_In in I as [I E]. unfold beq in E. cbn [fst snd] in *.
    destruct (list_eq_dec Z.eq_dec k' k) as [->|]; [exact I|discriminate].
  - intros I. exists (k, v). split; [reflexivity|]. apply filter_In. split; [exact I|]. apply beq_refl.
Qed.
Lemma filter_perm {A} (p : A -> bool) l l' : Permutation l l' -> Permutation (filter p l) (filter p l').
Proof.
  induction 1; cbn [filter].
  - constructor.
  - destruct (p x); auto.
  - destruct (p x), (p y); auto. apply perm_swap.
  - eapply perm_trans; eassumption.
Qed.
Lemma field_perm k l l' : Permutation l l' -> field k l = field k l'.
Proof.
  intros P. unfold field. assert (Q : Permutation (lookups k l) (lookups k l')) by (unfold lookups; now apply Permutation_map, filter_perm).
  destruct (lookups k l) as [|x [|y t]].
  - apply Permutation_nil in Q. now rewrite Q.
  - apply Permutation_length_1_inv in Q. now rewrite Q.
  - apply Permutation_length in Q. destruct (lookups k l') as [|a [|b u]]; try discriminate Q; reflexivity.
Qed.
Lemma field_extra k l e : Forall (fun kv : list Z * json => fst kv <> k) e -> field k (l ++ e) = field k l.
Proof.
  intros F. unfold field, lookups. rewrite filter_app.
  replace (filter (fun kv : list Z * json => beq (fst kv) k) e) with (@nil (list Z * json)).
  - now rewrite app_nil_r.
  - induction F as [|[a b] t N F IH]; [reflexivity|]. cbn [filter fst] in *. rewrite beq_neq by auto. exact IH.
Qed.
Lemma all_some_ext {A B} (f g : A -> option B) l : (forall x, In x l -> f x = g x) -> all_some f l = all_some g l.
Proof.
  induction l as [|x t IH]; intros H; [reflexivity|]. cbn [all_some]. rewrite (H x) by now left.
  rewrite IH; [reflexivity|]. intros y Hy. apply H. now right.
Qed.
Lemma loose_struct {A} (f : fcodec A) : incl (foptional f) (fnames f) -> loose (fnames f) (j_struct f).
Proof.
  intros O l l' e P F. cbn [j_struct jdec null_missing].
  assert (M : filter (fun k => negb (existsb (fun kv : list Z * json => beq (fst kv) k) l')) (foptional f) =
              filter (fun k => negb (existsb (fun kv => beq (fst kv) k) l)) (foptional f)).
  { assert (G : forall k, In k (foptional f) -> existsb (fun kv : list Z * json => beq (fst kv) k) l' = existsb (fun kv => beq (fst kv) k) l).
    { intros k K. apply O in K. apply Bool.eq_iff_eq_true. rewrite !existsb_in.
      split; intros I.
      - apply (Permutation_in k (Permutation_map fst (Permutation_sym P))) in I. rewrite map_app, in_app_iff in I.
        destruct I as [I|I]; [exact I|]. apply in_map_iff in I as (x & <- & I). rewrite Forall_forall in F. now apply F in I.
      - apply (Permutation_in k (Permutation_map fst P)). rewrite map_app, in_app_iff. now left. }
    clear - G. induction (foptional f) as [|k t IH]; [reflexivity|]. cbn [filter]. rewrite (G k) by now left.
    rewrite IH; [reflexivity|]. intros x Hx. apply G. now right. }
  rewrite M. cbn [struct_fields]. erewrite all_some_ext; [reflexivity|]. intros k K. cbn beta.
  set (X := map (fun k => (k, JNull)) _). rewrite <- (field_perm k ((l ++ e) ++ X) (l' ++ X)) by now apply Permutation_app_tail.
  rewrite (field_perm k ((l ++ e) ++ X) ((l ++ X) ++ e)).
  - symmetry. apply field_extra. eapply Forall_impl; [|exact F]. intros [a b] H Hk. apply H. cbn [fst] in *. now rewrite Hk.
  - rewrite <- !app_assoc. apply Permutation_app_head, Permutation_app_comm.
Qed.
Lemma members_of_loose {A} ns (c : jcodec A) : loose (names ns) c -> members_free ns (json_from_str c).
Proof.
  intros L s s' l l' e D D' P F. unfold json_from_str. apply parse_text_iff in D, D'. rewrite D, D'. f_equal.
  exact (L l l' e P F).
Qed.

(** @C82 The formatting of a text, the order of an object's members and members of other names
    never matter, whether the text is accepted or not. *)
Lemma formatting_free : forall k,
  (forall s s' v, json_document s v -> json_document s' v ->
     json_from_str j_query s = json_from_str j_query s' /\
     json_from_str j_response s = json_from_str j_response s' /\
     json_from_str j_common_params s = json_from_str j_common_params s' /\
     json_from_str j_shard s = json_from_str j_shard s' /\
     json_from_str j_kv_shard s = json_from_str j_kv_shard s') /\
  members_free ["seed"; "segment_length"; "segment_length_mask"; "segment_count_length"]%string (json_from_str j_filter_params) /\
  members_free ["entries"; "m"; "elem_size"; "plaintext_bits"]%string (json_from_str j_index_db) /\
  members_free ["dim"; "m"; "public_seed"; "rhs"; "elem_size"; "plaintext_bits"]%string (json_from_str j_index_params) /\
  members_free ["db"; "base_params"]%string (json_from_str j_shard) /\
  members_free ["key"; "value"]%string (json_from_str j_key_value) /\
  members_free ["entries"; "m"; "elem_size"; "plaintext_bits"; "filter_params"]%string (json_from_str j_kv_db) /\
  members_free ["dim"; "m"; "public_seed"; "rhs"; "elem_size"; "plaintext_bits"; "filter_params"]%string (json_from_str j_kv_params) /\
  members_free ["db"; "base_params"]%string (json_from_str j_kv_shard) /\
  members_free ["key"; "value"]%string (json_from_str j_encoded_kv) /\
  members_free ["lhs"; "rhs"; "elem_size"; "plaintext_bits"; "db"; "extra_params"; "used"]%string (json_from_str j_kv_query_params) /\
  members_free ["lhs"; "rhs"; "elem_size"; "plaintext_bits"; "db"; "extra_params"; "used"]%string (json_from_str j_index_query_params) /\
  members_free ["seed"; "segment_length"; "segment_length_mask"; "segment_count_length"; "fingerprints"; "ptxt_mod"]%string (json_from_str j_bfusep) /\
  members_free ["seed"; "segment_length"; "segment_length_mask"; "segment_count_length"; "fingerprints"]%string (json_from_str (j_bfuse k)) /\
  members_free ["seed"; "block_length"; "fingerprints"]%string (json_from_str (j_xor k)) /\
  members_free ["seed"; "segment_length"; "fingerprints"]%string (json_from_str (j_fuse k)).
Proof.
  intros k. split.
  { intros s s' v D D'. apply parse_text_iff in D, D'. unfold json_from_str. rewrite D, D'. auto 6. }
  assert (O0 : forall l : list (list Z), incl [] l) by (intros l x []).
  assert (O1 : incl [bytes_of "extra_params"] (names ["lhs"; "rhs"; "elem_size"; "plaintext_bits"; "db"; "extra_params"; "used"]%string))
    by (intros x [<-|[]]; exact extra_in).
  repeat match goal with
  | |- _ /\ _ => split
  | |- members_free _ (json_from_str _) => apply members_of_loose;
      unfold j_filter_params, j_index_db, j_index_params, j_shard, j_key_value, j_kv_db, j_kv_params, j_kv_shard, j_encoded_kv,
        j_kv_query_params, j_index_query_params, j_bfusep, j_bfuse, j_xor, j_fuse; apply loose_iso;
      match goal with |- loose _ (j_struct ?f) => change (loose (fnames f) (j_struct f)) end;
      apply loose_struct; first [exact (O0 _)|exact O1]
  end.
Qed.

Lemma settles_of {A} (d : json -> A -> Prop) (P : A -> Prop) (c : jcodec A):
  jspec d c -> (forall n, Z.of_nat n < 2 ^ 64 -> fits n d P) -> jlaw P c ->
  settles P (json_to_string c) (json_from_str c).
Proof.
  intros J F L s a _ S E. assert (W : P a).
  { apply (exact_of_jspec d c J s) in E as (v & D & H). exact (F (length s) S v a (document_bounded _ _ D) H). }
  split; [exact W|]. exact (proj2 (text_of_law _ _ L a W)).
Qed.
(** @C82 Whatever text is accepted, the value fits its type, so that all the round trips of C65
    apply to it; in particular writing it again and reading that gives the same value. *)
Lemma accepted_values_fit : forall k, (k <= 8)%nat ->
  settles wt_words (json_to_string j_query) (json_from_str j_query) /\
  settles wt_words (json_to_string j_response) (json_from_str j_response) /\
  settles wt_matrix (json_to_string j_common_params) (json_from_str j_common_params) /\
  settles wt_filter_params (json_to_string j_filter_params) (json_from_str j_filter_params) /\
  settles wt_index_db (json_to_string j_index_db) (json_from_str j_index_db) /\
  settles wt_index_params (json_to_string j_index_params) (json_from_str j_index_params) /\
  settles wt_shard (json_to_string j_shard) (json_from_str j_shard) /\
  settles wt_key_value (json_to_string j_key_value) (json_from_str j_key_value) /\
  settles wt_kv_db (json_to_string j_kv_db) (json_from_str j_kv_db) /\
  settles wt_kv_params (json_to_string j_kv_params) (json_from_str j_kv_params) /\
  settles wt_kv_shard (json_to_string j_kv_shard) (json_from_str j_kv_shard) /\
  settles wt_encoded_kv (json_to_string j_encoded_kv) (json_from_str j_encoded_kv) /\
  settles wt_query_params (json_to_string j_kv_query_params) (json_from_str j_kv_query_params) /\
  settles (fun q => wt_query_params q /\ qp_extra q = None) (json_to_string j_index_query_params) (json_from_str j_index_query_params) /\
  settles wt_bfusep (json_to_string j_bfusep) (json_from_str j_bfusep) /\
  settles (wt_bfuse k) (json_to_string (j_bfuse k)) (json_from_str (j_bfuse k)) /\
  settles (wt_xor k) (json_to_string (j_xor k)) (json_from_str (j_xor k)) /\
  settles (wt_fuse k) (json_to_string (j_fuse k)) (json_from_str (j_fuse k)).
Proof.
  intros k Hk.
  split; [exact (settles_of _ _ _ (words_spec) (fun n N => words_fits n N) j_words_law)|].
  split; [exact (settles_of _ _ _ (words_spec) (fun n N => words_fits n N) j_words_law)|].
  split; [exact (settles_of _ _ _ (matrix_spec) (fun n N => matrix_fits n N) j_matrix_law)|].
  split; [exact (settles_of _ _ _ (filter_params_spec) (fun n N => filter_params_fits n N) j_filter_params_law)|].
  split; [exact (settles_of _ _ _ (index_db_spec) (fun n N => index_db_fits n N) j_index_db_law)|].
  split; [exact (settles_of _ _ _ (index_params_spec) (fun n N => index_params_fits n N) j_index_params_law)|].
  split; [exact (settles_of _ _ _ (shard_spec) (fun n N => shard_fits n N) j_shard_law)|].
  split; [exact (settles_of _ _ _ (key_value_spec) (fun n N => key_value_fits n N) j_key_value_law)|].
  split; [exact (settles_of _ _ _ (kv_db_spec) (fun n N => kv_db_fits n N) j_kv_db_law)|].
  split; [exact (settles_of _ _ _ (kv_params_spec) (fun n N => kv_params_fits n N) j_kv_params_law)|].
  split; [exact (settles_of _ _ _ (kv_shard_spec) (fun n N => kv_shard_fits n N) j_kv_shard_law)|].
  split.
  { intros s a U S E. assert (W : wt_encoded_kv a).
    { apply (exact_of_jspec _ _ encoded_kv_spec s) in E as (v & D & H).
      exact (encoded_kv_fits (length s) v a S (document_bounded _ _ D) (document_utf8 _ _ U D) H). }
    split; [exact W|]. exact (proj2 (text_of_law _ _ j_encoded_kv_law a W)). }
  split; [exact (settles_of _ _ _ (kv_query_params_spec) (fun n N => kv_query_fits n N) j_kv_query_params_law)|].
  split; [exact (settles_of _ _ _ (index_query_params_spec) (fun n N => index_query_fits n N) j_index_query_params_law)|].
  split; [exact (settles_of _ _ _ (bfusep_spec) (fun n N => bfusep_fits n N) j_bfusep_law)|].
  split; [exact (settles_of _ _ _ (bfuse_spec k) (fun n N => bfuse_fits n N k) (j_bfuse_law k Hk))|].
  split; [exact (settles_of _ _ _ (xor_spec k) (fun n N => xor_fits n N k) (j_xor_law k Hk))|].
  exact (settles_of _ _ _ (fuse_spec k) (fun n N => fuse_fits n N k) (j_fuse_law k Hk)).
Qed.

(** @C52 Every string read from a JSON input file is itself UTF-8. *)
Lemma file_strings_are_text : forall c,
  (forall strs, strings_file c strs -> Forall utf8_text strs) /\
  (forall kvs, kvs_file c kvs -> Forall (fun kv => utf8_text (fst kv) /\ utf8_text (snd kv)) kvs).
Proof.
  intros c. split.
  - intros strs [U D]. pose proof (document_utf8 _ _ U D) as H. apply ok_arr in H. rewrite Forall_map in H. exact H.
  - intros kvs (U & vs & D & F). pose proof (document_utf8 _ _ U D) as H. apply ok_arr in H. rewrite Forall_forall in H.
    eapply Forall2_right; [|exact F]. intros v [k x] I R. pose proof (record_ok _ _ _ (H v I) R) as W.
    inversion W as [|? ? W1 W2]; subst. inversion W2; subst. split; assumption.
Qed.

Definition sample_seed (n : nat) : list Z := bytes_of "[" ++ join [44] (repeat (bytes_of "7") n) ++ bytes_of "]".
Definition sample_params : filter_params :=
  {| fp_seed := repeat 7 32; fp_segment_length := 4294967295; fp_segment_length_mask := 3; fp_segment_count_length := 8 |}.

(** @C82 example: a filter-parameter set with the members in another order, blanks and an unknown
    member; and what is refused: a member twice, a member missing, a number that does not fit, a
    negative number, a number with a fraction, a seed of 31 bytes, an array one field short. *)
Example json_reading_example :
  let seed := sample_seed 32 in
  let read s := json_from_str j_filter_params s in
  read (bytes_of " {""segment_count_length"": 8 , ""x"": [{}, null, -1.5e3], ""segment_length"" :4294967295,""seed"":" ++ seed ++
        bytes_of ", ""segment_length_mask"" : 3}")%list = Ok sample_params /\
  read (bytes_of "[" ++ seed ++ bytes_of ",4294967295,3,8]")%list = Ok sample_params /\
  read (bytes_of "{""seed"":" ++ seed ++ bytes_of ",""segment_length"":1,""segment_length"":1,""segment_length_mask"":3,""segment_count_length"":8}")%list = Err EDeserialize /\
  read (bytes_of "{""seed"":" ++ seed ++ bytes_of ",""segment_length"":1,""segment_length_mask"":3}")%list = Err EDeserialize /\
  read (bytes_of "[" ++ seed ++ bytes_of ",4294967296,3,8]")%list = Err EDeserialize /\
  read (bytes_of "[" ++ seed ++ bytes_of ",-1,3,8]")%list = Err EDeserialize /\
  read (bytes_of "[" ++ seed ++ bytes_of ",1.0,3,8]")%list = Err EDeserialize /\
  read (bytes_of "[" ++ sample_seed 31 ++ bytes_of ",1,3,8]")%list = Err EDeserialize /\
  read (bytes_of "[" ++ seed ++ bytes_of ",1,3]")%list = Err EDeserialize.
Proof. cbv zeta. repeat (split; [vm_compute; reflexivity|]). vm_compute. reflexivity. Qed.

(** @C82 example: query parameters: the optional field present, null and left out; and a key-value
    set read as an index one (refused: an index set has no such value unless it is an object). *)
Example query_params_reading_example :
  let q u := {| qp_lhs := [1]; qp_rhs := [2]; qp_elem_size := 8; qp_plaintext_bits := 10; qp_extra := None; qp_used := u |} in
  json_from_str j_kv_query_params (bytes_of "{""used"":false,""lhs"":[1],""rhs"":[2],""elem_size"":8,""plaintext_bits"":10,""db"":null}") = Ok (q false) /\
  json_from_str j_index_query_params (bytes_of "{""used"":true,""lhs"":[1],""rhs"":[2],""elem_size"":8,""plaintext_bits"":10,""db"":null,""extra_params"":{}}") = Ok (q true) /\
  json_from_str j_index_query_params (bytes_of "[[1],[2],8,10,null,null,true]") = Ok (q true) /\
  json_from_str j_index_query_params (bytes_of "[[1],[2],8,10,null,true]") = Err EDeserialize /\
  json_from_str j_kv_query_params (bytes_of "[[1],[2],8,10,null,{},true]") = Err EDeserialize.
Proof. cbv zeta. repeat (split; [vm_compute; reflexivity|]). vm_compute. reflexivity. Qed.
