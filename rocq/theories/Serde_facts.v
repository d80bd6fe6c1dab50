From Coq Require Import String.
From Verif Require Import Spec SpecFilter Base_facts Fmt_facts Mat_facts Codec_facts Index_facts IndexProto_facts Geom_facts FilterTop_facts KV_facts Serde SpecSerde Json_facts Files_facts JsonSpec_facts.
Local Open Scope Z_scope.

Definition blaw1 {A} (ok : A -> Prop) (c : bcodec A) : Prop :=
  forall a, ok a -> Forall is_u8 (benc c a) /\ forall r, bdec c (benc c a ++ r) = Some (a, r).
Definition blaw2 {A} (ok : A -> Prop) (c : bcodec A) : Prop :=
  forall s a r, Forall is_u8 s -> bdec c s = Some (a, r) -> ok a /\ s = benc c a ++ r.
Definition blaw {A} (ok : A -> Prop) (c : bcodec A) : Prop := blaw1 ok c /\ blaw2 ok c.

Lemma uint_law k : blaw (fun x => 0 <= x < 256 ^ Z.of_nat k) (b_uint k).
Proof.
  split.
  - intros x H. cbn [b_uint benc bdec]. split; [apply le_bytes_is_u8|]. intros r.
    rewrite app_length, length_le_bytes. destruct (Nat.ltb_spec (k + length r) k); [lia|].
    rewrite firstn_app, length_le_bytes, Nat.sub_diag, skipn_app, length_le_bytes, Nat.sub_diag.
    rewrite firstn_all2, skipn_all2 by (rewrite length_le_bytes; lia). cbn [firstn skipn app].
    rewrite app_nil_r. now rewrite of_le_le_bytes.
  - intros s a r Hs. cbn [b_uint benc bdec]. destruct (Nat.ltb_spec (length s) k) as [|L]; [discriminate|].
    intros E. injection E as <- <-.
    assert (F : Forall is_u8 (firstn k s)) by (rewrite <- (firstn_skipn k s) in Hs; now apply Forall_app in Hs).
    assert (L' : length (firstn k s) = k) by (rewrite firstn_length; lia).
    pose proof (of_le_bytes_range _ F) as R. pose proof (le_of_le_bytes _ F) as R2. rewrite L' in R, R2.
    split; [exact R|]. rewrite R2. symmetry. apply firstn_skipn.
Qed.

Lemma law_ext {A} (P Q : A -> Prop) (c : bcodec A) : (forall a, P a <-> Q a) -> blaw P c -> blaw Q c.
Proof.
  intros E [L1 L2]. split.
  - intros a H. apply L1. now apply E.
  - intros s a r Hs H. destruct (L2 s a r Hs H). split; auto. now apply E.
Qed.
Lemma iso_law1 {A B} (f : A -> B) (g : B -> A) (c : bcodec A) (P : A -> Prop) (Q : B -> Prop) :
  (forall b, Q b -> P (g b) /\ f (g b) = b) -> blaw1 P c -> blaw1 Q (b_iso f g c).
Proof.
  intros E L b H. destruct (E b H) as [Pg fg]. destruct (L (g b) Pg) as [U D]. cbn [b_iso benc bdec]. split; [exact U|].
  intros r. now rewrite D, fg.
Qed.
Lemma iso_law {A B} (f : A -> B) (g : B -> A) (c : bcodec A) (P : A -> Prop) (Q : B -> Prop) :
  (forall b, Q b -> P (g b) /\ f (g b) = b) -> (forall a, P a -> Q (f a) /\ g (f a) = a) ->
  blaw P c -> blaw Q (b_iso f g c).
Proof.
  intros E F [L1 L2]. split; [now apply (iso_law1 f g c P)|].
  intros s b r Hs. cbn [b_iso benc bdec]. destruct (bdec c s) as [[a r']|] eqn:D; [|discriminate].
  intros X. injection X as <- <-. destruct (L2 _ _ _ Hs D) as [Pa ->]. destruct (F a Pa) as [Qf gf]. now rewrite gf.
Qed.
Lemma usize_law : blaw wt_usize b_usize.
Proof.
  apply (iso_law _ _ _ (fun x => 0 <= x < 256 ^ Z.of_nat 8)); [| |apply uint_law]; change (256 ^ Z.of_nat 8) with (2 ^ 64); unfold wt_usize.
  - intros b H. split; [lia|]. apply Nat2Z.id.
  - intros a H. rewrite Z2Nat.id by lia. lia.
Qed.
Lemma bool_law : blaw (fun _ => True) b_bool.
Proof.
  split.
  - intros b _. cbn [b_bool benc bdec]. split; [repeat constructor; destruct b; unfold two8; lia|]. intros r.
    destruct b; reflexivity.
  - intros s b r _. cbn [b_bool benc bdec]. destruct s as [|x s]; [discriminate|].
    destruct (Z.eqb_spec x 0); [|destruct (Z.eqb_spec x 1); [|discriminate]]; intros E; injection E as <- <-; subst; auto.
Qed.
Lemma unit_law : blaw (fun _ => True) b_unit.
Proof.
  split.
  - intros [] _. split; [constructor|]. reflexivity.
  - intros s [] r _ E. injection E as <-. auto.
Qed.
Lemma opt_law {A} (P : A -> Prop) c : blaw P c -> blaw (fun o => match o with Some a => P a | None => True end) (b_opt c).
Proof.
  intros [L1 L2]. split.
  - intros [a|] H; cbn [b_opt benc bdec].
    + destruct (L1 a H) as [U D]. split; [constructor; [unfold is_u8, two8; lia|exact U]|].
      intros r. cbn [app]. change (1 =? 0) with false. change (1 =? 1) with true. cbn iota. now rewrite D.
    + split; [repeat constructor; unfold two8; lia|reflexivity].
  - intros s o r Hs. cbn [b_opt benc bdec]. destruct s as [|x s]; [discriminate|]. inversion Hs as [|? ? _ Hs']; subst.
    destruct (Z.eqb_spec x 0); [intros E; injection E as <- <-; subst; auto|].
    destruct (Z.eqb_spec x 1); [|discriminate]. destruct (bdec c s) as [[a r']|] eqn:D; [|discriminate].
    intros E. injection E as <- <-. destruct (L2 _ _ _ Hs' D) as [Pa ->]. subst. auto.
Qed.
Lemma pair_law1 {A B} (P : A -> Prop) (Q : B -> Prop) c d :
  blaw1 P c -> blaw1 Q d -> blaw1 (fun ab => P (fst ab) /\ Q (snd ab)) (b_pair c d).
Proof.
  intros L1 M1. intros [a b] [Pa Qb]. cbn [fst snd b_pair benc bdec] in *. destruct (L1 a Pa) as [U D]. destruct (M1 b Qb) as [V E].
  split; [apply Forall_app; auto|]. intros r. now rewrite <- app_assoc, D, E.
Qed.
Lemma pair_law {A B} (P : A -> Prop) (Q : B -> Prop) c d :
  blaw P c -> blaw Q d -> blaw (fun ab => P (fst ab) /\ Q (snd ab)) (b_pair c d).
Proof.
  intros [L1 L2] [M1 M2]. split; [now apply pair_law1|].
  intros s [a b] r Hs. cbn [b_pair benc bdec]. destruct (bdec c s) as [[a' r']|] eqn:D; [|discriminate].
  destruct (L2 _ _ _ Hs D) as [Pa ->]. apply Forall_app in Hs as [_ Hr]. destruct (bdec d r') as [[b' r'']|] eqn:E; [|discriminate].
  destruct (M2 _ _ _ Hr E) as [Qb ->]. intros X. injection X as <- <- <-. cbn [fst snd]. rewrite app_assoc. auto.
Qed.
Lemma dec_n_law {A} (P : A -> Prop) c : blaw P c ->
  (forall l, Forall P l -> Forall is_u8 (flat_map (benc c) l) /\ forall r, bdec_n c (length l) (flat_map (benc c) l ++ r) = Some (l, r)) /\
  (forall n s l r, Forall is_u8 s -> bdec_n c n s = Some (l, r) -> length l = n /\ Forall P l /\ s = flat_map (benc c) l ++ r).
Proof.
  intros [L1 L2]. split.
  - induction 1 as [|a l Pa _ [U IH]]; [split; [constructor|reflexivity]|]. destruct (L1 a Pa) as [V D].
    cbn [flat_map length bdec_n]. split; [apply Forall_app; auto|]. intros r. now rewrite <- app_assoc, D, IH.
  - induction n as [|n IH]; intros s l r Hs; cbn [bdec_n]; [intros E; injection E as <- <-; auto|].
    destruct (bdec c s) as [[a r']|] eqn:D; [|discriminate]. destruct (L2 _ _ _ Hs D) as [Pa ->].
    apply Forall_app in Hs as [_ Hr]. destruct (bdec_n c n r') as [[l' r'']|] eqn:E; [|discriminate].
    destruct (IH _ _ _ Hr E) as (X & Y & ->). intros Z. injection Z as <- <-.
    cbn [length flat_map]. rewrite app_assoc. split; [lia|auto].
Qed.
Lemma arr_law {A} (P : A -> Prop) c n : blaw P c -> blaw (fun l => length l = n /\ Forall P l) (b_arr n c).
Proof.
  intros L. destruct (dec_n_law P c L) as [D1 D2]. split.
  - intros l [<- H]. apply D1, H.
  - intros s l r Hs E. destruct (D2 _ _ _ _ Hs E) as (X & Y & ->). auto.
Qed.
Lemma vec_law {A} (P : A -> Prop) c : blaw P c -> blaw (wt_vec P) (b_vec c).
Proof.
  intros L. destruct (dec_n_law P c L) as [D1 D2]. destruct usize_law as [U1 U2]. split.
  - intros l [H Hl]. destruct (D1 l H) as [V D]. destruct (U1 (length l) Hl) as [W E]. cbn [b_vec benc bdec].
    split; [apply Forall_app; auto|]. intros r. now rewrite <- app_assoc, E, D.
  - intros s l r Hs. cbn [b_vec benc bdec]. destruct (bdec b_usize s) as [[n r']|] eqn:E; [|discriminate].
    destruct (U2 _ _ _ Hs E) as [Hn ->]. apply Forall_app in Hs as [_ Hr]. intros D.
    destruct (D2 _ _ _ _ Hr D) as (<- & Y & ->). rewrite app_assoc. split; [split; auto|reflexivity].
Qed.
Lemma u8_law : blaw is_u8 b_u8. Proof. exact (uint_law 1). Qed.
Lemma u32_law : blaw is_u32 b_u32. Proof. exact (uint_law 4). Qed.
Lemma u64_law : blaw is_u64 b_u64. Proof. exact (uint_law 8). Qed.
Lemma utf8_text_u8 s : utf8_text s -> Forall is_u8 s.
Proof.
  intros H. apply utf8_iff in H. apply utf8_bytes in H. exact H.
Qed.
Lemma str_law : blaw wt_string b_str.
Proof.
  destruct (vec_law is_u8 _ u8_law) as [L1 L2]. split.
  - intros s [H Hl]. destruct (L1 s (conj (utf8_text_u8 s H) Hl)) as [U D]. cbn [b_str benc bdec].
    split; [exact U|]. intros r. change (b_uint 1) with b_u8. rewrite D. now rewrite (proj2 (is_utf8_spec s) H).
  - intros s l r Hs. cbn [b_str benc bdec]. change (b_uint 1) with b_u8. destruct (bdec (b_vec b_u8) s) as [[l' r']|] eqn:D; [|discriminate].
    destruct (L2 _ _ _ Hs D) as [[_ Hl] ->]. destruct (is_utf8 l') eqn:E; [|discriminate]. intros X. injection X as <- <-.
    split; [split; [now apply is_utf8_spec|exact Hl]|reflexivity].
Qed.
Lemma seed_law : blaw wt_seed b_seed. Proof. exact (arr_law is_u8 b_u8 32 u8_law). Qed.
Lemma words_law : blaw wt_words b_words. Proof. exact (vec_law _ _ u32_law). Qed.
Lemma matrix_law : blaw wt_matrix b_matrix. Proof. exact (vec_law _ _ words_law). Qed.

(** Structs: destruct everything, the fields match. *)
Ltac struct_law L := eapply iso_law; [| |exact L]; cbn [fst snd];
  [intros []; cbn; intros; split; [tauto|reflexivity]
  |intros a; repeat match goal with x : (_ * _)%type |- _ => destruct x end; cbn; intros; split; [tauto|reflexivity]].

Lemma filter_params_law : blaw wt_filter_params b_filter_params.
Proof.
  pose proof (pair_law _ _ _ _ seed_law (pair_law _ _ _ _ u32_law (pair_law _ _ _ _ u32_law u32_law))) as L.
  unfold wt_filter_params, b_filter_params. struct_law L.
Qed.
Lemma index_db_law : blaw wt_index_db b_index_db.
Proof.
  pose proof (pair_law _ _ _ _ matrix_law (pair_law _ _ _ _ usize_law (pair_law _ _ _ _ usize_law usize_law))) as L.
  unfold wt_index_db, b_index_db. struct_law L.
Qed.
Lemma index_params_law : blaw wt_index_params b_index_params.
Proof.
  pose proof (pair_law _ _ _ _ usize_law (pair_law _ _ _ _ usize_law (pair_law _ _ _ _ seed_law (pair_law _ _ _ _ matrix_law (pair_law _ _ _ _ usize_law usize_law))))) as L.
  unfold wt_index_params, b_index_params. struct_law L.
Qed.
Lemma shard_law : blaw wt_shard b_shard.
Proof.
  pose proof (pair_law _ _ _ _ index_db_law index_params_law) as L.
  unfold wt_shard, b_shard. struct_law L.
Qed.
Lemma key_value_law : blaw wt_key_value b_key_value.
Proof.
  pose proof (pair_law _ _ _ _ (arr_law _ _ 4 u64_law) words_law) as L.
  unfold wt_key_value, b_key_value. struct_law L.
Qed.
Lemma kv_db_law : blaw wt_kv_db b_kv_db.
Proof.
  pose proof (pair_law _ _ _ _ matrix_law (pair_law _ _ _ _ usize_law (pair_law _ _ _ _ usize_law (pair_law _ _ _ _ usize_law filter_params_law)))) as L.
  unfold wt_kv_db, b_kv_db. struct_law L.
Qed.
Lemma kv_params_law : blaw wt_kv_params b_kv_params.
Proof.
  pose proof (pair_law _ _ _ _ usize_law (pair_law _ _ _ _ usize_law (pair_law _ _ _ _ seed_law (pair_law _ _ _ _ matrix_law (pair_law _ _ _ _ usize_law (pair_law _ _ _ _ usize_law filter_params_law)))))) as L.
  unfold wt_kv_params, b_kv_params. struct_law L.
Qed.
Lemma kv_shard_law : blaw wt_kv_shard b_kv_shard.
Proof.
  pose proof (pair_law _ _ _ _ kv_db_law kv_params_law) as L.
  unfold wt_kv_shard, b_kv_shard. struct_law L.
Qed.
Lemma bfusep_law : blaw wt_bfusep b_bfusep.
Proof.
  pose proof (pair_law _ _ _ _ seed_law (pair_law _ _ _ _ u32_law (pair_law _ _ _ _ u32_law (pair_law _ _ _ _ u32_law (pair_law _ _ _ _ words_law u64_law))))) as L.
  unfold wt_bfusep, b_bfusep. struct_law L.
Qed.
Lemma prints_law k : blaw (wt_prints k) (b_vec (b_uint k)). Proof. exact (vec_law _ _ (uint_law k)). Qed.
Lemma bfuse_law k : blaw (wt_bfuse k) (b_bfuse k).
Proof.
  pose proof (pair_law _ _ _ _ u64_law (pair_law _ _ _ _ u32_law (pair_law _ _ _ _ u32_law (pair_law _ _ _ _ u32_law (prints_law k))))) as L.
  unfold wt_bfuse, b_bfuse. struct_law L.
Qed.
Lemma xor_law k : blaw (wt_xor k) (b_xor k).
Proof.
  pose proof (pair_law _ _ _ _ u64_law (pair_law _ _ _ _ usize_law (prints_law k))) as L.
  unfold wt_xor, b_xor. struct_law L.
Qed.
Lemma fuse_law k : blaw (wt_fuse k) (b_fuse k).
Proof.
  pose proof (pair_law _ _ _ _ u64_law (pair_law _ _ _ _ usize_law (prints_law k))) as L.
  unfold wt_fuse, b_fuse. struct_law L.
Qed.
Lemma encoded_kv_law : blaw wt_encoded_kv b_encoded_kv.
Proof. exact (pair_law _ _ _ _ str_law str_law). Qed.
Lemma kv_query_params_law : blaw wt_query_params b_kv_query_params.
Proof.
  pose proof (pair_law _ _ _ _ words_law (pair_law _ _ _ _ words_law (pair_law _ _ _ _ usize_law (pair_law _ _ _ _ usize_law
    (pair_law _ _ _ _ unit_law (pair_law _ _ _ _ (opt_law _ _ filter_params_law) bool_law)))))) as L.
  unfold wt_query_params, b_kv_query_params. eapply iso_law; [| |exact L]; cbn [fst snd].
  - intros []; cbn; intros; split; [tauto|reflexivity].
  - intros (l & r & e & p & [] & x & u); cbn; intros; split; [tauto|reflexivity].
Qed.
Lemma index_query_params_law1 : blaw1 (fun q => wt_query_params q /\ qp_extra q = None) b_index_query_params.
Proof.
  pose proof (pair_law _ _ _ _ words_law (pair_law _ _ _ _ words_law (pair_law _ _ _ _ usize_law (pair_law _ _ _ _ usize_law
    (pair_law _ _ _ _ unit_law (pair_law _ _ _ _ (opt_law _ _ unit_law) bool_law)))))) as [L _].
  unfold wt_query_params, b_index_query_params. eapply iso_law1; [|exact L]; cbn [fst snd].
  intros []; cbn. intros [H E]. subst. split; [tauto|reflexivity].
Qed.

(** From the law to the API. *)
Lemma exact_of_law {A} (P : A -> Prop) c : blaw P c -> exact_binary P (bin_serialize c) (bin_deserialize c).
Proof.
  intros [L1 L2] s Hs. unfold bin_deserialize, bin_serialize.
  assert (I : forall a, match bdec c s with Some (a, _) => Ok a | None => Err EDeserialize end = Ok a <-> P a /\ exists rest, s = benc c a ++ rest).
  { intros a. split.
    - destruct (bdec c s) as [[a' r]|] eqn:D; [|discriminate]. intros E. injection E as <-.
      destruct (L2 _ _ _ Hs D) as [Pa ->]. eauto.
    - intros [Pa [r ->]]. destruct (L1 a Pa) as [_ D]. now rewrite D. }
  split; [exact I|]. intros N. destruct (bdec c s) as [[a' r]|] eqn:D; [|reflexivity].
  destruct (L2 _ _ _ Hs D) as [Pa E]. destruct (N a' r Pa E).
Qed.

(** ** JSON *)
Lemma filter_none {A} (p : A -> bool) l : (forall x, In x l -> p x = false) -> filter p l = [].
Proof. induction l as [|x l IH]; intros H; [reflexivity|]. cbn. rewrite (H x (or_introl eq_refl)). apply IH. intros; apply H; now right. Qed.
Lemma combine_fst {A B} (a : list A) (b : list B) : length b = length a -> map fst (combine a b) = a.
Proof. revert b. induction a as [|x a IH]; intros [|y b] H; try discriminate; [reflexivity|]. cbn. f_equal. apply IH. cbn in H. lia. Qed.
Definition jlaw {A} (ok : A -> Prop) (c : jcodec A) : Prop :=
  forall a, ok a -> jdec c (jenc c a) = Some a /\ utf8_json (jenc c a) /\ jenc c a <> JNull.
Definition flaw {A} (ok : A -> Prop) (c : fcodec A) : Prop :=
  Forall utf8 (fnames c) /\ incl (foptional c) (fnames c) /\
  forall a, ok a -> fdec c (fenc c a) = Some a /\ Forall utf8_json (fenc c a) /\ length (fenc c a) = length (fnames c).

Lemma j_uint_law k : (k <= 8)%nat -> jlaw (fun x => 0 <= x < 256 ^ Z.of_nat k) (j_uint k).
Proof.
  intros Hk x H. cbn [j_uint jenc jdec utf8_json]. split; [now apply de_uint_ok|]. split; [|discriminate].
  assert (256 ^ Z.of_nat k <= 256 ^ 8) by (apply Z.pow_le_mono_r; lia). change (256 ^ 8) with two64 in *. lia.
Qed.
Lemma j_iso_law {A B} (f : A -> B) (g : B -> A) c (P : A -> Prop) (Q : B -> Prop) :
  (forall b, Q b -> P (g b) /\ f (g b) = b) -> jlaw P c -> jlaw Q (j_iso f g c).
Proof.
  intros E L b H. destruct (E b H) as [Pg fg]. destruct (L (g b) Pg) as (D & U & N). cbn [j_iso jenc jdec].
  rewrite D, fg. auto.
Qed.
Lemma j_u8_law : jlaw is_u8 j_u8. Proof. apply (j_uint_law 1); lia. Qed.
Lemma j_u32_law : jlaw is_u32 j_u32. Proof. apply (j_uint_law 4); lia. Qed.
Lemma j_u64_law : jlaw is_u64 j_u64. Proof. apply (j_uint_law 8); lia. Qed.
Lemma j_usize_law : jlaw wt_usize j_usize.
Proof.
  apply (j_iso_law _ _ _ (fun x => 0 <= x < 256 ^ Z.of_nat 8)); [|apply j_uint_law; lia].
  change (256 ^ Z.of_nat 8) with (2 ^ 64). unfold wt_usize. intros b H. split; [lia|]. apply Nat2Z.id.
Qed.
Lemma j_vec_law {A} (P : A -> Prop) c : jlaw P c -> jlaw (wt_vec P) (j_vec c).
Proof.
  intros L l [H _]. cbn [j_vec jenc jdec]. rewrite Forall_forall in H. split; [|split; [|discriminate]].
  - cbn [de_vec]. apply all_some_id. intros x Hx. apply L; auto.
  - apply utf8_arr, Forall_map, Forall_forall. intros x Hx. apply L; auto.
Qed.
Lemma j_arr_law {A} (P : A -> Prop) c n : jlaw P c -> jlaw (fun l => length l = n /\ Forall P l) (j_arr n c).
Proof.
  intros L l [<- H]. cbn [j_arr jenc jdec]. rewrite Forall_forall in H. split; [|split; [|discriminate]].
  - cbn [de_vec]. rewrite all_some_id by (intros x Hx; apply L; auto). now rewrite Nat.eqb_refl.
  - apply utf8_arr, Forall_map, Forall_forall. intros x Hx. apply L; auto.
Qed.
Lemma j_str_law : jlaw wt_string j_str.
Proof. intros s [H _]. cbn. split; [reflexivity|]. split; [now apply utf8_iff|discriminate]. Qed.
Lemma j_seed_law : jlaw wt_seed j_seed. Proof. exact (j_arr_law is_u8 j_u8 32 j_u8_law). Qed.
Lemma j_words_law : jlaw wt_words j_words. Proof. exact (j_vec_law _ _ j_u32_law). Qed.
Lemma j_matrix_law : jlaw wt_matrix j_matrix. Proof. exact (j_vec_law _ _ j_words_law). Qed.

(** [null] fields and [Option]s never stand inside an [Option]. *)
Definition jlaw0 {A} (ok : A -> Prop) (c : jcodec A) : Prop :=
  forall a, ok a -> jdec c (jenc c a) = Some a /\ utf8_json (jenc c a).
Lemma jlaw_0 {A} (P : A -> Prop) c : jlaw P c -> jlaw0 P c.
Proof. intros L a H. destruct (L a H) as (? & ? & _). auto. Qed.
Lemma j_bool_law : jlaw0 (fun _ => True) j_bool. Proof. intros b _. cbn. auto. Qed.
Lemma j_null_law : jlaw0 (fun _ => True) j_null. Proof. intros [] _. cbn. auto. Qed.
Lemma j_opt_law {A} (P : A -> Prop) c : jlaw P c -> jlaw0 (fun o => match o with Some a => P a | None => True end) (j_opt c).
Proof.
  intros L [a|] H; cbn [j_opt jenc jdec]; [|split; [reflexivity|exact I]].
  destruct (L a H) as (D & U & N). split; [|exact U]. destruct (jenc c a) eqn:E; try (now rewrite D). now destruct N.
Qed.
Lemma f_nil_law : flaw (fun _ => True) f_nil.
Proof. split; [constructor|]. split; [intros x []|]. intros [] _. cbn. auto. Qed.
Lemma f_cons_law {A B} name (P : A -> Prop) (Q : B -> Prop) c d : utf8 (bytes_of name) -> jlaw0 P c -> flaw Q d ->
  flaw (fun ab => P (fst ab) /\ Q (snd ab)) (f_cons name c d).
Proof.
  intros U L (N & O & M). split; [cbn [f_cons fnames]; constructor; auto|].
  split; [intros x Hx; right; apply O; exact Hx|].
  intros [a b] [Pa Qb]. cbn [fst snd f_cons fenc fdec fnames] in *. destruct (L a Pa) as [D V]. destruct (M b Qb) as (E & W & X).
  rewrite D, E. split; [reflexivity|]. split; [constructor; auto|]. cbn [length]. now rewrite X.
Qed.
Lemma f_opt_law {A B} name (P : A -> Prop) (Q : B -> Prop) c d : utf8 (bytes_of name) -> jlaw P c -> flaw Q d ->
  flaw (fun ab => match fst ab with Some a => P a | None => True end /\ Q (snd ab)) (f_opt name c d).
Proof.
  intros U L F. destruct (f_cons_law name _ Q (j_opt c) d U (j_opt_law P c L) F) as (N & O & M).
  split; [exact N|]. split; [|exact M]. intros x [<-|Hx]; [now left|]. apply O. exact Hx.
Qed.
(** A complete object has nothing missing. *)
Lemma null_missing_complete opts names vals : incl opts names -> length vals = length names ->
  null_missing opts (JObj (combine names vals)) = JObj (combine names vals).
Proof.
  intros I L. cbn [null_missing]. f_equal.
  replace (filter _ opts) with (@nil (list Z)); [apply app_nil_r|]. symmetry. apply filter_none.
  intros k Hk. apply negb_false_iff, existsb_exists. specialize (I k Hk).
  assert (M : map fst (combine names vals) = names) by (apply combine_fst; exact L).
  rewrite <- M in I. apply in_map_iff in I as (kv & E & Hin). exists kv. split; [exact Hin|]. rewrite E. apply beq_refl.
Qed.
Lemma null_missing_none v : null_missing [] v = v.
Proof. destruct v; try reflexivity. cbn [null_missing filter map]. now rewrite app_nil_r. Qed.
Lemma combine_utf8 names vals : Forall utf8 names -> Forall utf8_json vals -> utf8_json (JObj (combine names vals)).
Proof.
  intros F G. apply utf8_obj, Forall_forall. intros [k v] H. rewrite Forall_forall in F, G.
  split; [apply F; eapply in_combine_l; eauto|apply G; eapply in_combine_r; eauto].
Qed.
Lemma j_struct_law {A} (P : A -> Prop) (c : fcodec A) : NoDup (fnames c) -> flaw P c -> jlaw P (j_struct c).
Proof.
  intros ND (U & O & L) a H. destruct (L a H) as (D & V & W). cbn [j_struct jenc jdec].
  split; [|split; [now apply combine_utf8|discriminate]].
  rewrite null_missing_complete by auto.
  rewrite struct_object_fields by auto. exact D.
Qed.
Lemma name_utf8 name : forallb (fun c => (0 <=? c) && (c <? 128)) (bytes_of name) = true -> utf8 (bytes_of name).
Proof.
  intros H. apply utf8_ascii. rewrite forallb_forall in H. apply Forall_forall. intros x Hx.
  specialize (H x Hx). apply andb_true_iff in H. rewrite Z.leb_le, Z.ltb_lt in H. exact H.
Qed.
Fixpoint nodup_names (l : list (list Z)) : bool :=
  match l with [] => true | x :: t => negb (existsb (beq x) t) && nodup_names t end.
Lemma nodup_names_ok l : nodup_names l = true -> NoDup l.
Proof.
  induction l as [|x l IH]; cbn [nodup_names]; [constructor|]. rewrite andb_true_iff, negb_true_iff. intros [H1 H2].
  constructor; [|auto]. intros Hin. assert (X : existsb (beq x) l = true).
  { apply existsb_exists. exists x. split; [exact Hin|apply beq_refl]. }
  congruence.
Qed.
Ltac fields := repeat (first [apply f_cons_law | apply f_opt_law]; [apply name_utf8; reflexivity| |]); try exact f_nil_law.
Lemma j_filter_params_law : jlaw wt_filter_params j_filter_params.
Proof.
  unfold wt_filter_params, j_filter_params. eapply j_iso_law; [|apply j_struct_law; [apply nodup_names_ok; reflexivity|fields]].
  2: exact (jlaw_0 _ _ j_seed_law).
  2: exact (jlaw_0 _ _ j_u32_law).
  2: exact (jlaw_0 _ _ j_u32_law).
  2: exact (jlaw_0 _ _ j_u32_law).
  intros []; cbn; intros; split; [tauto|reflexivity].
Qed.
Lemma j_index_db_law : jlaw wt_index_db j_index_db.
Proof.
  unfold wt_index_db, j_index_db. eapply j_iso_law; [|apply j_struct_law; [apply nodup_names_ok; reflexivity|fields]].
  2: exact (jlaw_0 _ _ j_matrix_law).
  2: exact (jlaw_0 _ _ j_usize_law).
  2: exact (jlaw_0 _ _ j_usize_law).
  2: exact (jlaw_0 _ _ j_usize_law).
  intros []; cbn; intros; split; [tauto|reflexivity].
Qed.
Lemma j_index_params_law : jlaw wt_index_params j_index_params.
Proof.
  unfold wt_index_params, j_index_params. eapply j_iso_law; [|apply j_struct_law; [apply nodup_names_ok; reflexivity|fields]].
  2: exact (jlaw_0 _ _ j_usize_law).
  2: exact (jlaw_0 _ _ j_usize_law).
  2: exact (jlaw_0 _ _ j_seed_law).
  2: exact (jlaw_0 _ _ j_matrix_law).
  2: exact (jlaw_0 _ _ j_usize_law).
  2: exact (jlaw_0 _ _ j_usize_law).
  intros []; cbn; intros; split; [tauto|reflexivity].
Qed.
Lemma j_shard_law : jlaw wt_shard j_shard.
Proof.
  unfold wt_shard, j_shard. eapply j_iso_law; [|apply j_struct_law; [apply nodup_names_ok; reflexivity|fields]].
  2: exact (jlaw_0 _ _ j_index_db_law).
  2: exact (jlaw_0 _ _ j_index_params_law).
  intros []; cbn; intros; split; [tauto|reflexivity].
Qed.
Lemma j_key_value_law : jlaw wt_key_value j_key_value.
Proof.
  unfold wt_key_value, j_key_value. eapply j_iso_law; [|apply j_struct_law; [apply nodup_names_ok; reflexivity|fields]].
  2: exact (jlaw_0 _ _ (j_arr_law _ _ 4 j_u64_law)).
  2: exact (jlaw_0 _ _ j_words_law).
  intros []; cbn; intros; split; [tauto|reflexivity].
Qed.
Lemma j_kv_db_law : jlaw wt_kv_db j_kv_db.
Proof.
  unfold wt_kv_db, j_kv_db. eapply j_iso_law; [|apply j_struct_law; [apply nodup_names_ok; reflexivity|fields]].
  2: exact (jlaw_0 _ _ j_matrix_law).
  2: exact (jlaw_0 _ _ j_usize_law).
  2: exact (jlaw_0 _ _ j_usize_law).
  2: exact (jlaw_0 _ _ j_usize_law).
  2: exact (jlaw_0 _ _ j_filter_params_law).
  intros []; cbn; intros; split; [tauto|reflexivity].
Qed.
Lemma j_kv_params_law : jlaw wt_kv_params j_kv_params.
Proof.
  unfold wt_kv_params, j_kv_params. eapply j_iso_law; [|apply j_struct_law; [apply nodup_names_ok; reflexivity|fields]].
  2: exact (jlaw_0 _ _ j_usize_law).
  2: exact (jlaw_0 _ _ j_usize_law).
  2: exact (jlaw_0 _ _ j_seed_law).
  2: exact (jlaw_0 _ _ j_matrix_law).
  2: exact (jlaw_0 _ _ j_usize_law).
  2: exact (jlaw_0 _ _ j_usize_law).
  2: exact (jlaw_0 _ _ j_filter_params_law).
  intros []; cbn; intros; split; [tauto|reflexivity].
Qed.
Lemma j_kv_shard_law : jlaw wt_kv_shard j_kv_shard.
Proof.
  unfold wt_kv_shard, j_kv_shard. eapply j_iso_law; [|apply j_struct_law; [apply nodup_names_ok; reflexivity|fields]].
  2: exact (jlaw_0 _ _ j_kv_db_law).
  2: exact (jlaw_0 _ _ j_kv_params_law).
  intros []; cbn; intros; split; [tauto|reflexivity].
Qed.
Lemma j_bfusep_law : jlaw wt_bfusep j_bfusep.
Proof.
  unfold wt_bfusep, j_bfusep. eapply j_iso_law; [|apply j_struct_law; [apply nodup_names_ok; reflexivity|fields]].
  2: exact (jlaw_0 _ _ j_seed_law).
  2: exact (jlaw_0 _ _ j_u32_law).
  2: exact (jlaw_0 _ _ j_u32_law).
  2: exact (jlaw_0 _ _ j_u32_law).
  2: exact (jlaw_0 _ _ j_words_law).
  2: exact (jlaw_0 _ _ j_u64_law).
  intros []; cbn; intros; split; [tauto|reflexivity].
Qed.
Lemma j_encoded_kv_law : jlaw wt_encoded_kv j_encoded_kv.
Proof.
  unfold wt_encoded_kv, j_encoded_kv. eapply j_iso_law; [|apply j_struct_law; [apply nodup_names_ok; reflexivity|fields]].
  2: exact (jlaw_0 _ _ j_str_law).
  2: exact (jlaw_0 _ _ j_str_law).
  intros []; cbn; intros; split; [tauto|reflexivity].
Qed.
Lemma j_bfuse_law k : (k <= 8)%nat -> jlaw (wt_bfuse k) (j_bfuse k).
Proof.
  intros Hk. unfold wt_bfuse, j_bfuse. eapply j_iso_law; [|apply j_struct_law; [apply nodup_names_ok; reflexivity|fields]].
  2: exact (jlaw_0 _ _ j_u64_law).
  2: exact (jlaw_0 _ _ j_u32_law).
  2: exact (jlaw_0 _ _ j_u32_law).
  2: exact (jlaw_0 _ _ j_u32_law).
  2: exact (jlaw_0 _ _ (j_vec_law _ _ (j_uint_law k Hk))).
  intros []; cbn; intros; split; [tauto|reflexivity].
Qed.
Lemma j_xor_law k : (k <= 8)%nat -> jlaw (wt_xor k) (j_xor k).
Proof.
  intros Hk. unfold wt_xor, j_xor. eapply j_iso_law; [|apply j_struct_law; [apply nodup_names_ok; reflexivity|fields]].
  2: exact (jlaw_0 _ _ j_u64_law).
  2: exact (jlaw_0 _ _ j_usize_law).
  2: exact (jlaw_0 _ _ (j_vec_law _ _ (j_uint_law k Hk))).
  intros []; cbn; intros; split; [tauto|reflexivity].
Qed.
Lemma j_fuse_law k : (k <= 8)%nat -> jlaw (wt_fuse k) (j_fuse k).
Proof.
  intros Hk. unfold wt_fuse, j_fuse. eapply j_iso_law; [|apply j_struct_law; [apply nodup_names_ok; reflexivity|fields]].
  2: exact (jlaw_0 _ _ j_u64_law).
  2: exact (jlaw_0 _ _ j_usize_law).
  2: exact (jlaw_0 _ _ (j_vec_law _ _ (j_uint_law k Hk))).
  intros []; cbn; intros; split; [tauto|reflexivity].
Qed.
Lemma j_kv_query_params_law : jlaw wt_query_params j_kv_query_params.
Proof.
  unfold wt_query_params, j_kv_query_params. eapply j_iso_law; [|apply j_struct_law; [apply nodup_names_ok; reflexivity|fields]].
  2: exact (jlaw_0 _ _ j_words_law).
  2: exact (jlaw_0 _ _ j_words_law).
  2: exact (jlaw_0 _ _ j_usize_law).
  2: exact (jlaw_0 _ _ j_usize_law).
  2: exact (j_null_law).
  2: exact j_filter_params_law.
  2: exact (j_bool_law).
  intros []; cbn; intros; split; [tauto|reflexivity].
Qed.
Lemma j_index_query_params_law : jlaw (fun q => wt_query_params q /\ qp_extra q = None) j_index_query_params.
Proof.
  unfold wt_query_params, j_index_query_params. eapply j_iso_law; [|apply j_struct_law; [apply nodup_names_ok; reflexivity|fields]].
  2: exact (jlaw_0 _ _ j_words_law).
  2: exact (jlaw_0 _ _ j_words_law).
  2: exact (jlaw_0 _ _ j_usize_law).
  2: exact (jlaw_0 _ _ j_usize_law).
  2: exact (j_null_law).
  2: exact (j_struct_law _ f_nil (NoDup_nil _) f_nil_law).
  2: exact (j_bool_law).
  intros []; cbn. intros [H E]. subst. split; [tauto|reflexivity].
Qed.

Lemma text_of_law {A} (P : A -> Prop) c : jlaw P c -> text_round_trip P (json_to_string c) (json_from_str c).
Proof.
  intros L a H. destruct (L a H) as (D & U & _). unfold json_to_string, json_from_str. split; [now apply utf8_iff, write_utf8|].
  now rewrite parse_text_write, D by now apply utf8_wf.
Qed.
Lemma any_text_of_law {A} (P : A -> Prop) c : jlaw P c -> forall a s, P a -> json_document s (jenc c a) -> json_from_str c s = Ok a.
Proof.
  intros L a s H D. destruct (L a H) as (E & _). unfold json_from_str. apply parse_text_iff in D. now rewrite D, E.
Qed.

(** Exactness implies that cut files are refused. *)
Lemma exact_torn {A} (ok : A -> Prop) ser des : exact_binary ok ser des ->
  (forall a, ok a -> Forall is_u8 (ser a)) -> torn_is_error ok ser des.
Proof.
  intros X U a cut rest Ha E N.
  assert (B : Forall is_u8 (cut ++ rest)) by (rewrite <- E; auto). pose proof B as B'. apply Forall_app in B' as [Bc _].
  destruct (X cut Bc) as [Xi Xe]. apply Xe. intros a' r Ha' Ec.
  destruct (X (ser a)) as [Yi _]; [now apply U|].
  assert (P : des (ser a) = Ok a) by (apply Yi; split; [exact Ha|]; exists []; now rewrite app_nil_r).
  assert (Q : des (ser a) = Ok a') by (apply Yi; split; [exact Ha'|]; exists (r ++ rest); rewrite E, Ec; now rewrite app_assoc).
  assert (a = a') by congruence. subst a'. apply (f_equal (@length Z)) in Ec.
  rewrite !app_length in Ec. destruct rest; [congruence|]. rewrite E in Ec. rewrite !app_length in Ec. cbn [length] in Ec. lia.
Qed.
Lemma torn_of_law {A} (P : A -> Prop) c : blaw P c -> torn_is_error P (bin_serialize c) (bin_deserialize c).
Proof.
  intros L. apply exact_torn; [now apply exact_of_law|]. intros a Ha. apply (proj1 L), Ha.
Qed.

Lemma json_torn_of_law {A} (P : A -> Prop) c : jlaw P c -> (forall a, closed_json (jenc c a)) ->
  torn_is_error P (json_to_string c) (json_from_str c).
Proof.
  intros L C a cut rest Ha E N. destruct (L a Ha) as (_ & U & _). unfold json_to_string, json_from_str in *.
  rewrite (parse_text_torn (jenc c a) cut rest); auto. now apply utf8_wf.
Qed.

(** ** Values the API produces fit their types *)
Lemma mapM_u32 {A} (f : A -> res Z) l ys : mapM f l = Ok ys -> (forall x y, f x = Ok y -> is_u32 y) -> Forall is_u32 ys.
Proof.
  intros H F. apply mapM_Ok_inv in H. induction H as [|x y l ys E _ IH]; constructor; eauto.
Qed.
Lemma vec_mult_u32 a b y : vec_mult_u32_u32 a b = Ok y -> is_u32 y.
Proof.
  rewrite vec_mult_closed. destruct (_ =? _)%nat; [|discriminate]. intros E. injection E as <-.
  apply Z.mod_pos_bound. reflexivity.
Qed.
Lemma index_vec_mult_u32 db q i y : index_vec_mult db q i = Ok y -> is_u32 y.
Proof.
  unfold index_vec_mult. intros H. apply bind_Ok in H as (col & _ & H). destruct (negb _); [discriminate|]. apply (proj1 (unwrap_Ok _ _)) in H. eapply vec_mult_u32; eauto.
Qed.
Lemma kv_vec_mult_u32 db q i y : kv_vec_mult db q i = Ok y -> is_u32 y.
Proof.
  unfold kv_vec_mult. intros H. apply bind_Ok in H as (col & _ & H). apply (proj1 (unwrap_Ok _ _)) in H. eapply vec_mult_u32; eauto.
Qed.
Lemma cdiv_usize es pb w : (1 <= pb)%nat -> is_ceil_div es pb w -> wt_usize es -> wt_usize w.
Proof. unfold is_ceil_div, wt_usize. intros Hp [_ H] Hes. assert (w <= es)%nat by (apply H; rewrite <- (Nat.mul_1_r es) at 1; apply Nat.mul_le_mono_l, Hp). lia. Qed.
Lemma mult_left_typed cp s tape lhs rest : mult_left cp s tape = Ok (lhs, rest) -> Forall is_u32 lhs /\ length lhs = length cp.
Proof.
  unfold mult_left. set (f := fun (st : list Z * list Z) i => _).
  assert (G : forall l st st', foldM f l st = Ok st' -> Forall is_u32 (fst st) ->
     Forall is_u32 (fst st') /\ length (fst st') = (length (fst st) + length l)%nat).
  { induction l as [|i l IH]; intros [acc t] st' E HF; cbn [foldM] in E.
    - injection E as <-. cbn [length]. split; [exact HF|lia].
    - apply bind_Ok in E as ([acc' t'] & E1 & E). unfold f in E1. apply bind_Ok in E1 as (col & _ & E1).
      apply bind_Ok in E1 as (sa & _ & E1). apply bind_Ok in E1 as ([e t''] & _ & E1). injection E1 as <- <-.
      apply IH in E; [|apply Forall_app; split; [exact HF|repeat constructor; apply Z.mod_pos_bound; reflexivity]].
      cbn [fst] in *. rewrite app_length in E. cbn [length] in *. split; [apply E|]. lia. }
  intros E. apply G in E; [|constructor]. cbn [fst length] in E. rewrite seq_length in E. exact E.
Qed.
Lemma mult_right_typed rhs s y : mult_right rhs s = Ok y -> Forall is_u32 y /\ length y = length rhs.
Proof.
  unfold mult_right. intros H. split.
  - eapply mapM_u32; [exact H|]. intros i x E. apply bind_Ok in E as (col & _ & E). eapply vec_mult_u32; eauto.
  - apply mapM_length in H. now rewrite seq_length in H.
Qed.
Lemma index_qp_typed cp p tape qp rest : wt_index_params p -> wt_usize (length cp) ->
  generate_index_query_params cp p tape = Ok (qp, rest) -> wt_query_params qp /\ qp_extra qp = None.
Proof.
  intros (H1 & H2 & H3 & (_ & H4) & H5 & H6) Hc E. unfold generate_index_query_params in E.
  apply bind_Ok in E as ([s t] & _ & E). apply bind_Ok in E as ([lhs t'] & El & E). apply bind_Ok in E as (rhs & Er & E).
  injection E as <- _. apply mult_left_typed in El as [Fl Ll]. apply mult_right_typed in Er as [Fr Lr].
  unfold wt_query_params, wt_words, wt_vec. cbn [qp_lhs qp_rhs qp_elem_size qp_plaintext_bits qp_extra]. rewrite Ll, Lr. auto 10.
Qed.
Lemma kv_qp_typed cp p tape qp rest : wt_kv_params p -> wt_usize (length cp) ->
  generate_kv_query_params cp p tape = Ok (qp, rest) -> wt_query_params qp.
Proof.
  intros (H1 & H2 & H3 & (_ & H4) & H5 & H6 & H7) Hc E. unfold generate_kv_query_params in E.
  apply bind_Ok in E as ([s t] & _ & E). apply bind_Ok in E as ([lhs t'] & El & E). apply bind_Ok in E as (rhs & Er & E).
  injection E as <- _. apply mult_left_typed in El as [Fl Ll]. apply mult_right_typed in Er as [Fr Lr].
  unfold wt_query_params, wt_words, wt_vec. cbn [qp_lhs qp_rhs qp_elem_size qp_plaintext_bits qp_extra]. rewrite Ll, Lr. auto 10.
Qed.
Lemma upd_u32 l i x : Forall is_u32 l -> is_u32 x -> Forall is_u32 (upd l i x).
Proof. intros H Hx. revert i. induction H as [|y l Hy Hl IH]; intros [|i]; cbn [upd]; constructor; auto. Qed.
Lemma index_query_typed dbg qp i qp' q : wt_query_params qp -> index_generate_query dbg qp i = (qp', Ok q) ->
  wt_words q /\ wt_query_params qp'.
Proof.
  intros T E. pose proof T as (Hl & _). unfold index_generate_query in E. destruct (qp_used qp); [discriminate|].
  injection E as <- E. split; [|exact T]. apply bind_Ok in E as (qi & _ & E). apply bind_Ok in E as (x & _ & E).
  destruct (negb _); [|discriminate]. apply set_Ok in E as [_ ->]. destruct Hl as [F L]. split; [|now rewrite length_upd].
  apply upd_u32; [exact F|]. apply Z.mod_pos_bound. reflexivity.
Qed.
Lemma kv_query_typed dbg qp key qp' q : wt_query_params qp -> kv_generate_query dbg qp key = (qp', Ok q) ->
  wt_words q /\ wt_query_params qp'.
Proof.
  intros T E. pose proof T as (Hl & _). unfold kv_generate_query in E. destruct (qp_used qp); [discriminate|].
  pose proof (f_equal fst E) as E1. apply (f_equal snd) in E. cbn [fst snd] in E1, E. rewrite <- E1. clear E1 qp'. split; [|exact T]. apply bind_Ok in E as (qi & _ & E). destruct (qp_extra qp) as [fp|]; [|discriminate].
  apply bind_Ok in E as (ix & _ & E).
  refine (foldM_invariant wt_words _ _ _ _ Hl _ E). intros s s' i _ [F L] Es. apply bind_Ok in Es as (x & _ & Es).
  apply set_Ok in Es as [_ ->]. split; [|now rewrite length_upd]. apply upd_u32; [exact F|]. apply Z.mod_pos_bound. reflexivity.
Qed.
Lemma shard_respond_typed s q bytes : wt_shard s -> (1 <= id_plaintext_bits (sh_db s))%nat -> shard_respond s q = Ok bytes ->
  exists resp, wt_words resp /\ bytes = bincode_ser_vec_u32 resp.
Proof.
  intros [(_ & _ & He & _) _] Hp E. unfold shard_respond in E. apply bind_Ok in E as (w & Ew & E). apply bind_Ok in E as (resp & Er & E).
  injection E as <-. exists resp. split; [|reflexivity]. split.
  - eapply mapM_u32; [exact Er|]. intros. eapply index_vec_mult_u32; eauto.
  - apply mapM_length in Er. rewrite Er, seq_length. unfold index_row_width_self in Ew.
    destruct (get_row_width_pos (id_elem_size (sh_db s)) (id_plaintext_bits (sh_db s)) Hp) as (w' & Ew' & Hw').
    rewrite Ew' in Ew. injection Ew as <-. eapply cdiv_usize; eauto.
Qed.
Lemma kv_shard_respond_typed s q bytes : wt_kv_shard s -> (1 <= kd_plaintext_bits (ks_db s))%nat -> kv_shard_respond s q = Ok bytes ->
  exists resp, wt_words resp /\ bytes = bincode_ser_vec_u32 resp.
Proof.
  intros [(_ & _ & He & _) _] Hp E. unfold kv_shard_respond in E. apply bind_Ok in E as (w & Ew & E). apply bind_Ok in E as (resp & Er & E).
  injection E as <-. exists resp. split; [|reflexivity]. split.
  - eapply mapM_u32; [exact Er|]. intros. eapply kv_vec_mult_u32; eauto.
  - apply mapM_length in Er. rewrite Er, seq_length. unfold kv_row_width_self in Ew.
    destruct (get_row_width_pos (kd_elem_size (ks_db s)) (kd_plaintext_bits (ks_db s)) Hp) as (w' & Ew' & Hw').
    rewrite Ew' in Ew. injection Ew as <-. eapply cdiv_usize; eauto.
Qed.
Lemma constructed_wt prg dbg seed strs dim m es pb sh :
  (1 <= pb <= 32)%nat -> wt_seed seed -> wt_usize dim -> wt_usize m -> wt_usize es ->
  shard_from_base64_strings prg dbg seed strs dim m es pb = Ok sh ->
  wt_shard sh /\ id_plaintext_bits (sh_db sh) = pb /\ ip_m (sh_params sh) = m.
Proof.
  intros Hpb Hs Hd Hm He H. destruct (get_row_width_pos es pb) as (w & _ & Hw); [lia|].
  assert (Uw : wt_usize w) by (apply (cdiv_usize es pb); auto; lia).
  assert (Up : wt_usize pb) by (unfold wt_usize; clear - Hpb; change (2 ^ 64) with 18446744073709551616; lia).
  destruct (shard_inv _ _ _ _ _ _ _ _ w _ Hpb Hw H) as (_ & elems & (Le & _) & ->).
  unfold wt_shard, wt_index_db, wt_index_params, shard_of, db_of, params_of, rhs_of, column.
  cbn [sh_db sh_params id_entries id_m id_elem_size id_plaintext_bits ip_rhs ip_public_seed ip_dim ip_m ip_elem_size ip_plaintext_bits].
  split; [|split; reflexivity]. split; (split || idtac); auto.
  - split; [|now rewrite map_length, seq_length].
    apply Forall_map, Forall_forall. intros c _. split; [|now rewrite map_length, Le].
    apply Forall_map, Forall_forall. intros b _.
    unfold is_u32. pose proof (chunk_range b pb c). unfold psize in *.
    assert (2 ^ Z.of_nat pb <= 2 ^ 32) by (apply Z.pow_le_mono_r; lia). change (2 ^ 32) with two32 in *. lia.
  - split; [exact Hm|]. split; [exact Hs|]. split; [|auto].
    split; [|now rewrite map_length, seq_length].
    apply Forall_map, Forall_forall. intros c _. split.
    + apply Forall_map, Forall_forall. intros b _. apply Z.mod_pos_bound. reflexivity.
    + rewrite map_length. unfold transpose. now rewrite map_length, seq_length.
Qed.
Lemma kv_constructed_wt prg dbg fe rnd fseed pseed kvs dim m es pb sh :
  sane_estimates fe (length kvs) -> (1 <= pb <= 31)%nat -> wt_seed fseed -> wt_seed pseed -> wt_usize dim -> wt_usize m -> wt_usize es ->
  Forall wt_key_value kvs ->
  kv_shard_new prg dbg fe rnd fseed pseed kvs dim m es pb = Ok sh ->
  wt_kv_shard sh /\ kd_plaintext_bits (ks_db sh) = pb.
Proof.
  intros Hfe Hpb Hfs Hps Hd Hm He Hkvs H. unfold kv_shard_new in H. apply bind_Ok in H as (db & Hdb & H).
  destruct (kv_db_inv dbg fe rnd fseed kvs m es pb db ltac:(lia) Hdb)
    as (kv0 & g & H0 & Eg & Em & Ee & Ep & Ef & Hsh & Hpos & _ & HC).
  destruct (geometry_valid _ _ _ _ Hfe Eg) as [V _].
  unfold kv_shard_of_db in H. apply bind_Ok in H as (p & Hp & H). injection H as <-.
  pose proof (kv_height_ok db _ _ Hsh Hpos) as Eh. pose proof (geom_pos g V) as Gp.
  destruct V as (k & Hk & V1 & V2 & V3 & V4 & V5 & V6).
  assert (K0 : 1 <= 2 ^ k) by (apply (Z.pow_le_mono_r 2 0 k); lia).
  assert (Ua : wt_usize (g_arrlen g)).
  { unfold wt_usize. rewrite V5, Z2Nat.id by (apply Z.mul_nonneg_nonneg; lia). clear - V6. unfold two32 in *. change (2 ^ 64) with 18446744073709551616. lia. }
  assert (Up : wt_usize pb) by (unfold wt_usize; clear - Hpb; change (2 ^ 64) with 18446744073709551616; lia).
  assert (Uf : wt_filter_params (kd_filter_params db)).
  { rewrite Ef. unfold wt_filter_params, fp_of, is_u32. cbn [fp_seed fp_segment_length fp_segment_length_mask fp_segment_count_length].
    rewrite V1, V2, V4. split; [exact Hfs|]. clear - K0 V3 V6. set (x := 2 ^ k) in *. set (n := g_segcount g) in *. clearbody x n.
    assert (0 <= n * x) by (apply Z.mul_nonneg_nonneg; lia). rewrite Z.mul_add_distr_r in V6. lia. }
  assert (Ut : wt_matrix (kd_entries db)).
  { destruct Hsh as [L1 L2]. split.
    - apply Forall_forall. intros col Hin. destruct (In_nth _ _ [] Hin) as (c & Hc & <-). rewrite L1 in Hc.
      destruct (HC c Hc) as (f & Es & Eg' & _). pose proof (from_slice_mod _ _ _ _ _ _ _ _ _ Es) as Pm.
      pose proof (fingerprints_mod_range f (Z.of_nat pb) _ ltac:(lia) Pm Eg') as R.
      rewrite Forall_forall in L2. split.
      + eapply Forall_impl; [|exact R]. intros x Hx. unfold is_u32. assert (PB : 2 ^ Z.of_nat pb <= two32) by (apply (Z.pow_le_mono_r 2 (Z.of_nat pb) 32); lia).
        clear - Hx PB. cbn beta in Hx. lia.
      + rewrite L2 by auto. exact Ua.
    - rewrite L1. pose proof (nth_error_In _ _ H0) as I0. rewrite Forall_forall in Hkvs. destruct (Hkvs _ I0) as (_ & _ & X). exact X. }
  destruct (get_row_width_pos es pb) as (w & Ew & Hw); [lia|].
  assert (Uw : wt_usize w) by (apply (cdiv_usize es pb); auto; lia).
  unfold wt_kv_shard, wt_kv_db. cbn [ks_db ks_params]. rewrite Em, Ee, Ep.
  split; [|reflexivity]. split; [auto 10|].
  unfold kv_params_new in Hp. apply bind_Ok in Hp as (rhs & Hr & Hp). rewrite Eh in Hp. cbn [bind] in Hp. injection Hp as <-.
  unfold wt_kv_params. cbn [kp_dim kp_m kp_public_seed kp_rhs kp_elem_size kp_plaintext_bits kp_filter_params]. rewrite Ee, Ep.
  split; [exact Hd|]. split; [exact Ua|]. split; [exact Hps|]. split; [|auto].
  unfold generate_params_rhs in Hr. rewrite Eh in Hr. cbn [bind] in Hr. fold (pubmat prg pseed dim (g_arrlen g)) in Hr.
  rewrite (swap_matrix_rect _ (g_arrlen g) dim) in Hr by (auto; apply pubmat_shape). cbn [bind] in Hr.
  unfold kv_row_width_self in Hr. rewrite Ee, Ep, Ew in Hr. cbn [bind] in Hr.
  split; [|apply mapM_length in Hr; now rewrite Hr, seq_length].
  apply mapM_Ok_inv in Hr. clear - Hr Hd. induction Hr as [|c r l rs E _ IH]; constructor; [|exact IH].
  split.
  - eapply mapM_u32; [exact E|]. intros x y Hxy. exact (kv_vec_mult_u32 _ _ _ _ Hxy).
  - apply mapM_length in E. rewrite E. unfold transpose. now rewrite map_length, seq_length.
Qed.
