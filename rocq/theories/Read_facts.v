(** Facts for C82: decoders of [Serde] against the relations of [SpecRead]. *)
From Coq Require Import String.
From Verif Require Import Base Db Api Json Files Serde SpecJson SpecSerde SpecRead Base_facts Json_facts Files_facts
  JsonSpec_facts Serde_facts Claims_json.
Local Open Scope Z_scope.

(** ** A document has no negative [JInt] *)
Fixpoint nonneg (v : json) : Prop :=
  match v with
  | JInt n => 0 <= n
  | JArr l => (fix all l := match l with [] => True | x :: t => nonneg x /\ all t end) l
  | JObj l => (fix all l := match l with [] => True | (_, x) :: t => nonneg x /\ all t end) l
  | _ => True
  end.
Lemma nonneg_arr l : nonneg (JArr l) <-> Forall nonneg l.
Proof.
  induction l as [|x t IH]; [split; constructor|]. split.
  - intros [A B]. constructor; [exact A|]. now apply IH.
  - intros H. inversion H; subst. split; [auto|]. now apply IH.
Qed.
Lemma nonneg_obj l : nonneg (JObj l) <-> Forall (fun kv => nonneg (snd kv)) l.
Proof.
  induction l as [|[k x] t IH]; [split; constructor|]. split.
  - intros [A B]. constructor; [exact A|]. now apply IH.
  - intros H. inversion H; subst. split; [auto|]. now apply IH.
Qed.
Lemma decimal_nonneg s n : decimal s n -> 0 <= n.
Proof. induction 1; lia. Qed.
Lemma number_nonneg s v : json_number s v -> nonneg v.
Proof. intros [t n I D|]; [now apply decimal_nonneg in D|exact I]. Qed.
Lemma values_nonneg :
  (forall t v, json_value t v -> nonneg v) /\
  (forall t l, json_items t l -> Forall nonneg l) /\
  (forall t l, json_members t l -> Forall (fun kv : list Z * json => nonneg (snd kv)) l).
Proof.
  apply json_mutind; intros; try exact I; auto.
  - eapply number_nonneg; eassumption.
  - now apply nonneg_arr.
  - now apply nonneg_obj.
Qed.
Lemma document_nonneg s v : json_document s v -> nonneg v.
Proof. intros (w1 & t & w2 & _ & _ & V & _). exact (proj1 values_nonneg _ _ V). Qed.

(** ** Decoders *)
Definition jspec {A} (d : json -> A -> Prop) (c : jcodec A) : Prop :=
  forall v a, nonneg v -> (jdec c v = Some a <-> d v a).
Definition fspec {A} (d : list json -> A -> Prop) (c : fcodec A) : Prop :=
  forall l a, Forall nonneg l -> (fdec c l = Some a <-> d l a).

Lemma exact_of_jspec {A} (d : json -> A -> Prop) (c : jcodec A) : jspec d c -> exact_text d (json_from_str c).
Proof.
  intros J s. unfold json_from_str. split.
  - intros a. destruct (parse_text s) as [v|] eqn:P.
    + pose proof (proj1 (parse_text_iff _ _) P) as D. specialize (J v a (document_nonneg _ _ D)). split.
      * destruct (jdec c v) as [b|] eqn:E; cbn [of_opt]; [|discriminate]. intros Q. injection Q as ->.
        exists v. split; [exact D|]. now apply J.
      * intros (v' & D' & H). rewrite (json_document_fun _ _ _ D' D) in H. apply J in H. now rewrite H.
    + split; [discriminate|]. intros (v & D & _). apply parse_text_iff in D. congruence.
  - intros N. destruct (parse_text s) as [v|] eqn:P; [|reflexivity].
    pose proof (proj1 (parse_text_iff _ _) P) as D. destruct (jdec c v) as [b|] eqn:E; [|reflexivity].
    apply (J v b (document_nonneg _ _ D)) in E. now destruct (N v b D).
Qed.

Lemma uint_spec k : jspec (d_uint k) (j_uint k).
Proof.
  intros v a N. unfold d_uint. cbn [j_uint jdec]. unfold de_uint. destruct v; try (split; [discriminate|intros [E _]; discriminate]).
  cbn [nonneg] in N. destruct (Z.ltb_spec n (256 ^ Z.of_nat k)) as [L|L].
  - split; [intros E; injection E as <-; auto|]. intros [E _]. now injection E as <-.
  - split; [discriminate|]. intros [E R]. injection E as <-. lia.
Qed.
Lemma size_spec : jspec d_size j_usize.
Proof.
  intros v a N. pose proof (uint_spec 8 v (Z.of_nat a) N) as U. unfold d_uint in U. unfold d_size.
  change (256 ^ Z.of_nat 8) with (2 ^ 64) in U. unfold j_usize, j_iso. cbn [jdec].
  split.
  - destruct (jdec (j_uint 8) v) as [x|] eqn:E; [|discriminate]. intros Q. injection Q as <-.
    apply (uint_spec 8 v x N) in E as [-> R]. change (256 ^ Z.of_nat 8) with (2 ^ 64) in R.
    rewrite Z2Nat.id by lia. split; [reflexivity|lia].
  - intros [E R]. rewrite (proj2 U) by (split; [exact E|lia]). now rewrite Nat2Z.id.
Qed.
Lemma Forall2_impl_in {A B} (P Q : A -> B -> Prop) l l' : Forall (fun a => forall b, P a b -> Q a b) l -> Forall2 P l l' -> Forall2 Q l l'.
Proof. intros H F. induction F; inversion H; subst; constructor; auto. Qed.
Lemma list_spec {A} (d : json -> A -> Prop) c : jspec d c -> jspec (d_list d) (j_vec c).
Proof.
  intros J v l N. unfold d_list. cbn [j_vec jdec]. unfold de_vec.
  destruct v as [| | | | |vs|]; try (split; [discriminate|intros (? & E & _); discriminate]).
  apply nonneg_arr in N. rewrite Forall_forall in N. rewrite all_some_Forall2. split.
  - intros F. exists vs. split; [reflexivity|]. eapply Forall2_impl_in; [|exact F].
    apply Forall_forall. intros x Hx b E. apply J; auto.
  - intros (ws & E & F). injection E as ->. eapply Forall2_impl_in; [|exact F].
    apply Forall_forall. intros x Hx b E. apply J; auto.
Qed.
Lemma array_spec {A} n (d : json -> A -> Prop) c : jspec d c -> jspec (d_array n d) (j_arr n c).
Proof.
  intros J v l N. unfold d_array. rewrite <- (list_spec d c J v l N). cbn [j_vec j_arr jdec].
  destruct (de_vec (jdec c) v) as [r|]; [|split; [discriminate|intros [? _]; discriminate]].
  destruct (Nat.eqb_spec (length r) n) as [E|E].
  - split; [intros Q; injection Q as ->; auto|]. intros [Q _]. now injection Q as ->.
  - split; [discriminate|]. intros [Q L]. injection Q as ->. congruence.
Qed.
Lemma str_spec : jspec d_string j_str.
Proof. intros v a _. unfold d_string. cbn [j_str jdec]. unfold Json.de_string. destruct v; split; congruence. Qed.
Lemma seed_spec : jspec d_seed j_seed. Proof. exact (array_spec 32 _ _ (uint_spec 1)). Qed.
Lemma words_spec : jspec d_words j_words. Proof. exact (list_spec _ _ (uint_spec 4)). Qed.
Lemma matrix_spec : jspec d_matrix j_matrix. Proof. exact (list_spec _ _ words_spec). Qed.
Definition d_bool (v : json) (b : bool) : Prop := v = JBool b.
Lemma bool_spec : jspec d_bool j_bool.
Proof. intros v a _. unfold d_bool. cbn [j_bool jdec]. destruct v; split; congruence. Qed.
Definition d_null (v : json) (b : unit) : Prop := v = JNull.
Lemma null_spec : jspec d_null j_null.
Proof. intros v [] _. unfold d_null. cbn [j_null jdec]. destruct v; split; congruence. Qed.
Definition d_opt {A} (d : json -> A -> Prop) (v : json) (o : option A) : Prop :=
  v = JNull /\ o = None \/ v <> JNull /\ exists a, o = Some a /\ d v a.
Lemma opt_spec {A} (d : json -> A -> Prop) c : jspec d c -> jspec (d_opt d) (j_opt c).
Proof.
  intros J v o N. assert (K : v <> JNull -> jdec (j_opt c) v = match jdec c v with Some a => Some (Some a) | None => None end)
    by (intros K; destruct v; try reflexivity; congruence).
  unfold d_opt. destruct (match v with JNull => true | _ => false end) eqn:T.
  - assert (v = JNull) as -> by (destruct v; try discriminate; reflexivity). cbn [j_opt jdec]. split.
    + intros Q. injection Q as <-. now left.
    + intros [[_ ->]|[H _]]; [reflexivity|congruence].
  - assert (V : v <> JNull) by (intros ->; discriminate). rewrite (K V). split.
    + destruct (jdec c v) as [a|] eqn:E; [|discriminate]. intros Q. injection Q as <-. right. split; [exact V|].
      exists a. split; [reflexivity|]. now apply J.
    + intros [[H _]|(_ & a & -> & H)]; [congruence|]. apply J in H; auto. now rewrite H.
Qed.

(** ** Records *)
Definition d_cons {A B} (d : json -> A -> Prop) (e : list json -> B -> Prop) (l : list json) (ab : A * B) : Prop :=
  exists v t, l = v :: t /\ d v (fst ab) /\ e t (snd ab).
Definition d_nil (l : list json) (u : unit) : Prop := l = [].
Lemma nil_spec : fspec d_nil f_nil.
Proof. intros l [] _. unfold d_nil. cbn [f_nil fdec]. destruct l; split; congruence. Qed.
Lemma cons_spec {A B} name (d : json -> A -> Prop) (e : list json -> B -> Prop) c f : jspec d c -> fspec e f ->
  fspec (d_cons d e) (f_cons name c f).
Proof.
  intros J F l [a b] N. unfold d_cons. cbn [f_cons fdec fst snd]. destruct l as [|v t]; [split; [discriminate|intros (? & ? & E & _); discriminate]|].
  inversion N as [|? ? N1 N2]; subst. specialize (J v). specialize (F t). split.
  - destruct (jdec c v) as [x|] eqn:E; [|discriminate]. destruct (fdec f t) as [y|] eqn:G; [|discriminate].
    intros Q. injection Q as -> ->. exists v, t. split; [reflexivity|]. split; [now apply J|now apply F].
  - intros (v' & t' & E & H1 & H2). injection E as <- <-. apply J in H1; [|auto]. apply F in H2; [|auto]. now rewrite H1, H2.
Qed.
Lemma opt_cons_spec {A B} name (d : json -> A -> Prop) (e : list json -> B -> Prop) c f : jspec d c -> fspec e f ->
  fspec (d_cons (d_opt d) e) (f_opt name c f).
Proof. intros J F. exact (cons_spec name _ _ _ _ (opt_spec _ _ J) F). Qed.

Lemma member_in l k v : member_is l k v -> In (k, v) l.
Proof.
  intros [U C]. assert (I : In k (map fst l)).
  { apply (count_occ_In (list_eq_dec Z.eq_dec)). rewrite C. auto. }
  apply in_map_iff in I as ([k' x] & <- & I). cbn [fst] in *. now rewrite <- (U x I).
Qed.
Lemma record_nonneg ns vals v : nonneg v -> record_is ns vals v -> Forall nonneg vals.
Proof.
  intros N [[-> _]|(l & -> & F)]; [now apply nonneg_arr|]. apply nonneg_obj in N. rewrite Forall_forall in N.
  induction F as [|n x ns vals H F IH]; constructor; [|exact IH].
  apply member_in in H. exact (N _ H).
Qed.
Lemma null_missing_nonneg ns v : nonneg v -> nonneg (null_missing ns v).
Proof.
  destruct v; auto. intros N. cbn [null_missing]. apply nonneg_obj. apply nonneg_obj in N. apply Forall_app. split; [exact N|].
  apply Forall_forall. intros x Hx. apply in_map_iff in Hx as (k & <- & _). exact I.
Qed.
Lemma struct_spec {A} (e : list json -> A -> Prop) (f : fcodec A) : fspec e f ->
  jspec (fun v a => exists vals, record_is (fnames f) vals (null_missing (foptional f) v) /\ e vals a) (j_struct f).
Proof.
  intros F v a N. cbn [j_struct jdec]. pose proof (null_missing_nonneg (foptional f) v N) as M. split.
  - destruct (struct_fields _ _) as [vals|] eqn:E; [|discriminate]. apply struct_fields_iff in E. intros H. exists vals.
    split; [exact E|]. apply F; [|exact H]. eapply record_nonneg; eassumption.
  - intros (vals & R & H). pose proof (record_nonneg _ _ _ M R) as V. apply struct_fields_iff in R. rewrite R. now apply F.
Qed.
Lemma null_missing_nil v : null_missing [] v = v.
Proof. destruct v; try reflexivity. cbn [null_missing filter map]. now rewrite app_nil_r. Qed.
Lemma struct_spec0 {A} (e : list json -> A -> Prop) (f : fcodec A) : foptional f = [] -> fspec e f ->
  jspec (fun v a => exists vals, record_is (fnames f) vals v /\ e vals a) (j_struct f).
Proof.
  intros O F v a N. pose proof (struct_spec e f F v a N) as S. rewrite O, null_missing_nil in S. exact S.
Qed.
Lemma iso_spec {A B} (f : A -> B) (g : B -> A) (d : json -> A -> Prop) (e : json -> B -> Prop) c :
  (forall b, f (g b) = b) -> (forall a, g (f a) = a) -> (forall v b, e v b <-> d v (g b)) ->
  jspec d c -> jspec e (j_iso f g c).
Proof.
  intros FG GF E J v b N. cbn [j_iso jdec]. rewrite E, <- (J v (g b) N). split.
  - destruct (jdec c v) as [a|] eqn:Q; [|discriminate]. intros H. injection H as <-. now rewrite GF.
  - intros ->. now rewrite FG.
Qed.
Lemma member_perm l k k' x v : member_is (l ++ [(k', x)]) k v <-> member_is ((k', x) :: l) k v.
Proof.
  unfold member_is. rewrite map_app, count_occ_app. cbn [map fst count_occ].
  assert (I : forall y, In (k, y) (l ++ [(k', x)]) <-> In (k, y) ((k', x) :: l)).
  { intros y. rewrite in_app_iff. cbn [In]. tauto. }
  split; intros [H C]; (split; [intros y Hy; apply H, I, Hy|]); destruct (list_eq_dec Z.eq_dec k' k); lia.
Qed.
Lemma existsb_in k (l : list (list Z * json)) : existsb (fun kv => beq (fst kv) k) l = true <-> In k (map fst l).
Proof.
  rewrite existsb_exists, in_map_iff. split.
  - intros ([k' x] & I & E). exists (k', x). split; [|exact I]. unfold beq in E.
    cbn [fst] in *. destruct (list_eq_dec Z.eq_dec k' k); [auto|discriminate].
  - intros ([k' x] & <- & I). exists (k', x). split; [exact I|]. apply beq_refl.
Qed.
Lemma record_missing ns k vals v : In k ns ->
  (record_is ns vals (null_missing [k] v) <->
   record_is ns vals v \/
   exists ms, v = JObj ms /\ ~ In k (map fst ms) /\ record_is ns vals (JObj ((k, JNull) :: ms))).
Proof.
  intros K. destruct v as [| | | | |l|l];
    try (cbn [null_missing]; split; [auto|intros [H|(ms & E & _)]; [exact H|discriminate]]).
  cbn [null_missing filter map]. destruct (existsb (fun kv => beq (fst kv) k) l) eqn:X; cbn [negb].
  - apply existsb_in in X. cbn [map]. rewrite app_nil_r. split; [auto|].
    intros [H|(ms & E & N & _)]; [exact H|]. injection E as <-. contradiction.
  - cbn [map]. assert (N : ~ In k (map fst l)) by (intros H; apply existsb_in in H; congruence).
    assert (P : record_is ns vals (JObj (l ++ [(k, JNull)])) <-> record_is ns vals (JObj ((k, JNull) :: l))).
    { unfold record_is. split; (intros [[E _]|(m & E & F)]; [discriminate|]); injection E as <-; right; eexists; (split; [reflexivity|]);
        (eapply Forall2_impl; [|exact F]); intros a b; apply member_perm. }
    rewrite P. split.
    + intros H. right. exists l. auto.
    + intros [H|(ms & E & _ & H)]; [|now injection E as <-].
      exfalso. apply N. destruct H as [[E _]|(m & E & F)]; [discriminate|]. injection E as <-.
      apply (count_occ_In (list_eq_dec Z.eq_dec)).
      assert (G : forall ns vals, Forall2 (member_is l) ns vals -> In k ns -> count_occ (list_eq_dec Z.eq_dec) (map fst l) k = 1%nat).
      { clear. induction 1 as [|n x ns vals [_ C] F IH]; [intros []|]. intros [<-|H]; auto. }
      rewrite (G _ _ F K). auto.
Qed.

Ltac fields := repeat (first [apply nil_spec | apply cons_spec]).
Ltac ands := repeat match goal with H : exists _, _ |- _ => destruct H | H : _ /\ _ |- _ => destruct H end.
Ltac record_iff d := intros v b; unfold d; cbn [foptional fnames f_cons f_opt f_nil]; unfold d_cons, d_nil; cbn [fst snd]; split;
  [ intros H; ands; eexists; (split; [eassumption|]);
    repeat (eexists; eexists; split; [reflexivity|split; [eassumption|]]); reflexivity
  | intros H; ands; subst; repeat (eexists; try eassumption) ].
Ltac struct := eapply iso_spec; [ intros []; reflexivity
  | intros a; repeat match goal with x : (_ * _)%type |- _ => destruct x | u : unit |- _ => destruct u end; reflexivity
  | | apply struct_spec0; [reflexivity|fields] ].
Ltac known := first [ exact seed_spec | exact words_spec | exact matrix_spec | exact size_spec | exact str_spec
  | exact (uint_spec 4) | exact (uint_spec 8) | exact (array_spec 4 _ _ (uint_spec 8)) | exact (list_spec _ _ (uint_spec _)) ].
Lemma filter_params_spec : jspec d_filter_params j_filter_params.
Proof. struct; [|known..]. record_iff d_filter_params. Qed.
Lemma index_db_spec : jspec d_index_db j_index_db.
Proof. struct; [|known..]. record_iff d_index_db. Qed.
Lemma index_params_spec : jspec d_index_params j_index_params.
Proof. struct; [|known..]. record_iff d_index_params. Qed.
Lemma shard_spec : jspec d_shard j_shard.
Proof. struct; [|exact index_db_spec|exact index_params_spec]. record_iff d_shard. Qed.
Lemma key_value_spec : jspec d_key_value j_key_value.
Proof. struct; [|known..]. record_iff d_key_value. Qed.
Lemma kv_db_spec : jspec d_kv_db j_kv_db.
Proof. struct; [|first [known|exact filter_params_spec]..]. record_iff d_kv_db. Qed.
Lemma kv_params_spec : jspec d_kv_params j_kv_params.
Proof. struct; [|first [known|exact filter_params_spec]..]. record_iff d_kv_params. Qed.
Lemma kv_shard_spec : jspec d_kv_shard j_kv_shard.
Proof. struct; [|exact kv_db_spec|exact kv_params_spec]. record_iff d_kv_shard. Qed.
Lemma encoded_kv_spec : jspec d_encoded_kv j_encoded_kv.
Proof. struct; [|known..]. record_iff d_encoded_kv. Qed.
Lemma bfusep_spec : jspec d_bfusep j_bfusep.
Proof. struct; [|known..]. record_iff d_bfusep. Qed.
Lemma bfuse_spec k : jspec (d_bfuse k) (j_bfuse k).
Proof. struct; [|first [exact (list_spec _ _ (uint_spec k))|known]..]. record_iff d_bfuse. Qed.
Lemma xor_spec k : jspec (d_xor k) (j_xor k).
Proof. struct; [|first [exact (list_spec _ _ (uint_spec k))|known]..]. record_iff d_xor. Qed.
Lemma fuse_spec k : jspec (d_fuse k) (j_fuse k).
Proof. struct; [|first [exact (list_spec _ _ (uint_spec k))|known]..]. record_iff d_fuse. Qed.
Lemma iso_spec2 {A B} (f : A -> B) (g : B -> A) (d : json -> A -> Prop) (e : json -> B -> Prop) c :
  (forall v b, e v b <-> exists a, d v a /\ f a = b) -> jspec d c -> jspec e (j_iso f g c).
Proof.
  intros E J v b N. cbn [j_iso jdec]. rewrite E. specialize (J v). split.
  - destruct (jdec c v) as [a|] eqn:Q; [|discriminate]. intros H. injection H as <-. exists a. split; [now apply J|reflexivity].
  - intros (a & H & <-). apply J in H; [|exact N]. now rewrite H.
Qed.
Lemma extra_in : In (bytes_of "extra_params")
  (names ["lhs"; "rhs"; "elem_size"; "plaintext_bits"; "db"; "extra_params"; "used"]%string).
Proof. do 5 right. now left. Qed.
Definition q_fields {A} (c : jcodec A) : fcodec _ :=
  f_cons "lhs"%string j_words (f_cons "rhs"%string j_words (f_cons "elem_size"%string j_usize (f_cons "plaintext_bits"%string j_usize
    (f_cons "db"%string j_null (f_opt "extra_params"%string c (f_cons "used"%string j_bool f_nil)))))).
Lemma query_struct_spec {A} (d : json -> A -> Prop) c : jspec d c ->
  jspec (fun v '(l', (r', (e', (p', (_, (x', (u', _))))))) => exists l r e p x,
    let fields := names ["lhs"; "rhs"; "elem_size"; "plaintext_bits"; "db"; "extra_params"; "used"]%string in
    let vals := [l; r; e; p; JNull; x; JBool u'] in
    (record_is fields vals v \/
     exists ms, v = JObj ms /\ ~ In (bytes_of "extra_params") (map fst ms) /\
                record_is fields vals (JObj ((bytes_of "extra_params", JNull) :: ms))) /\
    d_words l l' /\ d_words r r' /\ d_size e e' /\ d_size p p' /\ d_opt d x x') (j_struct (q_fields c)).
Proof.
  intros J v (l' & r' & e' & p' & u1 & x' & u' & u2) N.
  assert (S : jspec (fun v a => exists vals, record_is (fnames (q_fields c)) vals (null_missing (foptional (q_fields c)) v) /\
      d_cons d_words (d_cons d_words (d_cons d_size (d_cons d_size (d_cons d_null (d_cons (d_opt d) (d_cons d_bool d_nil)))))) vals a)
    (j_struct (q_fields c))).
  { apply struct_spec. apply cons_spec; [exact words_spec|]. apply cons_spec; [exact words_spec|]. apply cons_spec; [exact size_spec|].
    apply cons_spec; [exact size_spec|]. apply cons_spec; [exact null_spec|]. apply opt_cons_spec; [exact J|].
    apply cons_spec; [exact bool_spec|exact nil_spec]. }
  rewrite (S v (l', (r', (e', (p', (u1, (x', (u', u2))))))) N). clear S.
  change (foptional (q_fields c)) with [bytes_of "extra_params"].
  change (fnames (q_fields c)) with (names ["lhs"; "rhs"; "elem_size"; "plaintext_bits"; "db"; "extra_params"; "used"]%string).
  cbv zeta. unfold d_cons, d_null, d_bool, d_nil. cbn [fst snd]. split.
  - intros (vals & R & H). apply record_missing in R; [|exact extra_in]. ands. subst. do 5 eexists.
    split; [exact R|]. repeat (split; [eassumption|]). eassumption.
  - intros (l & r & e & p & x & R & H). ands. eexists. split; [apply record_missing; [exact extra_in|exact R]|].
    repeat (eexists; eexists; split; [reflexivity|split; [first [eassumption|reflexivity]|]]). reflexivity.
Qed.
Lemma kv_query_params_spec : jspec d_kv_query_params j_kv_query_params.
Proof.
  unfold j_kv_query_params. eapply iso_spec2; [|exact (query_struct_spec _ _ filter_params_spec)].
  intros v b. unfold d_kv_query_params, d_query_params, d_opt. cbv zeta. split.
  - intros (l & r & e & p & x & u & R & H). ands. subst.
    exists (qp_lhs b, (qp_rhs b, (qp_elem_size b, (qp_plaintext_bits b, (tt, (qp_extra b, (qp_used b, tt))))))). split; [|destruct b; reflexivity].
    exists l, r, e, p, x. split; [exact R|]. repeat (split; [assumption|]).
    match goal with H : _ \/ _ |- _ => exact H end.
  - intros ((l' & r' & e' & p' & u1 & x' & u' & u2) & (l & r & e & p & x & R & H) & <-). ands.
    exists l, r, e, p, x, u'. cbn. split; [exact R|]. repeat (split; [assumption|]). reflexivity.
Qed.
Lemma empty_spec : jspec (fun v (_ : unit) => v = JArr [] \/ exists ms, v = JObj ms) (j_struct f_nil).
Proof.
  intros v [] N. rewrite (struct_spec0 d_nil f_nil eq_refl nil_spec v tt N). cbn [fnames f_nil]. unfold d_nil. split.
  - intros (vals & R & ->). destruct R as [[-> _]|(l & -> & _)]; eauto.
  - intros H. exists []. split; [|reflexivity]. destruct H as [-> |(ms & ->)]; [left; auto|right]. exists ms. split; [reflexivity|constructor].
Qed.
Lemma index_query_params_spec : jspec d_index_query_params j_index_query_params.
Proof.
  unfold j_index_query_params. eapply iso_spec2; [|exact (query_struct_spec _ _ empty_spec)].
  intros v b. unfold d_index_query_params, d_query_params, d_opt. cbv zeta. split.
  - intros (l & r & e & p & x & u & R & W1 & W2 & W3 & W4 & H & <-).
    assert (X : exists o : option unit, (x = JNull /\ o = None \/ x <> JNull /\ exists a, o = Some a /\ (x = JArr [] \/ exists ms, x = JObj ms)) /\ qp_extra b = None).
    { destruct H as [[-> E]|(N & E & K)]; [exists None|exists (Some tt)]; (split; [|exact E]); [now left|right]. split; [exact N|]. exists tt. auto. }
    destruct X as (o & X & E).
    exists (qp_lhs b, (qp_rhs b, (qp_elem_size b, (qp_plaintext_bits b, (tt, (o, (qp_used b, tt))))))). split; [|destruct b; cbn in *; congruence].
    exists l, r, e, p, x. auto 10.
  - intros ((l' & r' & e' & p' & u1 & x' & u' & u2) & (l & r & e & p & x & R & H) & <-). ands.
    exists l, r, e, p, x, u'. cbn. split; [exact R|]. repeat (split; [assumption|]). split; [|reflexivity].
    match goal with H : _ \/ _ |- _ => destruct H as [[-> _]|(N & a & _ & K)] end; [now left|right; auto].
Qed.
