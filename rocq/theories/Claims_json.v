(** * Claims about input files as documents (C40, C52, C53): stated with the grammar of
    [SpecJson], not with the parser. *)
From Coq Require Import String.
From Verif Require Import Base Spec Base64 Hash Fuse3 Bfusep Db Api Json Files SpecFilter SpecFiles SpecJson Base_facts Json_facts JsonSpec_facts Files_facts Claims_index.
Local Open Scope Z_scope.

(** ** Decoding *)
Lemma Forall2_impl {A B} (P Q : A -> B -> Prop) l l' : (forall a b, P a b -> Q a b) -> Forall2 P l l' -> Forall2 Q l l'.
Proof. intros H. induction 1; constructor; auto. Qed.
Lemma all_some_strings l strs : all_some de_string l = Some strs <-> l = map JStr strs.
Proof.
  revert strs. induction l as [|x l IH]; intros strs; cbn [all_some].
  - destruct strs; cbn [map]; split; congruence.
  - split.
    + destruct x; cbn [de_string]; try discriminate. destruct (all_some de_string l) as [ys|]; [|discriminate].
      intros E. injection E as <-. cbn [map]. f_equal. now apply IH.
    + destruct strs as [|s strs]; cbn [map]; [discriminate|]. intros E. injection E as -> E.
      cbn [de_string]. apply IH in E. now rewrite E.
Qed.
Lemma all_some_Forall2 {A B} (f : A -> option B) l ys : all_some f l = Some ys <-> Forall2 (fun x y => f x = Some y) l ys.
Proof.
  revert ys. induction l as [|x l IH]; intros ys; cbn [all_some].
  - split; [intros E; injection E as <-; constructor|intros H; inversion H; reflexivity].
  - split.
    + destruct (f x) as [y|] eqn:E; [|discriminate]. destruct (all_some f l) as [zs|]; [|discriminate].
      intros Q. injection Q as <-. constructor; [exact E|]. now apply IH.
    + intros H. inversion H as [|? y ? zs H1 H2]; subst. apply IH in H2. now rewrite H1, H2.
Qed.
Lemma field_iff k l v : field k l = Some v <-> member_is l k v.
Proof.
  assert (G : forall l, (forall x, In x (lookups k l) <-> In (k, x) l) /\
    length (lookups k l) = count_occ (list_eq_dec Z.eq_dec) (map fst l) k).
  { induction l0 as [|[k' x'] l' [IH1 IH2]]; [split; [cbn; tauto|reflexivity]|].
    unfold lookups in *. cbn [filter fst map count_occ]. destruct (list_eq_dec Z.eq_dec k' k) as [->|N].
    - rewrite beq_refl. cbn [map snd length In]. split; [|now rewrite IH2].
      intros x. rewrite IH1. split; (intros [E|H]; [left; congruence|right; exact H]).
    - rewrite beq_neq by auto. split; [|exact IH2].
      intros x. rewrite IH1. cbn [In]. split; [auto|]. intros [E|H]; [congruence|exact H]. }
  destruct (G l) as [G1 G2]. unfold field, member_is. rewrite <- G2. split.
  - destruct (lookups k l) as [|y [|z t]] eqn:E; try discriminate. intros Q. injection Q as ->.
    split; [|reflexivity]. intros x Hx. apply G1 in Hx. destruct Hx as [<-|[]]. reflexivity.
  - intros [H1 H2]. destruct (lookups k l) as [|y [|z t]] eqn:E; cbn [length] in H2; try lia.
    f_equal. apply H1. apply G1. left. reflexivity.
Qed.
Lemma struct_fields_iff names v vals : struct_fields names v = Some vals <-> record_is names vals v.
Proof.
  unfold struct_fields, record_is. split.
  - destruct v as [| | | | |l|l]; try discriminate.
    + destruct (Nat.eqb_spec (length l) (length names)) as [E|N]; [|discriminate]. intros Q. injection Q as <-. auto.
    + intros E. apply all_some_Forall2 in E. right. exists l. split; [reflexivity|].
      eapply Forall2_impl; [|exact E]. intros k x. apply field_iff.
  - intros [[-> E]|(l & -> & F)].
    + now rewrite (proj2 (Nat.eqb_eq _ _) E).
    + apply all_some_Forall2. eapply Forall2_impl; [|exact F]. intros k x. apply field_iff.
Qed.
Lemma de_encoded_kv_iff v kv : de_encoded_kv v = Some kv <-> kv_entry v kv.
Proof.
  unfold de_encoded_kv, kv_entry. rewrite <- struct_fields_iff. split.
  - destruct (struct_fields _ v) as [[|k [|x [|]]]|]; try discriminate.
    destruct k; try discriminate; destruct x; try discriminate. cbn [de_string]. intros Q. injection Q as <-. reflexivity.
  - intros ->. cbn [de_string]. now destruct kv.
Qed.

Lemma json_strings_iff c strs : json_strings c = Ok strs <-> json_document c (JArr (map JStr strs)).
Proof.
  unfold json_strings. rewrite <- parse_text_iff. split.
  - destruct (parse_text c) as [v|]; [|discriminate]. destruct v as [| | | | |l|]; try discriminate. cbn [de_vec].
    destruct (all_some de_string l) as [ys|] eqn:E; [|discriminate]. cbn [of_opt]. intros Q. injection Q as ->.
    apply all_some_strings in E. congruence.
  - intros ->. cbn [de_vec]. rewrite (proj2 (all_some_strings _ _) eq_refl). reflexivity.
Qed.
Lemma json_kvs_iff c kvs : json_kvs c = Ok kvs <-> exists vs, json_document c (JArr vs) /\ Forall2 kv_entry vs kvs.
Proof.
  unfold json_kvs. split.
  - destruct (parse_text c) as [v|] eqn:P; [|discriminate]. apply parse_text_iff in P.
    destruct v as [| | | | |l|]; try discriminate. cbn [de_vec].
    destruct (all_some de_encoded_kv l) as [ys|] eqn:E; [|discriminate]. cbn [of_opt]. intros Q. injection Q as ->.
    apply all_some_Forall2 in E. exists l. split; [exact P|].
    eapply Forall2_impl; [|exact E]. intros v kv. apply de_encoded_kv_iff.
  - intros (vs & P & F). apply parse_text_iff in P. rewrite P. cbn [de_vec].
    rewrite (proj2 (all_some_Forall2 de_encoded_kv vs kvs)); [reflexivity|].
    eapply Forall2_impl; [|exact F]. intros v kv. apply de_encoded_kv_iff.
Qed.
Lemma read_ok d p c : read_to_string d p = Ok c <-> d p = Some c /\ utf8_text c.
Proof.
  unfold read_to_string. rewrite <- is_utf8_spec. destruct (d p) as [x|]; [|split; [discriminate|intros [? ?]; discriminate]].
  destruct (is_utf8 x) eqn:U; (split; [intros E|intros [E V]]); try congruence; try discriminate.
  split; [congruence|]. injection E as <-. exact U.
Qed.
Lemma read_err d p : (forall c, d p = Some c -> ~ utf8_text c) -> exists e, read_to_string d p = Err e.
Proof.
  intros H. destruct (read_to_string d p) as [c|e| |] eqn:E; eauto;
    [apply read_ok in E as [E U]; destruct (H _ E U)| |]; unfold read_to_string in E; destruct (d p); try discriminate; destruct (is_utf8 _); discriminate.
Qed.
Lemma of_opt_cases {A} (o : option A) : (exists a, of_opt o = Ok a) \/ of_opt o = Err EDeserialize.
Proof. destruct o as [a|]; [left; exists a; reflexivity|right; reflexivity]. Qed.

(** ** C52 *)

(** @C52 Whatever the formatting (blanks, escapes, member order): a file that is a JSON array of
    strings gives exactly the shard, error or panic of those strings. *)
Lemma any_formatting_strings : forall prg dbg pseed d p c strs dim m es pb,
  d p = Some c -> strings_file c strs ->
  shard_from_json_file prg dbg pseed d p dim m es pb = shard_from_base64_strings prg dbg pseed strs dim m es pb /\
  index_db_from_file dbg d p m es pb = index_db_new dbg strs m es pb.
Proof.
  intros prg dbg pseed d p c strs dim m es pb Hd [U J].
  assert (R : read_to_string d p = Ok c) by (apply read_ok; auto). apply json_strings_iff in J.
  unfold shard_from_json_file, index_db_from_file. rewrite R. cbn [unwrap bind]. rewrite J. split; reflexivity.
Qed.

(** @C52 The same for key-value files: an array of records, each an object with one "key" and
    one "value" string in either order among any other members, or a two-element array. *)
Lemma any_formatting_kvs : forall sha prg dbg fe rnd fseed pseed d p c kvs dim m es pb,
  d p = Some c -> kvs_file c kvs ->
  kv_shard_from_json_file sha prg dbg fe rnd fseed pseed d p dim m es pb =
  kv_shard_from_base64_strings sha prg dbg fe rnd fseed pseed (map fst kvs) (map snd kvs) dim m es pb.
Proof.
  intros sha prg dbg fe rnd fseed pseed d p c kvs dim m es pb Hd [U J].
  assert (R : read_to_string d p = Ok c) by (apply read_ok; auto). apply json_kvs_iff in J.
  unfold kv_shard_from_json_file. rewrite R. cbn [unwrap bind]. now rewrite J.
Qed.

Lemma map_JStr_inj a b : map JStr a = map JStr b -> a = b.
Proof.
  revert b. induction a as [|x a IH]; intros [|y b]; cbn [map]; try congruence.
  intros E. injection E as -> E. f_equal. now apply IH.
Qed.
(** @C52 A file has at most one reading. *)
Lemma one_reading : forall c,
  (forall s1 s2, strings_file c s1 -> strings_file c s2 -> s1 = s2) /\
  (forall k1 k2, kvs_file c k1 -> kvs_file c k2 -> k1 = k2) /\
  (forall v1 v2, json_document c v1 -> json_document c v2 -> v1 = v2).
Proof.
  intros c. split; [|split].
  - intros s1 s2 [_ A] [_ B]. pose proof (json_document_fun _ _ _ A B) as E. injection E as E. now apply map_JStr_inj.
  - intros k1 k2 [_ A] [_ B]. apply json_kvs_iff in A, B. congruence.
  - intros v1 v2. apply json_document_fun.
Qed.

(** @C52 example: blanks, an escape, an ignored member, the fields in the other order, an array
    instead of an object. *)
Example any_formatting_example :
  let a := bytes_of " [ ""\u0041\/"" ,""AA=="" ] " in
  let b := bytes_of "[{""value"":""AA=="" , ""x"":[1.5e3,null], ""key"":""k""},[""j"",""""]]" in
  strings_file a [bytes_of "A/"; bytes_of "AA=="] /\
  kvs_file b [(bytes_of "k", bytes_of "AA=="); (bytes_of "j", [])].
Proof.
  cbv zeta. split; split.
  - apply is_utf8_spec. vm_compute. reflexivity.
  - apply json_strings_iff. vm_compute. reflexivity.
  - apply is_utf8_spec. vm_compute. reflexivity.
  - apply json_kvs_iff. vm_compute. reflexivity.
Qed.

(** ** C53 *)

(** @C53 refuted, exactly: if the file is not a UTF-8 JSON array of strings (or is missing),
    [Shard::from_json_file] panics and [IndexDatabase::from_file] returns an error. *)
Lemma not_strings_file_refuted : forall prg dbg pseed d p dim m es pb,
  (forall c strs, d p = Some c -> ~ strings_file c strs) ->
  shard_from_json_file prg dbg pseed d p dim m es pb = Panic /\
  exists e, index_db_from_file dbg d p m es pb = Err e.
Proof.
  intros prg dbg pseed d p dim m es pb H. unfold shard_from_json_file, index_db_from_file.
  destruct (read_to_string d p) as [c|e| |] eqn:R; cbn [unwrap bind]; eauto.
  - apply read_ok in R as [E U]. unfold json_strings.
    destruct (of_opt_cases match parse_text c with Some v => de_vec de_string v | None => None end) as [(strs & J)|J].
    + exfalso. apply (H c strs E). split; [exact U|]. now apply json_strings_iff.
    + rewrite J. cbn [unwrap bind]. eauto.
  - exfalso. unfold read_to_string in R. destruct (d p); try discriminate. destruct (is_utf8 _); discriminate.
  - exfalso. unfold read_to_string in R. destruct (d p); try discriminate. destruct (is_utf8 _); discriminate.
Qed.

(** @C53 refuted: if the file is not a UTF-8 JSON array of key-value records (or is missing),
    [KVShard::from_json_file] panics. *)
Lemma not_kvs_file_refuted : forall sha prg dbg fe rnd fseed pseed d p dim m es pb,
  (forall c kvs, d p = Some c -> ~ kvs_file c kvs) ->
  kv_shard_from_json_file sha prg dbg fe rnd fseed pseed d p dim m es pb = Panic.
Proof.
  intros sha prg dbg fe rnd fseed pseed d p dim m es pb H. unfold kv_shard_from_json_file.
  destruct (read_to_string d p) as [c|e| |] eqn:R; cbn [unwrap bind]; eauto.
  - apply read_ok in R as [E U]. unfold json_kvs.
    destruct (of_opt_cases match parse_text c with Some v => de_vec de_encoded_kv v | None => None end) as [(kvs & J)|J].
    + exfalso. apply (H c kvs E). split; [exact U|]. now apply json_kvs_iff.
    + rewrite J. reflexivity.
  - exfalso. unfold read_to_string in R. destruct (d p); try discriminate. destruct (is_utf8 _); discriminate.
Qed.

(** @C53 example: trailing text, a key twice, a leading zero, a lone surrogate, a raw control
    character and a bad byte are all refused. *)
Example not_document_example :
  Forall (fun c => forall strs, ~ strings_file c strs)
    [ bytes_of "[""a""] x"; bytes_of "[""a"",]"; bytes_of "[""\ud800""]"; [91; 34; 10; 34; 93]; [91; 34; 255; 34; 93]; [] ] /\
  Forall (fun c => forall v, ~ json_document c v) [ bytes_of "[007]"; bytes_of "[1.]"; bytes_of "[""a"" ""b""]"; bytes_of "{""a""}" ] /\
  Forall (fun c => forall kvs, ~ kvs_file c kvs) [ bytes_of "[{""key"":""a"",""key"":""a"",""value"":""b""}]"; bytes_of "[{""key"":""a""}]"; bytes_of "[[""a""]]" ].
Proof.
  split; [|split].
  - repeat constructor; intros strs [U J]; apply is_utf8_spec in U; apply json_strings_iff in J; first [vm_compute in J; discriminate J|vm_compute in U; discriminate U].
  - repeat constructor; intros v J; apply parse_text_iff in J; vm_compute in J; discriminate J.
  - repeat constructor; intros kvs [_ J]; apply json_kvs_iff in J; vm_compute in J; discriminate J.
Qed.

(** ** C40 *)
Fixpoint pos_json (v : json) : Prop :=
  match v with
  | JInt n => 0 <= n
  | JArr l => fold_right (fun x P => pos_json x /\ P) True l
  | JObj l => fold_right (fun kv P => pos_json (snd kv) /\ P) True l
  | _ => True
  end.
Lemma json_pos : (forall t v, json_value t v -> pos_json v) /\
  (forall t l, json_items t l -> fold_right (fun x P => pos_json x /\ P) True l) /\
  (forall t l, json_members t l -> fold_right (fun kv P => pos_json (snd kv) /\ P) True l).
Proof.
  apply json_mutind; try (intros; exact I); try (intros; cbn [pos_json fold_right snd] in *; auto; fail).
  intros s v [s' n _ D|sign s' fr ex _ _ _ _ _]; [|exact I]. cbn [pos_json].
  induction D; lia.
Qed.
Lemma pos_arr l : pos_json (JArr l) <-> Forall pos_json l.
Proof. cbn [pos_json]. induction l as [|x l IH]; cbn [fold_right]; [split; auto|]. rewrite IH. split; [intros [A B]; auto|intros H; inversion H; auto]. Qed.
Lemma pos_obj l : pos_json (JObj l) <-> Forall (fun kv => pos_json (snd kv)) l.
Proof. cbn [pos_json]. induction l as [|x l IH]; cbn [fold_right]; [split; auto|]. rewrite IH. split; [intros [A B]; auto|intros H; inversion H; auto]. Qed.
Lemma record_pos names vals v : record_is names vals v -> pos_json v -> Forall pos_json vals.
Proof.
  intros [[-> _]|(l & -> & F)] P; [now apply pos_arr|]. apply pos_obj in P.
  induction F as [|k x ks xs [H1 H2] _ IH]; constructor; auto.
  destruct (in_dec (list_eq_dec Z.eq_dec) k (map fst l)) as [I|N].
  - apply in_map_iff in I as ([k' y] & E & I). cbn [fst] in E. subst k'. rewrite (H1 y I) in I.
    rewrite Forall_forall in P. exact (P _ I).
  - apply (count_occ_not_In (list_eq_dec Z.eq_dec)) in N. lia.
Qed.
Lemma de_uint_iff b v n : pos_json v -> (de_uint b v = Some n <-> v = JInt n /\ 0 <= n < b).
Proof.
  intros P. destruct v; cbn [de_uint pos_json] in *; try (split; [discriminate|intros [E _]; discriminate E]).
  destruct (Z.ltb_spec n0 b); split; try discriminate; try (intros [E ?]; injection E as ->; auto; lia).
  intros E. injection E as <-. auto.
Qed.
Lemma de_usize_iff v n : pos_json v -> (de_usize v = Some n <-> v = JInt (Z.of_nat n) /\ Z.of_nat n < 2 ^ 64).
Proof.
  intros P. unfold de_usize. split.
  - destruct (de_uint two64 v) as [z|] eqn:E; [|discriminate]. apply de_uint_iff in E as [-> B]; auto.
    intros Q. injection Q as <-. rewrite Z2Nat.id by lia. split; [reflexivity|apply B].
  - intros [-> B]. rewrite (proj2 (de_uint_iff two64 (JInt (Z.of_nat n)) (Z.of_nat n) ltac:(cbn [pos_json]; lia))).
    + now rewrite Nat2Z.id.
    + split; [reflexivity|]. unfold two64. lia.
Qed.
Lemma de_vec_uint_iff b v l : pos_json v -> (de_vec (de_uint b) v = Some l <-> v = JArr (map JInt l) /\ Forall (fun x => 0 <= x < b) l).
Proof.
  intros P. destruct v; cbn [de_vec]; try (split; [discriminate|intros [E _]; discriminate E]).
  apply pos_arr in P. rewrite all_some_Forall2. split.
  - intros F. assert (G : l0 = map JInt l /\ Forall (fun x => 0 <= x < b) l).
    { induction F as [|x y xs ys H _ IH]; [split; constructor|]. inversion P; subst.
      apply de_uint_iff in H as [-> B]; auto. destruct (IH H3) as [-> G]. split; [reflexivity|constructor; auto]. }
    destruct G as [-> G]. auto.
  - intros [E G]. injection E as ->. induction G as [|x l B _ IH]; [constructor|]. cbn [map] in *. inversion P; subst.
    constructor; [|auto]. apply de_uint_iff; auto.
Qed.
Lemma de_matrix_iff v m : pos_json v -> (de_vec (de_vec (de_uint two32)) v = Some m <->
  v = JArr (map (fun r => JArr (map JInt r)) m) /\ Forall (Forall (fun x => 0 <= x < 2 ^ 32)) m).
Proof.
  intros P. destruct v; cbn [de_vec]; try (split; [discriminate|intros [E _]; discriminate E]).
  apply pos_arr in P. rewrite all_some_Forall2. split.
  - intros F. assert (G : l = map (fun r => JArr (map JInt r)) m /\ Forall (Forall (fun x => 0 <= x < 2 ^ 32)) m).
    { induction F as [|x y xs ys H _ IH]; [split; constructor|]. inversion P; subst.
      apply de_vec_uint_iff in H as [-> B]; auto. destruct (IH H3) as [-> G]. split; [reflexivity|constructor; auto]. }
    destruct G as [-> G]. auto.
  - intros [E G]. injection E as ->. induction G as [|x l B _ IH]; [constructor|]. cbn [map] in *. inversion P; subst.
    constructor; [|auto]. apply de_vec_uint_iff; auto.
Qed.

(** @C40 [IndexParams::load] succeeds with [q] exactly when the file is a JSON record of the six
    fields of [q], each in the range of its type, in any formatting; everything else is an error.
    (Files in UTF-8: see the simplification noted at [index_params_load].) *)
Lemma params_load_iff : forall d p, (forall c, d p = Some c -> utf8_text c) ->
  (forall q, index_params_load d p = Ok q <-> exists c, d p = Some c /\ params_file c q) /\
  ((forall c q, d p = Some c -> ~ params_file c q) -> exists e, index_params_load d p = Err e).
Proof.
  intros d p _.
  assert (M : forall q, index_params_load d p = Ok q <-> exists c, d p = Some c /\ params_file c q).
  { intros q. unfold index_params_load. split.
    - destruct (d p) as [c|]; [|discriminate]. destruct (parse_text c) as [v|] eqn:PT; [|discriminate].
      intros H. exists c. split; [reflexivity|]. apply parse_text_iff in PT.
      assert (PV : pos_json v) by (destruct PT as (w1 & t & w2 & _ & _ & V & _); now apply json_pos in V).
      destruct (de_index_params v) as [q'|] eqn:D; [|discriminate]. cbn [of_opt] in H. injection H as ->.
      unfold de_index_params in D. destruct (struct_fields index_params_names v) as [vals|] eqn:S; [|discriminate].
      destruct vals as [|a [|b [|s [|r [|e [|pb [|]]]]]]]; try discriminate. apply struct_fields_iff in S.
      pose proof (record_pos _ _ _ S PV) as PF.
      inversion PF as [|? ? Pa PF1]; subst. inversion PF1 as [|? ? Pb PF2]; subst. inversion PF2 as [|? ? Ps PF3]; subst.
      inversion PF3 as [|? ? Pr PF4]; subst. inversion PF4 as [|? ? Pe PF5]; subst. inversion PF5 as [|? ? Pp PF6]; subst. clear PF PF1 PF2 PF3 PF4 PF5 PF6.
      destruct (de_usize a) as [dim|] eqn:Ea; [|discriminate]. apply (de_usize_iff a dim Pa) in Ea as [-> Ba].
      destruct (de_usize b) as [m|] eqn:Eb; [|discriminate]. apply (de_usize_iff b m Pb) in Eb as [-> Bb].
      destruct (de_u8_32 s) as [sd|] eqn:Es; [|discriminate].
      unfold de_u8_32 in Es. destruct (de_vec (de_uint two8) s) as [sd'|] eqn:Es'; [|discriminate].
      apply (de_vec_uint_iff two8 s sd' Ps) in Es' as [-> Bs].
      destruct (Nat.eqb_spec (length sd') 32) as [Ls|]; [|discriminate]. injection Es as ->.
      destruct (de_vec (de_vec (de_uint two32)) r) as [rh|] eqn:Er; [|discriminate]. apply (de_matrix_iff r rh Pr) in Er as [-> Br].
      destruct (de_usize e) as [es|] eqn:Ee; [|discriminate]. apply (de_usize_iff e es Pe) in Ee as [-> Be].
      destruct (de_usize pb) as [pl|] eqn:Ep; [|discriminate]. apply (de_usize_iff pb pl Pp) in Ep as [-> Bp].
      injection D as <-. split; [exists v; split; [exact PT|exact S]|]. cbn [ip_dim ip_m ip_public_seed ip_rhs ip_elem_size ip_plaintext_bits].
      auto 10.
    - intros (c & -> & (v & PT & R) & B1 & B2 & B3 & B4 & B5 & B6 & B7).
      apply parse_text_iff in PT. rewrite PT. unfold de_index_params. apply struct_fields_iff in R.
      change index_params_names with [bytes_of "dim"; bytes_of "m"; bytes_of "public_seed"; bytes_of "rhs"; bytes_of "elem_size"; bytes_of "plaintext_bits"].
      rewrite R. rewrite !de_usize_ok by (unfold two64; lia). rewrite de_seed_ok by auto.
      change (JArr (map (fun r => JArr (map JInt r)) (ip_rhs q))) with (json_matrix (ip_rhs q)).
      rewrite de_matrix_ok by auto. cbn [of_opt]. now destruct q. }
  split; [exact M|]. intros H. unfold index_params_load in *. destruct (d p) as [c|]; [|eauto].
  destruct (of_opt_cases match parse_text c with Some v => de_index_params v | None => None end) as [(q & E)|E]; [|eauto].
  exfalso. apply M in E as (c' & E & F). injection E as <-. exact (H c q eq_refl F).
Qed.

(** @C40 example: members in another order and an unknown one; a seed of 31 bytes and a u32 out
    of range are refused. *)
Example params_load_example :
  let seed := "[1,2,3,4,5,6,7,8,9,10,11,12,13,14,15,16,17,18,19,20,21,22,23,24,25,26,27,28,29,30,31"%string in
  let text s r := bytes_of ("{""m"":3,""dim"":2,""note"":""x"",""rhs"":[[7," ++ r ++ "],[]],""elem_size"":16,
    ""public_seed"":" ++ seed ++ s ++ "],""plaintext_bits"":10}")%string in
  let q := {| ip_dim := 2; ip_m := 3; ip_public_seed := map Z.of_nat (seq 1 32); ip_rhs := [[7; 8]; []];
              ip_elem_size := 16; ip_plaintext_bits := 10 |} in
  params_file (text ",32" "8")%string q /\
  (forall q', ~ params_file (text "" "8")%string q') /\ (forall q', ~ params_file (text ",32" "4294967296")%string q').
Proof.
  cbv zeta. split; [|split].
  - set (c := bytes_of _). assert (U : forall c', Some c = Some c' -> utf8_text c') by (intros c' E; injection E as <-; apply is_utf8_spec; vm_compute; reflexivity). destruct (proj1 (params_load_iff (fun _ => Some c) [] U)
      {| ip_dim := 2; ip_m := 3; ip_public_seed := map Z.of_nat (seq 1 32); ip_rhs := [[7; 8]; []]; ip_elem_size := 16; ip_plaintext_bits := 10 |}) as [A _].
    destruct (A ltac:(vm_compute; reflexivity)) as (c' & E & F). injection E as <-. exact F.
  - intros q' F. set (c := bytes_of _) in F. assert (U : forall c', Some c = Some c' -> utf8_text c') by (intros c' E; injection E as <-; apply is_utf8_spec; vm_compute; reflexivity). destruct (proj1 (params_load_iff (fun _ => Some c) [] U) q') as [_ A].
    specialize (A (ex_intro _ c (conj eq_refl F))). vm_compute in A. discriminate A.
  - intros q' F. set (c := bytes_of _) in F. assert (U : forall c', Some c = Some c' -> utf8_text c') by (intros c' E; injection E as <-; apply is_utf8_spec; vm_compute; reflexivity). destruct (proj1 (params_load_iff (fun _ => Some c) [] U) q') as [_ A].
    specialize (A (ex_intro _ c (conj eq_refl F))). vm_compute in A. discriminate A.
Qed.
