(** Facts for C82: strings read from a UTF-8 text are UTF-8. *)
From Coq Require Import String.
From Verif Require Import Base Db Api Json Files Serde SpecJson SpecSerde SpecRead Base_facts Json_facts Files_facts
  JsonSpec_facts Serde_facts Claims_json Read_facts ReadFit_facts.
Local Open Scope Z_scope.

Ltac bad E := exfalso; pose proof (f_equal (hd 0) E); pose proof (f_equal (fun l => hd 0 (tl l)) E);
  pose proof (f_equal (fun l => hd 0 (tl (tl l))) E); pose proof (f_equal (fun l => hd 0 (tl (tl (tl l)))) E); cbn [hd tl] in *; lia.
Lemma utf8_split s : utf8_text s -> forall a c b, s = a ++ c :: b -> 0 <= c < 128 -> utf8_text a /\ utf8_text b.
Proof.
  induction 1 as [|n bs t H T IH]; intros a c b E C.
  - destruct a; discriminate E.
  - destruct H as [n H|x y H1 H2|x y z H1 H2 H3 H4 H5|x y z w H1 H2 H3 H4 H5]; cbn [app] in E.
    + destruct a as [|u a]; cbn [app] in E; [injection E as -> ->|injection E as -> E].
      * split; [constructor|exact T].
      * destruct (IH _ _ _ E C) as [A B]. split; [|exact B]. exact (ut_cons _ _ a (u_1 _ H) A).
    + destruct a as [|u [|u' a]]; cbn [app] in E; try bad E.
      assert (E1 := f_equal (hd 0) E); assert (E2 := f_equal (fun l => hd 0 (tl l)) E); apply (f_equal (fun l => tl (tl l))) in E; cbn [hd tl] in *; subst u u'. destruct (IH _ _ _ E C) as [A B]. split; [|exact B]. exact (ut_cons _ _ a (u_2 x y H1 H2) A).
    + destruct a as [|u [|u' [|u2 a]]]; cbn [app] in E; try bad E.
      assert (E1 := f_equal (hd 0) E); assert (E2 := f_equal (fun l => hd 0 (tl l)) E); assert (E3 := f_equal (fun l => hd 0 (tl (tl l))) E); apply (f_equal (fun l => tl (tl (tl l)))) in E; cbn [hd tl] in *; subst u u' u2. destruct (IH _ _ _ E C) as [A B]. split; [|exact B]. exact (ut_cons _ _ a (u_3 x y z H1 H2 H3 H4 H5) A).
    + destruct a as [|u [|u' [|u2 [|u3 a]]]]; cbn [app] in E; try bad E.
      assert (E1 := f_equal (hd 0) E); assert (E2 := f_equal (fun l => hd 0 (tl l)) E); assert (E3 := f_equal (fun l => hd 0 (tl (tl l))) E); assert (E4 := f_equal (fun l => hd 0 (tl (tl (tl l)))) E); apply (f_equal (fun l => tl (tl (tl (tl l))))) in E; cbn [hd tl] in *; subst u u' u2 u3. destruct (IH _ _ _ E C) as [A B]. split; [|exact B]. exact (ut_cons _ _ a (u_4 x y z w H1 H2 H3 H4 H5) A).
Qed.
Lemma split_at a c b : 0 <= c < 128 -> utf8_text (a ++ c :: b) -> utf8_text a /\ utf8_text b.
Proof. intros C H. exact (utf8_split _ H a c b eq_refl C). Qed.
Lemma utf8_tail c b : 0 <= c < 128 -> utf8_text (c :: b) -> utf8_text b.
Proof. intros C H. exact (proj2 (split_at [] c b C H)). Qed.
Definition ascii (s : list Z) : Prop := Forall (fun c => 0 <= c < 128) s.
Lemma utf8_drop w s : ascii w -> utf8_text (w ++ s) -> utf8_text s.
Proof. induction 1 as [|c w C W IH]; cbn [app]; [auto|]. intros H. apply IH. eapply utf8_tail; eassumption. Qed.
Lemma utf8_cut s w : ascii w -> utf8_text (s ++ w) -> utf8_text s.
Proof. intros [|c w' C W]; [now rewrite app_nil_r|]. intros H. exact (proj1 (split_at _ _ _ C H)). Qed.
Lemma utf8_join2 a b : utf8_text a -> utf8_text b -> utf8_text (a ++ b).
Proof. rewrite <- !utf8_iff. apply utf8_app. Qed.
Lemma blank_ascii w : blank w -> ascii w.
Proof. intros H. eapply Forall_impl; [|exact H]. cbn. intros; lia. Qed.
Lemma hex_ascii h n : hex_quad h n -> ascii h.
Proof.
  intros (a & b & c & d & x & y & z & w & -> & A & B & C & D & _).
  assert (R : forall c v, hex_digit_value c v -> 0 <= c < 128) by (intros c' v [v' Hv|v' Hv|v' Hv]; lia).
  repeat constructor; eapply R; eassumption.
Qed.
Lemma short_ascii e b : In (e, b) short_escapes -> 0 <= e < 128 /\ 0 <= b < 128.
Proof. unfold short_escapes. cbn [In]. intros H. repeat destruct H as [H|H]; try (injection H as <- <-; lia); destruct H. Qed.

Lemma chars_utf8 s d : json_chars s d -> forall pre, utf8_text (pre ++ s) -> utf8_text (pre ++ d).
Proof.
  assert (K : forall (pre : list Z) h t bs d, ascii h -> utf8_text bs -> (forall pre, utf8_text (pre ++ t) -> utf8_text (pre ++ d)) ->
    utf8_text (pre ++ 92 :: h ++ t) -> utf8_text (pre ++ bs ++ d)).
  { intros pre h t bs d' A U IH H. apply split_at in H as [P H]; [|lia]. apply utf8_drop in H; [|exact A].
    apply utf8_join2; [exact P|]. apply utf8_join2; [exact U|]. exact (IH [] H). }
  induction 1 as [|c t d H1 H2 H3 J IH|e b t d H J IH|h n bs t d H U J IH|h1 h2 n1 n2 bs t d H1 H2 R1 R2 U J IH]; intros pre H'.
  - exact H'.
  - change (pre ++ c :: d) with (pre ++ [c] ++ d). rewrite app_assoc. apply IH. rewrite <- app_assoc. exact H'.
  - destruct (short_ascii _ _ H) as [E B]. refine (K pre [e] t [b] d _ _ IH H').
    + now repeat constructor.
    + rewrite <- utf8_iff. apply utf8_ascii. now repeat constructor.
  - refine (K pre (117 :: h) t bs d _ _ IH H').
    + constructor; [lia|]. eapply hex_ascii; eassumption.
    + rewrite <- (app_nil_r bs). econstructor; [exact U|constructor].
  - refine (K pre (117 :: h1 ++ 92 :: 117 :: h2) t bs d _ _ IH _).
    + constructor; [lia|]. apply Forall_app. split; [eapply hex_ascii; eassumption|]. repeat (constructor; [lia|]). eapply hex_ascii; eassumption.
    + rewrite <- (app_nil_r bs). econstructor; [exact U|constructor].
    + cbn [app]. rewrite <- app_assoc. exact H'.
Qed.

(** All strings of a value but the names of members. *)
Fixpoint strings_ok (v : json) : Prop :=
  match v with
  | JStr s => utf8_text s
  | JArr l => (fix all l := match l with [] => True | x :: t => strings_ok x /\ all t end) l
  | JObj l => (fix all l := match l with [] => True | (_, x) :: t => strings_ok x /\ all t end) l
  | _ => True
  end.
Lemma ok_arr l : strings_ok (JArr l) <-> Forall strings_ok l.
Proof.
  induction l as [|x t IH]; [split; constructor|]. split.
  - intros [A B]. constructor; [exact A|]. now apply IH.
  - intros H. inversion H; subst. split; [auto|]. now apply IH.
Qed.
Lemma ok_obj l : strings_ok (JObj l) <-> Forall (fun kv => strings_ok (snd kv)) l.
Proof.
  induction l as [|[k x] t IH]; [split; constructor|]. split.
  - intros [A B]. constructor; [exact A|]. now apply IH.
  - intros H. inversion H; subst. split; [auto|]. now apply IH.
Qed.
Lemma member_rest w0 k d w1 w2 r : blank w0 -> json_chars k d -> blank w1 -> blank w2 ->
  utf8_text (w0 ++ (34 :: k ++ [34]) ++ w1 ++ 58 :: w2 ++ r) -> utf8_text r.
Proof.
  intros B0 _ B1 B2 H. apply utf8_drop in H; [|now apply blank_ascii]. cbn [app] in H. apply utf8_tail in H; [|lia].
  rewrite <- app_assoc in H. cbn [app] in H. apply split_at in H as [_ H]; [|lia].
  apply utf8_drop in H; [|now apply blank_ascii]. apply utf8_tail in H; [|lia]. eapply utf8_drop; [|exact H]. now apply blank_ascii.
Qed.
Lemma values_utf8 :
  (forall t v, json_value t v -> utf8_text t -> strings_ok v) /\
  (forall t l, json_items t l -> utf8_text t -> Forall strings_ok l) /\
  (forall t l, json_members t l -> utf8_text t -> Forall (fun kv : list Z * json => strings_ok (snd kv)) l).
Proof.
  assert (O : forall c r, 0 <= c < 128 -> forall s, utf8_text (c :: s ++ [r]) -> 0 <= r < 128 -> utf8_text s).
  { intros c r C s H R. apply utf8_tail in H; [|exact C]. eapply utf8_cut; [|exact H]. now repeat constructor. }
  apply json_mutind; try (intros; exact I).
  - intros s v N _. destruct N; exact I.
  - intros s d J U. cbn [strings_ok]. apply (chars_utf8 s d J []). eapply O; [|exact U|]; lia.
  - intros s l J IH U. apply ok_arr, IH. eapply O; [|exact U|]; lia.
  - intros s l J IH U. apply ok_obj, IH. eapply O; [|exact U|]; lia.
  - intros w1 s w2 v B1 V IH B2 U. constructor; [|constructor]. apply IH.
    apply utf8_drop in U; [|now apply blank_ascii]. eapply utf8_cut; [|exact U]. now apply blank_ascii.
  - intros w1 s w2 v t l B1 V IH B2 J IH2 U. apply utf8_drop in U; [|now apply blank_ascii].
    rewrite app_assoc in U. apply split_at in U as [U1 U2]; [|lia]. constructor; [|now apply IH2].
    apply IH. eapply utf8_cut; [|exact U1]. now apply blank_ascii.
  - intros w0 k d w1 w2 s w3 v B0 K B1 B2 V IH B3 U. constructor; [|constructor]. cbn [snd]. apply IH.
    apply (member_rest w0 k d w1 w2 (s ++ w3) B0 K B1 B2) in U. eapply utf8_cut; [|exact U]. now apply blank_ascii.
  - intros w0 k d w1 w2 s w3 v t l B0 K B1 B2 V IH B3 J IH2 U.
    apply (member_rest w0 k d w1 w2 (s ++ w3 ++ 44 :: t) B0 K B1 B2) in U. rewrite app_assoc in U.
    apply split_at in U as [U1 U2]; [|lia]. constructor; [|now apply IH2]. cbn [snd]. apply IH.
    eapply utf8_cut; [|exact U1]. now apply blank_ascii.
Qed.
Lemma document_utf8 s v : utf8_text s -> json_document s v -> strings_ok v.
Proof.
  intros U (w1 & t & w2 & -> & B1 & V & B2). apply (proj1 values_utf8 _ _ V).
  apply utf8_drop in U; [|now apply blank_ascii]. eapply utf8_cut; [|exact U]. now apply blank_ascii.
Qed.
Lemma record_ok ns vals v : strings_ok v -> record_is ns vals v -> Forall strings_ok vals.
Proof.
  intros B [[-> _]|(l & -> & F)]; [now apply ok_arr in B|]. apply ok_obj in B. rewrite Forall_forall in B.
  induction F as [|k x ns vals H F IH]; constructor; [|exact IH]. apply member_in in H. exact (B _ H).
Qed.
Lemma encoded_kv_fits n v q : Z.of_nat n < 2 ^ 64 -> bounded n v -> strings_ok v -> d_encoded_kv v q -> wt_encoded_kv q.
Proof.
  intros N B U (k & x & R & Hk & Hx). pose proof (record_bounded n _ _ _ B R) as V. pose proof (record_ok _ _ _ U R) as W.
  inversion V as [|? ? V1 V2]; subst. inversion V2 as [|? ? V3 _]; subst.
  inversion W as [|? ? W1 W2]; subst. inversion W2 as [|? ? W3 _]; subst.
  unfold d_string in *. subst. cbn [bounded strings_ok] in *. unfold wt_encoded_kv, wt_string, wt_usize. repeat split; try assumption; lia.
Qed.
