(** * Files_facts: file contents during and after writes; texts written by the library. *)
From Verif Require Import Base Spec Base64 Mat Db Api Json Files Base_facts Fmt_facts Json_facts IndexProto_facts.
Local Open Scope Z_scope.

Lemma fs_set_eq d p c : fs_set d p c p = Some c.
Proof. unfold fs_set. now rewrite beq_refl. Qed.
Lemma fs_set_ne d p c q : q <> p -> fs_set d p c q = d q.
Proof. intros. unfold fs_set. now rewrite beq_neq. Qed.

Lemma fs_run_app d a b : fs_run d (a ++ b) = fs_run (fs_run d a) b.
Proof. apply fold_left_app. Qed.

Lemma fs_run_appends p : forall bs d c, d p = Some c ->
  fs_run d (map (Append p) bs) p = Some (c ++ bs) /\
  forall q, q <> p -> fs_run d (map (Append p) bs) q = d q.
Proof.
  induction bs as [|b bs IH]; intros d c H; cbn [map].
  - split; [now rewrite app_nil_r|auto].
  - unfold fs_run. cbn [fold_left fs_step]. rewrite H. fold (fs_run (fs_set d p (c ++ [b])) (map (Append p) bs)).
    destruct (IH (fs_set d p (c ++ [b])) (c ++ [b]) (fs_set_eq _ _ _)) as [A B]. split.
    + rewrite A, <- app_assoc. reflexivity.
    + intros q N. rewrite B by auto. now apply fs_set_ne.
Qed.

(** After the first [k] operations of writing one file. *)
Lemma write_ops_prefix d p v k :
  (forall q, q <> p -> fs_run d (firstn k (write_ops p v)) q = d q) /\
  fs_run d (firstn k (write_ops p v)) p =
    match k with O => d p | S j => Some (firstn j (write_json v)) end.
Proof.
  destruct k as [|j]; [split; reflexivity|]. unfold write_ops. cbn [firstn].
  rewrite firstn_map. change (fs_run d (Create p :: ?o)) with (fs_run (fs_set d p []) o).
  destruct (fs_run_appends p (firstn j (write_json v)) (fs_set d p []) [] (fs_set_eq _ _ _)) as [A B].
  split; [|exact A]. intros q N. rewrite B by auto. now apply fs_set_ne.
Qed.
Lemma write_ops_length p v : length (write_ops p v) = S (length (write_json v)).
Proof. unfold write_ops. cbn [length]. now rewrite map_length. Qed.

(** ** The JSON values written *)
Lemma json_matrix_utf8 m : Forall (Forall is_u32) m -> utf8_json (json_matrix m).
Proof.
  intros H. apply utf8_arr. apply Forall_map. eapply Forall_impl; [|exact H]. intros r Hr.
  apply utf8_arr. apply Forall_map. eapply Forall_impl; [|exact Hr].
  intros x Hx. unfold is_u32, two32 in Hx. cbn. unfold two64. lia.
Qed.
Lemma seed_utf8 s : Forall is_u8 s -> utf8_json (JArr (map JInt s)).
Proof.
  intros H. apply utf8_arr. apply Forall_map. eapply Forall_impl; [|exact H].
  intros x Hx. unfold is_u8, two8 in Hx. cbn. unfold two64. lia.
Qed.
Lemma bytes_of_utf8 s : Forall (fun c => 0 <= c < 128) (bytes_of s) -> utf8 (bytes_of s).
Proof. apply utf8_ascii. Qed.
Lemma params_json_utf8 s rhs : Forall is_u8 s -> Forall (Forall is_u32) rhs -> utf8_json (params_json s rhs).
Proof.
  intros Hs Hr. apply utf8_obj. constructor; [|constructor; [|constructor]]; cbn [fst snd]; split.
  - apply utf8_ascii. repeat constructor; lia.
  - now apply seed_utf8.
  - apply utf8_ascii. repeat constructor; lia.
  - now apply json_matrix_utf8.
Qed.

(** ** Reading back *)
Lemma de_uint_ok b x : 0 <= x < b -> de_uint b (JInt x) = Some x.
Proof. intros. cbn [de_uint]. destruct (Z.ltb_spec x b); [reflexivity|lia]. Qed.
Lemma de_matrix_ok m : Forall (Forall is_u32) m -> de_vec (de_vec (de_uint two32)) (json_matrix m) = Some m.
Proof.
  intros H. unfold json_matrix. cbn [de_vec]. apply all_some_id. intros r Hr.
  rewrite Forall_forall in H. specialize (H r Hr). rewrite Forall_forall in H.
  cbn [de_vec]. apply all_some_id. intros x Hx. apply de_uint_ok. apply H; auto.
Qed.
Lemma de_seed_ok s : Forall is_u8 s -> length s = 32%nat -> de_u8_32 (JArr (map JInt s)) = Some s.
Proof.
  intros H L. unfold de_u8_32. cbn [de_vec].
  rewrite (all_some_id (de_uint two8) JInt).
  - now rewrite L.
  - intros x Hx. apply de_uint_ok. rewrite Forall_forall in H. now apply H.
Qed.
Lemma de_usize_ok n : Z.of_nat n < two64 -> de_usize (JInt (Z.of_nat n)) = Some n.
Proof. intros. unfold de_usize. rewrite de_uint_ok by lia. now rewrite Nat2Z.id. Qed.

Lemma struct_object_fields names vals : NoDup names -> length vals = length names ->
  struct_fields names (JObj (combine names vals)) = Some vals.
Proof.
  cbn [struct_fields]. intros ND L.
  assert (G : forall pre ns vs, length vs = length ns -> NoDup (map fst pre ++ ns) ->
     all_some (fun k => field k (pre ++ combine ns vs)) ns = Some vs).
  { intros pre ns. revert pre. induction ns as [|n ns IH]; intros pre vs Lv N.
    - destruct vs; [reflexivity|discriminate].
    - destruct vs as [|v vs]; [discriminate|]. cbn [combine all_some].
      assert (F : field n (pre ++ (n, v) :: combine ns vs) = Some v).
      { unfold field, lookups. rewrite filter_app. cbn [filter fst]. rewrite beq_refl.
        replace (filter (fun kv => beq (fst kv) n) pre) with (@nil (list Z * json)).
        2:{ symmetry. clear - N. induction pre as [|[k x] pre IH]; [reflexivity|]. cbn [map fst app] in N.
            inversion N as [|? ? A B]; subst. cbn [filter fst]. rewrite beq_neq; [now apply IH|].
            intros ->. apply A. apply in_or_app. right. now left. }
        replace (filter (fun kv => beq (fst kv) n) (combine ns vs)) with (@nil (list Z * json)).
        2:{ symmetry. apply NoDup_remove_2 in N. clear - N.
            assert (A : ~ In n ns) by (intros X; apply N, in_or_app; auto). clear N.
            revert vs. induction ns as [|m ns IH]; intros [|x vs]; try reflexivity.
            cbn [combine filter fst]. rewrite beq_neq; [apply IH|]; intros X; apply A; [right; auto|left; auto]. }
        reflexivity. }
      rewrite F. replace (pre ++ (n, v) :: combine ns vs) with ((pre ++ [(n, v)]) ++ combine ns vs)
        by (rewrite <- app_assoc; reflexivity).
      rewrite IH; [reflexivity|cbn in Lv; lia|]. rewrite map_app, <- app_assoc. exact N. }
  apply (G [] names vals); auto.
Qed.
