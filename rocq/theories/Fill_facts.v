(** How the contents of a filter depend on its random fill. *)
From Verif Require Import Base Base_facts.
Local Open Scope Z_scope.

Lemma nth_firstn_lt {A} (l : list A) m k d : (k < m)%nat -> nth k (firstn m l) d = nth k l d.
Proof. revert m k. induction l as [|x l IH]; intros [|m] [|k] H; cbn; try lia; auto. apply IH. lia. Qed.
Lemma nth_skipn_add {A} (l : list A) m k d : nth k (skipn m l) d = nth (m + k) l d.
Proof. revert m. induction l as [|x l IH]; intros [|m]; cbn; auto. destruct k; reflexivity. Qed.

Section FILL.
Variable N : nat.

(** Overwriting entry [i] of the fill changes [F] either never, or always by the xor of the old
    and the new entry. *)
Definition ignores (F : list Z -> Z) (i : nat) : Prop :=
  forall B v, length B = N -> F (upd B i v) = F B.
Definition follows (F : list Z -> Z) (i : nat) : Prop :=
  forall B v, length B = N -> F (upd B i v) = Z.lxor (F B) (Z.lxor (nth i B 0) v).
Definition shifts (F : list Z -> Z) : Prop := forall i, (i < N)%nat -> ignores F i \/ follows F i.

Lemma shifts_const c : shifts (fun _ => c).
Proof. intros i _. left. intros B v _. reflexivity. Qed.
Lemma shifts_nth j : shifts (fun B => nth j B 0).
Proof.
  intros i Hi. destruct (Nat.eq_dec i j) as [->|D].
  - right. intros B v HB. rewrite nth_upd_eq by lia. now rewrite <- Z.lxor_assoc, Z.lxor_nilpotent, Z.lxor_0_l.
  - left. intros B v HB. now rewrite nth_upd_ne.
Qed.
Lemma shifts_lxor F G : shifts F -> shifts G -> shifts (fun B => Z.lxor (F B) (G B)).
Proof.
  intros HF HG i Hi. destruct (HF i Hi) as [f|f], (HG i Hi) as [g|g].
  - left. intros B v HB. now rewrite f, g.
  - right. intros B v HB. rewrite f, g by exact HB. now rewrite Z.lxor_assoc.
  - right. intros B v HB. rewrite f, g by exact HB. rewrite !Z.lxor_assoc. f_equal.
    rewrite (Z.lxor_comm (G B)), !Z.lxor_assoc. reflexivity.
  - left. intros B v HB. rewrite f, g by exact HB. generalize (Z.lxor (nth i B 0) v). intros d.
    rewrite (Z.lxor_comm (G B) d), Z.lxor_assoc, <- (Z.lxor_assoc d d), Z.lxor_nilpotent, Z.lxor_0_l. reflexivity.
Qed.

Lemma ignores_all F : (forall i, (i < N)%nat -> ignores F i) ->
  forall B B', length B = N -> length B' = N -> F B = F B'.
Proof.
  intros H B B' L L'.
  assert (G : forall m, (m <= N)%nat -> F (firstn m B' ++ skipn m B) = F B).
  { induction m as [|m IH]; intros Hm; [reflexivity|]. rewrite <- IH by lia.
    assert (LL : length (firstn m B' ++ skipn m B) = N) by (rewrite app_length, firstn_length, skipn_length; lia).
    rewrite <- (H m ltac:(lia) _ (nth m B' 0) LL). f_equal.
    apply (nth_ext _ _ 0 0); [rewrite length_upd, !app_length, !firstn_length, !skipn_length; lia|].
    intros k Hk. destruct (Nat.eq_dec k m) as [->|D].
    - rewrite nth_upd_eq by lia. rewrite app_nth1 by (rewrite firstn_length; lia). rewrite nth_firstn_lt by lia. reflexivity.
    - rewrite nth_upd_ne by auto. destruct (Nat.lt_ge_cases k m) as [C|C].
      + rewrite !app_nth1 by (rewrite firstn_length; lia). now rewrite !nth_firstn_lt by lia.
      + rewrite !app_nth2 by (rewrite firstn_length; lia). rewrite !firstn_length, !nth_skipn_add. f_equal. lia. }
  specialize (G N (le_n N)). rewrite firstn_all2, skipn_all2, app_nil_r in G by lia. auto.
Qed.

Lemma dichotomy F : shifts F ->
  (forall B B', length B = N -> length B' = N -> F B = F B') \/ exists i, (i < N)%nat /\ follows F i.
Proof.
  intros H. assert (D : forall m, (m <= N)%nat -> (forall i, (i < m)%nat -> ignores F i) \/ exists i, (i < N)%nat /\ follows F i).
  { induction m as [|m IH]; intros Hm; [left; intros; lia|]. destruct IH as [IH|IH]; [lia| |right; exact IH].
    destruct (H m ltac:(lia)) as [I|I]; [left|right; eauto]. intros i Hi. destruct (Nat.eq_dec i m) as [->|]; [exact I|apply IH; lia]. }
  destruct (D N (le_n N)) as [D'|D']; [left; now apply ignores_all|right; exact D'].
Qed.

(** A sequence of assignments, each the xor of a constant and entries of the table. *)
Variable E : Type.
Variable step : list Z -> E -> res (list Z).
Hypothesis Hstep : forall e B0 B0', length B0 = N -> step B0 e = Ok B0' ->
  exists s (V : list Z -> Z),
    (forall B, length B = N -> step B e = Ok (upd B s (V B))) /\
    (forall G : list Z -> list Z, (forall B, length B = N -> length (G B) = N) ->
       (forall j, shifts (fun B => nth j (G B) 0)) -> shifts (fun B => V (G B))).

Lemma fold_shifts stack B0 B0' : length B0 = N -> foldM step stack B0 = Ok B0' ->
  exists G, (forall B, length B = N -> foldM step stack B = Ok (G B) /\ length (G B) = N) /\
    forall j, shifts (fun B => nth j (G B) 0).
Proof.
  intros L0. revert B0'. induction stack as [|e stack IH] using rev_ind; intros B0' H.
  - exists (fun B => B). split; [intros B HB; split; [reflexivity|exact HB]|]. apply shifts_nth.
  - rewrite foldM_app in H. apply bind_Ok in H as (B1 & H1 & H2).
    destruct (IH B1 H1) as (G & HG & SG).
    destruct (HG B0 L0) as [X L1]. assert (B1 = G B0) by congruence. subst B1.
    cbn [foldM] in H2. apply bind_Ok in H2 as (B2 & H2 & _).
    destruct (Hstep e (G B0) B2 L1 H2) as (s & V & HV & SV).
    exists (fun B => upd (G B) s (V (G B))). split.
    + intros B HB. destruct (HG B HB) as [Y LY]. rewrite foldM_app, Y. cbn [bind foldM]. rewrite HV by exact LY. cbn [bind].
      split; [reflexivity|]. now rewrite length_upd.
    + intros j. specialize (SV G (fun B HB => proj2 (HG B HB)) SG).
      destruct (Nat.eq_dec j s) as [->|D].
      * assert (LU : forall B i v, length B = N -> length (G (upd B i v)) = N).
        { intros B i v HB. apply HG. now rewrite length_upd. }
        destruct (Nat.lt_ge_cases s N) as [C|C].
        -- intros i Hi. destruct (SV i Hi) as [K|K]; [left|right]; intros B v HB;
             (rewrite nth_upd_eq by (rewrite LU by exact HB; exact C));
             (rewrite nth_upd_eq by (rewrite (proj2 (HG B HB)); exact C)); now apply K.
        -- intros i Hi. left. intros B v HB.
           rewrite !(nth_overflow (upd _ s _)); [reflexivity| |]; rewrite length_upd; [rewrite (proj2 (HG B HB))|rewrite LU by exact HB]; exact C.
      * intros i Hi. destruct (SG j i Hi) as [K|K]; [left|right]; intros B v HB; rewrite !nth_upd_ne by auto; now apply K.
Qed.
End FILL.
