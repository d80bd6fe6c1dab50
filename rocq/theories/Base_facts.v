(** Lemmas about the helpers of Base.v. *)
From Verif Require Import Base.
From Coq Require Import ZifyBool ZifyNat Permutation.
Local Open Scope Z_scope.
Ltac Zify.zify_post_hook ::= Z.div_mod_to_equations.

Lemma bind_Ok {A B} (r : res A) (k : A -> res B) b :
  bind r k = Ok b -> exists a, r = Ok a /\ k a = Ok b.
Proof. destruct r; simpl; intros H; try discriminate; eauto. Qed.

Lemma bind_ext {A B} (r : res A) (k1 k2 : A -> res B) :
  (forall a, r = Ok a -> k1 a = k2 a) -> bind r k1 = bind r k2.
Proof. destruct r; simpl; intros H; auto. Qed.

Lemma bind_assoc {A B C} (r : res A) (k : A -> res B) (k' : B -> res C) :
  bind (bind r k) k' = bind r (fun a => bind (k a) k').
Proof. destruct r; reflexivity. Qed.

(** ** Arrays *)
Lemma idx_Ok {A} (l : list A) i x : idx l i = Ok x <-> nth_error l i = Some x.
Proof. unfold idx; destruct (nth_error l i); split; congruence. Qed.

Lemma idx_nth {A} (l : list A) i d : (i < length l)%nat -> idx l i = Ok (nth i l d).
Proof.
  intros H. apply idx_Ok. apply nth_error_nth'. exact H.
Qed.

Lemma idx_lt {A} (l : list A) i x : idx l i = Ok x -> (i < length l)%nat.
Proof. intros H; apply idx_Ok in H. apply nth_error_Some. congruence. Qed.

Lemma idx_oob {A} (l : list A) i : (length l <= i)%nat -> idx l i = Panic.
Proof. intros H; unfold idx. apply nth_error_None in H. now rewrite H. Qed.

Lemma idx_cases {A} (l : list A) i :
  ((i < length l)%nat /\ exists x, idx l i = Ok x) \/
  ((length l <= i)%nat /\ idx l i = Panic).
Proof.
  destruct (Nat.lt_ge_cases i (length l)) as [H|H].
  - left; split; auto. destruct (nth_error l i) eqn:E.
    + exists a. unfold idx; now rewrite E.
    + apply nth_error_None in E; lia.
  - right; split; auto using idx_oob.
Qed.

Lemma length_upd {A} (l : list A) i x : length (upd l i x) = length l.
Proof. revert i; induction l as [|h t IH]; intros [|i]; simpl; auto. Qed.

Lemma nth_error_upd_eq {A} (l : list A) i x :
  (i < length l)%nat -> nth_error (upd l i x) i = Some x.
Proof. revert i; induction l as [|h t IH]; intros [|i] H; simpl in *; try lia; auto. apply IH; lia. Qed.

Lemma nth_error_upd_ne {A} (l : list A) i j x :
  i <> j -> nth_error (upd l i x) j = nth_error l j.
Proof.
  revert i j; induction l as [|h t IH]; intros [|i] [|j] H; simpl in *; try lia; auto.
Qed.

Lemma nth_upd_eq {A} (l : list A) i x d : (i < length l)%nat -> nth i (upd l i x) d = x.
Proof. intros H. apply nth_error_nth. now apply nth_error_upd_eq. Qed.

Lemma nth_upd_ne {A} (l : list A) i j x d : i <> j -> nth j (upd l i x) d = nth j l d.
Proof.
  revert i j; induction l as [|h t IH]; intros [|i] [|j] H; simpl in *; try lia; auto.
Qed.

Lemma nth_upd {A} (l : list A) i j x d :
  (i < length l)%nat -> nth j (upd l i x) d = if (j =? i)%nat then x else nth j l d.
Proof.
  intros H. destruct (Nat.eqb_spec j i) as [->|N].
  - now apply nth_upd_eq.
  - apply nth_upd_ne; congruence.
Qed.

Lemma upd_oob {A} (l : list A) i x : (length l <= i)%nat -> upd l i x = l.
Proof.
  revert i; induction l as [|h t IH]; intros [|i] H; simpl in *; try lia; auto.
  rewrite IH; auto; lia.
Qed.

Lemma upd_same {A} (l : list A) i d : upd l i (nth i l d) = l.
Proof. revert i; induction l as [|h t IH]; intros [|i]; simpl; auto. now rewrite IH. Qed.

Lemma upd_upd {A} (l : list A) i x y : upd (upd l i x) i y = upd l i y.
Proof. revert i; induction l as [|h t IH]; intros [|i]; simpl; auto. now rewrite IH. Qed.

Lemma upd_comm {A} (l : list A) i j x y :
  i <> j -> upd (upd l i x) j y = upd (upd l j y) i x.
Proof.
  revert i j; induction l as [|h t IH]; intros [|i] [|j] N; simpl; auto; try congruence.
  f_equal. apply IH. congruence.
Qed.

Lemma set_lt {A} (l : list A) i x : (i < length l)%nat -> set l i x = Ok (upd l i x).
Proof. intros H; unfold set. now destruct (Nat.ltb_spec i (length l)); try lia. Qed.

Lemma set_oob {A} (l : list A) i x : (length l <= i)%nat -> set l i x = Panic.
Proof. intros H; unfold set. now destruct (Nat.ltb_spec i (length l)); try lia. Qed.

Lemma set_Ok {A} (l l' : list A) i x :
  set l i x = Ok l' <-> (i < length l)%nat /\ l' = upd l i x.
Proof.
  unfold set. destruct (Nat.ltb_spec i (length l)); split; intros H'; try (intuition congruence).
  lia.
Qed.

Lemma list_eq_nth {A} (l1 l2 : list A) d :
  length l1 = length l2 -> (forall i, (i < length l1)%nat -> nth i l1 d = nth i l2 d) -> l1 = l2.
Proof. intros H1 H2. eapply nth_ext; eauto. Qed.

Lemma map_nth_seq {A} (l : list A) d : map (fun i => nth i l d) (seq 0 (length l)) = l.
Proof.
  apply (list_eq_nth _ _ d).
  - now rewrite map_length, seq_length.
  - intros i H. rewrite map_length, seq_length in H.
    rewrite (nth_indep _ d (nth 0 l d)) by (now rewrite map_length, seq_length).
    change (nth 0 l d) with ((fun i => nth i l d) 0%nat).
    rewrite map_nth, seq_nth; auto.
Qed.

Lemma nth_map_seq {A} (f : nat -> A) n i d :
  (i < n)%nat -> nth i (map f (seq 0 n)) d = f i.
Proof.
  intros H. rewrite (nth_indep _ d (f 0%nat)) by (now rewrite map_length, seq_length).
  rewrite map_nth, seq_nth; auto.
Qed.

Lemma nth_map' {A B} (f : A -> B) l i d d' :
  (i < length l)%nat -> nth i (map f l) d = f (nth i l d').
Proof.
  intros H. rewrite (nth_indep _ d (f d')) by (now rewrite map_length). apply map_nth.
Qed.

(** ** mapM / foldM *)
Lemma mapM_Ok {A B} (f : A -> res B) (g : A -> B) l :
  (forall x, In x l -> f x = Ok (g x)) -> mapM f l = Ok (map g l).
Proof.
  induction l as [|x xs IH]; simpl; intros H; auto.
  rewrite H by auto. simpl. rewrite IH by auto. reflexivity.
Qed.

Lemma mapM_ext {A B} (f g : A -> res B) l :
  (forall x, In x l -> f x = g x) -> mapM f l = mapM g l.
Proof.
  induction l as [|x xs IH]; simpl; intros H; auto.
  rewrite H by auto. apply bind_ext; intros y _. rewrite IH by auto. reflexivity.
Qed.

Lemma mapM_Ok_inv {A B} (f : A -> res B) l ys :
  mapM f l = Ok ys -> Forall2 (fun x y => f x = Ok y) l ys.
Proof.
  revert ys; induction l as [|x xs IH]; simpl; intros ys H.
  - injection H as <-; constructor.
  - apply bind_Ok in H as (y & Hy & H). apply bind_Ok in H as (ys' & Hys & H).
    injection H as <-. constructor; auto.
Qed.

Lemma Forall2_mapM {A B} (f : A -> res B) l ys :
  Forall2 (fun x y => f x = Ok y) l ys -> mapM f l = Ok ys.
Proof. induction 1 as [|x y xs ys H _ IH]; simpl; auto. rewrite H; simpl. now rewrite IH. Qed.

Lemma Forall2_len {A B} (R : A -> B -> Prop) l1 l2 : Forall2 R l1 l2 -> length l1 = length l2.
Proof. induction 1; simpl; congruence. Qed.

Lemma mapM_length {A B} (f : A -> res B) l ys : mapM f l = Ok ys -> length ys = length l.
Proof. intros H; apply mapM_Ok_inv in H. apply Forall2_len in H; auto. Qed.

Lemma Forall2_nth {A B} (R : A -> B -> Prop) l1 l2 d1 d2 :
  Forall2 R l1 l2 <->
  length l1 = length l2 /\ forall i, (i < length l1)%nat -> R (nth i l1 d1) (nth i l2 d2).
Proof.
  split.
  - induction 1 as [|x y xs ys H _ [IHl IH]]; simpl.
    + split; auto; intros; lia.
    + split; [congruence|]. intros [|i] Hi; auto. apply IH; lia.
  - revert l2; induction l1 as [|x xs IH]; intros [|y ys] [Hl H]; simpl in *; try discriminate.
    + constructor.
    + constructor. { apply (H 0%nat); lia. }
      apply IH. split; [lia|]. intros i Hi. apply (H (S i)); lia.
Qed.

Lemma mapM_seq_Ok {B} (f : nat -> res B) n ys d :
  mapM f (seq 0 n) = Ok ys <->
  length ys = n /\ forall i, (i < n)%nat -> f i = Ok (nth i ys d).
Proof.
  split.
  - intros H. apply mapM_Ok_inv in H. apply (Forall2_nth _ _ _ 0%nat d) in H as [Hl H].
    rewrite seq_length in *. split; auto. intros i Hi. specialize (H i Hi).
    now rewrite seq_nth in H by lia.
  - intros [Hl H]. apply Forall2_mapM. apply (Forall2_nth _ _ _ 0%nat d).
    rewrite seq_length. split; auto. intros i Hi. rewrite seq_nth by lia. now apply H.
Qed.

Lemma mapM_first_fail {A B} (f : A -> res B) l1 x l2 :
  (forall y, In y l1 -> exists b, f y = Ok b) ->
  mapM f (l1 ++ x :: l2) =
  match f x with
  | Ok _ => mapM f (l1 ++ x :: l2)
  | Err e => Err e | Panic => Panic | Hang => Hang
  end.
Proof.
  intros H. destruct (f x) eqn:E; auto.
  all: induction l1 as [|y ys IH]; simpl; [now rewrite E|];
    destruct (H y) as [b Hb]; [left; auto|]; rewrite Hb; simpl; rewrite IH; auto;
    intros; apply H; right; auto.
Qed.

Lemma mapM_app {A B} (f : A -> res B) l1 l2 :
  mapM f (l1 ++ l2) = let* a := mapM f l1 in let* b := mapM f l2 in Ok (a ++ b).
Proof.
  induction l1 as [|x xs IH]; simpl.
  - now destruct (mapM f l2).
  - destruct (f x); simpl; auto. rewrite IH. destruct (mapM f xs); simpl; auto.
    now destruct (mapM f l2).
Qed.

Lemma foldM_app {A S} (f : S -> A -> res S) l1 l2 s :
  foldM f (l1 ++ l2) s = let* s' := foldM f l1 s in foldM f l2 s'.
Proof.
  revert s; induction l1 as [|x xs IH]; simpl; intros s; auto.
  destruct (f s x); simpl; auto.
Qed.

Lemma foldM_ext {A S} (f g : S -> A -> res S) l s :
  (forall s x, In x l -> f s x = g s x) -> foldM f l s = foldM g l s.
Proof.
  revert s; induction l as [|x xs IH]; simpl; intros s H; auto.
  rewrite H by auto. apply bind_ext; intros; apply IH; auto.
Qed.

Lemma foldM_fold_left {A S} (f : S -> A -> res S) (g : S -> A -> S) l s :
  (forall s x, In x l -> f s x = Ok (g s x)) -> foldM f l s = Ok (fold_left g l s).
Proof.
  revert s; induction l as [|x xs IH]; simpl; intros s H; auto.
  rewrite H by auto. simpl. apply IH; auto.
Qed.

Lemma foldM_invariant {A S} (P : S -> Prop) (f : S -> A -> res S) l s s' :
  P s -> (forall s s' x, In x l -> P s -> f s x = Ok s' -> P s') ->
  foldM f l s = Ok s' -> P s'.
Proof.
  revert s; induction l as [|x xs IH]; simpl; intros s Hs Hstep H.
  - now injection H as <-.
  - apply bind_Ok in H as (s1 & H1 & H). eapply IH; [| |exact H]; eauto.
Qed.

Lemma combine_app {A B} (l1 l1' : list A) (l2 l2' : list B) :
  length l1 = length l2 -> combine (l1 ++ l1') (l2 ++ l2') = combine l1 l2 ++ combine l1' l2'.
Proof.
  revert l2; induction l1 as [|x xs IH]; intros [|y ys] H; simpl in *; try discriminate; auto.
  now rewrite IH by lia.
Qed.

Lemma seq_S' a n : seq a (S n) = seq a n ++ [(a + n)%nat].
Proof. apply seq_S. Qed.

(** ** Words *)
Lemma two8_eq : two8 = 2 ^ 8. Proof. reflexivity. Qed.
Lemma two32_eq : two32 = 2 ^ 32. Proof. reflexivity. Qed.
Lemma two64_eq : two64 = 2 ^ 64. Proof. reflexivity. Qed.

Lemma chk_Ok dbg m v : 0 <= v < m -> chk dbg m v = Ok v.
Proof. intros H; unfold chk. now replace ((0 <=? v) && (v <? m)) with true by lia. Qed.

Lemma chk_false m v : 0 < m -> chk false m v = Ok (v mod m).
Proof.
  intros H; unfold chk. destruct ((0 <=? v) && (v <? m)) eqn:E; auto.
  rewrite Z.mod_small by lia. reflexivity.
Qed.

Lemma chk_oob m v : v < 0 \/ m <= v -> chk true m v = Panic.
Proof. intros H; unfold chk. now replace ((0 <=? v) && (v <? m)) with false by lia. Qed.

Lemma chk_Ok_mod dbg m v w : 0 < m -> chk dbg m v = Ok w -> w = v mod m.
Proof.
  intros Hm; unfold chk. destruct ((0 <=? v) && (v <? m)) eqn:E.
  - intros [= <-]. rewrite Z.mod_small; lia.
  - destruct dbg; congruence.
Qed.

Lemma chk_range dbg m v w : 0 < m -> chk dbg m v = Ok w -> 0 <= w < m.
Proof. intros Hm H. apply chk_Ok_mod in H; auto. subst. apply Z.mod_pos_bound; auto. Qed.

Lemma divz_pos a b : 0 < b -> divz a b = Ok (a / b).
Proof. intros H; unfold divz. now destruct (Z.eqb_spec b 0); try lia. Qed.
Lemma remz_pos a b : 0 < b -> remz a b = Ok (a mod b).
Proof. intros H; unfold remz. now destruct (Z.eqb_spec b 0); try lia. Qed.

Lemma length_le_bytes n x : length (le_bytes n x) = n.
Proof. revert x; induction n; simpl; auto. Qed.

Lemma of_le_le_bytes n x : 0 <= x < 256 ^ Z.of_nat n -> of_le_bytes (le_bytes n x) = x.
Proof.
  revert x; induction n as [|n IH]; intros x Hx.
  - change (256 ^ Z.of_nat 0) with 1 in Hx. simpl; lia.
  - cbn [le_bytes of_le_bytes].
    assert (E : 256 ^ Z.of_nat (S n) = 256 * 256 ^ Z.of_nat n)
      by (rewrite Nat2Z.inj_succ, Z.pow_succ_r by lia; reflexivity).
    assert (H256 : 0 < 256 ^ Z.of_nat n) by (apply Z.pow_pos_nonneg; lia).
    rewrite IH.
    + pose proof (Z.div_mod x 256). lia.
    + split. { apply Z.div_pos; lia. } apply Z.div_lt_upper_bound; lia.
Qed.

Lemma le_bytes_is_u8 n x : Forall is_u8 (le_bytes n x).
Proof.
  revert x; induction n; simpl; intros; constructor; auto.
  unfold is_u8, two8. apply Z.mod_pos_bound; lia.
Qed.

Lemma of_le_bytes_range l : Forall is_u8 l -> 0 <= of_le_bytes l < 256 ^ Z.of_nat (length l).
Proof.
  induction 1 as [|b t Hb _ IH].
  - simpl; lia.
  - cbn [of_le_bytes length]. unfold is_u8, two8 in Hb.
    rewrite Nat2Z.inj_succ, Z.pow_succ_r by lia. lia.
Qed.

Lemma le_of_le_bytes l : Forall is_u8 l -> le_bytes (length l) (of_le_bytes l) = l.
Proof.
  induction 1 as [|b t Hb _ IH]; auto.
  cbn [of_le_bytes length le_bytes]. unfold is_u8, two8 in Hb.
  replace ((b + 256 * of_le_bytes t) mod 256) with b by lia.
  replace ((b + 256 * of_le_bytes t) / 256) with (of_le_bytes t) by lia.
  now rewrite IH.
Qed.

Lemma is_u32_mod x : is_u32 (x mod two32).
Proof. apply Z.mod_pos_bound; reflexivity. Qed.
Lemma is_u64_mod x : is_u64 (x mod two64).
Proof. apply Z.mod_pos_bound; reflexivity. Qed.
#[global] Hint Resolve is_u32_mod is_u64_mod : word.
