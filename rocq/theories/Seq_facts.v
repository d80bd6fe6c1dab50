(** Counting over all sequences. *)
From Verif Require Import Base SpecLwe Base_facts.
From Coq Require Import Permutation.
Local Open Scope Z_scope.

Lemma count_app {A} (P : A -> bool) l r : count P (l ++ r) = count P l + count P r.
Proof. unfold count. rewrite filter_app, app_length. lia. Qed.
Lemma count_cons {A} (P : A -> bool) x l : count P (x :: l) = (if P x then 1 else 0) + count P l.
Proof. unfold count. cbn [filter]. destruct (P x); cbn [length]; lia. Qed.
Lemma count_map {A B} (P : B -> bool) (f : A -> B) l : count P (map f l) = count (fun x => P (f x)) l.
Proof. induction l as [|x l IH]; [reflexivity|]. cbn [map]. now rewrite !count_cons, IH. Qed.
Lemma count_ext {A} (P Q : A -> bool) l : (forall x, In x l -> P x = Q x) -> count P l = count Q l.
Proof.
  induction l as [|x l IH]; intros H; [reflexivity|]. rewrite !count_cons, IH by (intros; apply H; now right).
  now rewrite (H x) by now left.
Qed.
Lemma count_le {A} (P Q : A -> bool) l : (forall x, In x l -> P x = true -> Q x = true) -> count P l <= count Q l.
Proof.
  induction l as [|x l IH]; intros H; [reflexivity|]. rewrite !count_cons.
  assert (count P l <= count Q l) by (apply IH; intros; apply H; auto; now right).
  specialize (H x (or_introl eq_refl)). destruct (P x), (Q x); lia.
Qed.
Lemma count_nonneg' {A} (P : A -> bool) l : 0 <= count P l.
Proof. unfold count. lia. Qed.
Lemma count_true {A} (l : list A) : count (fun _ => true) l = size l.
Proof. induction l as [|x l IH]; [reflexivity|]. rewrite count_cons, IH. unfold size. cbn [length]. lia. Qed.
Lemma count_false {A} (l : list A) : count (fun _ => false) l = 0.
Proof. induction l as [|x l IH]; [reflexivity|]. now rewrite count_cons, IH. Qed.
Lemma count_split {A} (P Q : A -> bool) l : count P l = count (fun x => P x && Q x) l + count (fun x => P x && negb (Q x)) l.
Proof.
  induction l as [|x l IH]; [reflexivity|]. rewrite !count_cons, IH. destruct (P x), (Q x); cbn [andb negb]; lia.
Qed.
Lemma count_perm {A} (P : A -> bool) l r : Permutation l r -> count P l = count P r.
Proof.
  induction 1 as [|x l r _ IH|x y l|l1 l2 l3 _ IH1 _ IH2]; [reflexivity| | |congruence].
  - now rewrite !count_cons, IH.
  - rewrite !count_cons. lia.
Qed.
Lemma size_count {A} (l : list A) : 0 <= size l. Proof. unfold size. lia. Qed.

(** Sums over a list. *)
Fixpoint lsum {A} (f : A -> Z) (l : list A) : Z := match l with [] => 0 | x :: l => f x + lsum f l end.
Lemma lsum_ext {A} (f g : A -> Z) l : (forall x, In x l -> f x = g x) -> lsum f l = lsum g l.
Proof. induction l as [|x l IH]; intros H; [reflexivity|]. cbn [lsum]. rewrite IH, H; auto; [now left|]. intros; apply H; now right. Qed.
Lemma lsum_perm {A} (f : A -> Z) l r : Permutation l r -> lsum f l = lsum f r.
Proof. induction 1; cbn [lsum]; lia. Qed.
Lemma lsum_map {A B} (f : B -> Z) (g : A -> B) l : lsum f (map g l) = lsum (fun x => f (g x)) l.
Proof. induction l as [|x l IH]; [reflexivity|]. cbn [map lsum]. now rewrite IH. Qed.
Lemma lsum_scale {A} (f : A -> Z) k l : lsum (fun x => k * f x) l = k * lsum f l.
Proof. induction l as [|x l IH]; cbn [lsum]; [lia|]. rewrite IH. lia. Qed.
Lemma lsum_if {A} (P : A -> bool) c l : lsum (fun x => if P x then c else 0) l = count P l * c.
Proof. induction l as [|x l IH]; [reflexivity|]. cbn [lsum]. rewrite IH, count_cons. destruct (P x); lia. Qed.
Lemma lsum_const {A} c (l : list A) : lsum (fun _ => c) l = size l * c.
Proof. unfold size. induction l as [|x l IH]; [reflexivity|]. cbn [lsum length]. rewrite IH. lia. Qed.

Lemma count_flat {A B} (P : B -> bool) (f : A -> list B) l : count P (flat_map f l) = lsum (fun x => count P (f x)) l.
Proof. induction l as [|x l IH]; [reflexivity|]. cbn [flat_map lsum]. now rewrite count_app, IH. Qed.
Lemma count_seq {A} (P : list A -> bool) l n :
  count P (sequences l (S n)) = lsum (fun x => count (fun t => P (x :: t)) (sequences l n)) l.
Proof. cbn [sequences]. rewrite count_flat. apply lsum_ext. intros x _. apply count_map. Qed.

Lemma in_sequences {A} (l : list A) n v : In v (sequences l n) <-> length v = n /\ Forall (fun x => In x l) v.
Proof.
  revert v. induction n as [|n IH]; intros v.
  - cbn. split.
    + intros [<-|[]]. auto.
    + intros [H _]. destruct v; [now left|discriminate].
  - cbn [sequences]. rewrite in_flat_map. split.
    + intros (x & Hx & Hv). apply in_map_iff in Hv as (t & <- & Ht). apply IH in Ht as [<- F]. split; [reflexivity|]. now constructor.
    + intros [L F]. destruct v as [|x v]; [discriminate|]. apply Forall_cons_iff in F as [Fx F]. exists x. split; [exact Fx|].
      apply in_map, IH. split; [now injection L|exact F].
Qed.

Lemma nodup_sequences {A} (l : list A) n : NoDup l -> NoDup (sequences l n).
Proof.
  intros ND. induction n as [|n IH]; [repeat constructor; auto|]. cbn [sequences]. revert ND IH.
  generalize (sequences l n). intros s ND Ns. induction ND as [|x l Hx ND IH]; [constructor|]. cbn [flat_map].
  assert (N1 : NoDup (map (cons x) s)).
  { apply FinFun.Injective_map_NoDup; [intros a b E; now injection E|exact Ns]. }
  revert N1. assert (D : forall v, In v (map (cons x) s) -> ~ In v (flat_map (fun x => map (cons x) s) l)).
  { intros v Hv Hf. apply in_map_iff in Hv as (t & <- & _). apply in_flat_map in Hf as (y & Hy & Hf).
    apply in_map_iff in Hf as (t' & E & _). injection E as -> _. contradiction. }
  revert D. generalize (map (cons x) s). intros m D N1. induction N1 as [|v m Hv N1 IHm]; [exact IH|]. cbn [app]. constructor.
  - rewrite in_app_iff. intros [H|H]; [contradiction|]. apply (D v); [now left|exact H].
  - apply IHm. intros v' Hv'. apply D. now right.
Qed.

(** A length-preserving injection of the sequences into themselves permutes them. *)
Lemma permutes {A} (f : A -> A) (l : list A) : NoDup l -> (forall x, In x l -> In (f x) l) ->
  (forall x y, In x l -> In y l -> f x = f y -> x = y) -> Permutation (map f l) l.
Proof.
  intros ND Hin Hinj. apply NoDup_Permutation_bis.
  - clear Hin. induction ND as [|x l Hx ND IH]; [constructor|]. cbn [map]. constructor.
    + intros H. apply in_map_iff in H as (y & E & Hy). apply Hinj in E; [subst; contradiction|now right|now left].
    + apply IH. intros a b Ha Hb. apply Hinj; now right.
  - rewrite map_length. lia.
  - intros y Hy. apply in_map_iff in Hy as (x & <- & Hx). auto.
Qed.

(** Applying a (position-dependent) permutation of [l] to each element of a sequence does not
    change any count. *)
Lemma count_map2_perm {A K} (f : K -> A -> A) (ks : list K) (l : list A) (D : list A -> bool) :
  (forall k, In k ks -> Permutation (map (f k) l) l) ->
  count (fun v => D (map2 f ks v)) (sequences l (length ks)) = count D (sequences l (length ks)).
Proof.
  revert D. induction ks as [|k ks IH]; intros D H; [reflexivity|]. cbn [length]. rewrite !count_seq.
  transitivity (lsum (fun x => count (fun t => D (f k x :: t)) (sequences l (length ks))) l).
  - apply lsum_ext. intros x _. cbn [map2]. apply (IH (fun t => D (f k x :: t))). intros; apply H; now right.
  - rewrite <- (lsum_map (fun y => count (fun t => D (y :: t)) (sequences l (length ks))) (f k)).
    apply lsum_perm, H. now left.
Qed.

(** A condition on one position is independent of everything else. *)
Lemma count_position {A} (d : A) (P : A -> bool) l : forall n r (G : list A -> bool), (r < n)%nat ->
  (forall v x, In x l -> In v (sequences l n) -> G (upd v r x) = G v) ->
  size l * count (fun v => P (nth r v d) && G v) (sequences l n) = count P l * count G (sequences l n).
Proof.
  induction n as [|n IH]; intros r G Hr HG; [lia|]. rewrite !count_seq. destruct r as [|r].
  - destruct l as [|x0 l0]; [reflexivity|]. set (l := x0 :: l0) in *.
    set (c := count (fun t => G (x0 :: t)) (sequences l n)).
    assert (C : forall x, In x l -> count (fun t => G (x :: t)) (sequences l n) = c).
    { intros x Hx. apply count_ext. intros t Ht. symmetry. apply (HG (x :: t) x0); [now left|].
      apply in_sequences in Ht as [L F]. apply in_sequences. split; [cbn; lia|constructor; auto]. }
    rewrite (lsum_ext _ (fun x => if P x then c else 0)).
    2:{ intros x Hx. cbn [nth]. destruct (P x); cbn [andb]; [apply C; exact Hx|apply count_false]. }
    rewrite (lsum_ext (fun x => count (fun t => G (x :: t)) (sequences l n)) (fun _ => c)) by exact C.
    rewrite lsum_if, lsum_const. ring.
  - rewrite <- lsum_scale, <- lsum_scale. apply lsum_ext. intros x Hx. cbn [nth].
    apply (IH r (fun t => G (x :: t))); [lia|]. intros v y Hy Hv. apply (HG (x :: v) y Hy).
    apply in_sequences in Hv as [L F]. apply in_sequences. split; [cbn; lia|constructor; auto].
Qed.

Lemma map2_map_r {A B C D} (f : A -> B -> C) (g : D -> B) l r : map2 f l (map g r) = map2 (fun a d => f a (g d)) l r.
Proof. revert r. induction l as [|x l IH]; intros [|y r]; try reflexivity. cbn [map map2]. now rewrite IH. Qed.
Lemma map2_ext {A B C} (f g : A -> B -> C) l r : (forall x y, In x l -> In y r -> f x y = g x y) -> map2 f l r = map2 g l r.
Proof.
  revert r. induction l as [|x l IH]; intros [|y r] H; try reflexivity. cbn [map2].
  rewrite IH by (intros; apply H; now right). f_equal. apply H; now left.
Qed.
Lemma map2_map {A B C D} (g : C -> D) (f : A -> B -> C) l r : map g (map2 f l r) = map2 (fun a b => g (f a b)) l r.
Proof. revert r. induction l as [|x l IH]; intros [|y r]; try reflexivity. cbn [map map2]. now rewrite IH. Qed.
