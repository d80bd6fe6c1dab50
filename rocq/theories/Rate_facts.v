(** Counting lemmas behind the false-positive theorems. *)
From Verif Require Import SpecRate Base_facts.
From Coq Require Import Permutation.
Local Open Scope Z_scope.

Fixpoint zsum (f : Z -> Z) (n : nat) : Z :=
  match n with O => 0 | S n => zsum f n + f (Z.of_nat n) end.
Definition ind (P : Z -> bool) (x : Z) : Z := if P x then 1 else 0.

Lemma zsum_ext f g n : (forall x, 0 <= x < Z.of_nat n -> f x = g x) -> zsum f n = zsum g n.
Proof. induction n as [|n IH]; intros H; [reflexivity|]. cbn [zsum]. rewrite IH by (intros; apply H; lia). f_equal. apply H. lia. Qed.
Lemma zsum_le f g n : (forall x, 0 <= x < Z.of_nat n -> f x <= g x) -> zsum f n <= zsum g n.
Proof.
  induction n as [|n IH]; intros H; [reflexivity|]. cbn [zsum].
  assert (zsum f n <= zsum g n) by (apply IH; intros; apply H; lia). specialize (H (Z.of_nat n)). lia.
Qed.
Lemma zsum_const c n : zsum (fun _ => c) n = Z.of_nat n * c.
Proof. induction n as [|n IH]; [reflexivity|]. cbn [zsum]. rewrite IH. lia. Qed.
Lemma zsum_add f g n : zsum (fun x => f x + g x) n = zsum f n + zsum g n.
Proof. induction n as [|n IH]; [reflexivity|]. cbn [zsum]. rewrite IH. lia. Qed.
Lemma zsum_opp f n : zsum (fun x => - f x) n = - zsum f n.
Proof. induction n as [|n IH]; [reflexivity|]. cbn [zsum]. rewrite IH. lia. Qed.
Lemma zsum_zero n : zsum (fun _ => 0) n = 0.
Proof. rewrite zsum_const. lia. Qed.
Lemma zsum_swap f n m : zsum (fun x => zsum (fun y => f x y) m) n = zsum (fun y => zsum (fun x => f x y) n) m.
Proof.
  induction n as [|n IH]; cbn [zsum]; [now rewrite zsum_zero|]. rewrite IH, <- zsum_add. reflexivity.
Qed.
Lemma zsum_app f a b : zsum f (a + b) = zsum f a + zsum (fun x => f (Z.of_nat a + x)) b.
Proof.
  induction b as [|b IH]; cbn [zsum]; [rewrite Nat.add_0_r; lia|].
  rewrite Nat.add_succ_r. cbn [zsum]. rewrite IH, Nat2Z.inj_add. lia.
Qed.
Lemma zsum_block f a b : zsum f (a * b) = zsum (fun x => zsum (fun y => f (x * Z.of_nat b + y)) b) a.
Proof.
  induction a as [|a IH]; [reflexivity|]. cbn [zsum]. rewrite <- IH.
  replace (S a * b)%nat with (a * b + b)%nat by lia. rewrite zsum_app. f_equal.
  apply zsum_ext. intros x _. f_equal. rewrite Nat2Z.inj_mul. lia.
Qed.

Lemma filter_map_len {A B} (P : B -> bool) (f : A -> B) l : length (filter P (map f l)) = length (filter (fun x => P (f x)) l).
Proof. induction l as [|x l IH]; [reflexivity|]. cbn. destruct (P (f x)); cbn; now rewrite IH. Qed.

Lemma how_many_sum P n : 0 <= n -> how_many P n = zsum (ind P) (Z.to_nat n).
Proof.
  intros H. unfold how_many. clear H. generalize (Z.to_nat n). clear n. induction n as [|n IH]; [reflexivity|].
  rewrite seq_S, map_app, filter_app, app_length, Nat2Z.inj_add, IH. cbn [zsum plus map filter]. f_equal.
  unfold ind. destruct (P (Z.of_nat n)); reflexivity.
Qed.

Lemma how_many_le P Q n : (forall x, 0 <= x < n -> P x = true -> Q x = true) -> how_many P n <= how_many Q n.
Proof.
  intros H. destruct (Z_lt_le_dec n 0) as [N|N].
  { unfold how_many. destruct n; try lia. reflexivity. }
  rewrite !how_many_sum by exact N. apply zsum_le. intros x Hx. rewrite Z2Nat.id in Hx by exact N. unfold ind.
  specialize (H x Hx). destruct (P x); [rewrite H by reflexivity; lia|destruct (Q x); lia].
Qed.
Lemma how_many_ext P Q n : (forall x, 0 <= x < n -> P x = Q x) -> how_many P n = how_many Q n.
Proof.
  intros H. apply Z.le_antisymm; apply how_many_le; intros x Hx; rewrite (H x Hx); auto.
Qed.

Lemma in_words n x : In x (map Z.of_nat (seq 0 (Z.to_nat n))) <-> 0 <= x < n.
Proof.
  rewrite in_map_iff. split.
  - intros (k & <- & Hk). apply in_seq in Hk. lia.
  - intros H. exists (Z.to_nat x). split; [lia|]. apply in_seq. lia.
Qed.
Lemma nodup_words n : NoDup (map Z.of_nat (seq 0 (Z.to_nat n))).
Proof. apply FinFun.Injective_map_NoDup; [intros a b; apply Nat2Z.inj|apply seq_NoDup]. Qed.

Lemma filter_perm {A} (P : A -> bool) l l' : Permutation l l' -> length (filter P l) = length (filter P l').
Proof.
  induction 1 as [|x l l' H IH|x y l|l1 l2 l3 _ IH1 _ IH2]; cbn; [reflexivity| | |congruence].
  - destruct (P x); cbn; now rewrite IH.
  - destruct (P x), (P y); reflexivity.
Qed.

(** An injection of [0, n) into itself does not change the count. *)
Lemma how_many_inj P f n : (forall x, 0 <= x < n -> 0 <= f x < n) ->
  (forall x y, 0 <= x < n -> 0 <= y < n -> f x = f y -> x = y) ->
  how_many (fun x => P (f x)) n = how_many P n.
Proof.
  intros R I. unfold how_many. f_equal. rewrite <- (filter_map_len P f). apply filter_perm.
  apply NoDup_Permutation_bis.
  - assert (G : forall l, NoDup l -> (forall x, In x l -> 0 <= x < n) -> NoDup (map f l)).
    { induction 1 as [|x l N ND IH]; intros H; [constructor|]. cbn. constructor; [|apply IH; intros; apply H; now right].
      intros Hin. apply in_map_iff in Hin as (y & E & Hy). apply I in E; [subst; contradiction|apply H; now right|apply H; now left]. }
    apply G; [apply nodup_words|]. intros x Hx. now apply in_words.
  - rewrite !map_length. reflexivity.
  - intros y Hy. apply in_map_iff in Hy as (x & <- & Hx). apply in_words, R, in_words. exact Hx.
Qed.

(** At most as many as the image of an injection has room for. *)
Lemma how_many_room P n T a b : a <= b ->
  (forall x, 0 <= x < n -> P x = true -> a <= T x <= b) ->
  (forall x y, 0 <= x < n -> 0 <= y < n -> P x = true -> P y = true -> T x = T y -> x = y) ->
  how_many P n <= b - a + 1.
Proof.
  intros Hab R I. unfold how_many. set (l := filter P _).
  assert (L : (length l <= length (map (Z.add a) (map Z.of_nat (seq 0 (Z.to_nat (b - a + 1))))))%nat).
  { rewrite <- (map_length T l). apply NoDup_incl_length.
    - assert (G : forall l, NoDup l -> (forall x, In x l -> 0 <= x < n /\ P x = true) -> NoDup (map T l)).
      { clear l. induction 1 as [|x l N ND IH]; intros H; [constructor|]. cbn. constructor; [|apply IH; intros; apply H; now right].
        intros Hin. apply in_map_iff in Hin as (y & E & Hy).
        destruct (H x) as [X1 X2]; [now left|]. destruct (H y) as [Y1 Y2]; [now right|].
        apply I in E; auto. subst. contradiction. }
      apply G; [apply NoDup_filter, nodup_words|]. intros x Hx. apply filter_In in Hx as [Hx Px]. split; [now apply in_words|exact Px].
    - intros t Ht. apply in_map_iff in Ht as (x & <- & Hx). apply filter_In in Hx as [Hx Px].
      apply in_words in Hx. specialize (R x Hx Px). apply in_map_iff. exists (T x - a). split; [lia|]. apply in_words. lia. }
  rewrite !map_length, seq_length in L. lia.
Qed.

Lemma how_many_one P n x : 0 <= x < n -> P x = true -> 1 <= how_many P n.
Proof.
  intros Hx Px. unfold how_many. assert (In x (filter P (map Z.of_nat (seq 0 (Z.to_nat n))))).
  { apply filter_In. split; [now apply in_words|exact Px]. }
  destruct (filter P _); [contradiction|cbn; lia].
Qed.
Lemma how_many_pos P n : 0 <= how_many P n.
Proof. unfold how_many. lia. Qed.

(** The jumps of a monotone function inside aligned blocks add up to at most its total climb. *)
Lemma jumps (T : Z -> Z) (W : Z) H : 0 < W -> (forall x y, 0 <= x <= y -> T x <= T y) ->
  zsum (fun hi => T (hi * W + (W - 1)) - T (hi * W)) H <= T (Z.of_nat H * W) - T 0.
Proof.
  intros HW M. induction H as [|H IH]; cbn [zsum]; [replace (Z.of_nat 0 * W) with 0 by lia; lia|].
  assert (T (Z.of_nat H * W + (W - 1)) <= T (Z.of_nat (S H) * W)) by (apply M; nia).
  lia.
Qed.
