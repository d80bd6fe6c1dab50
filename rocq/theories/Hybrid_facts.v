(** Facts for C71: many samples against one (a hybrid argument, by counting). *)
From Verif Require Import Base Spec SpecLwe Seq_facts.
Local Open Scope Z_scope.

Lemma lsum_add_ {A} (f g : A -> Z) l : lsum (fun x => f x + g x) l = lsum f l + lsum g l.
Proof. induction l as [|x l IH]; cbn [lsum]; lia. Qed.
Lemma lsum_sub_ {A} (f g : A -> Z) l : lsum (fun x => f x - g x) l = lsum f l - lsum g l.
Proof. induction l as [|x l IH]; cbn [lsum]; lia. Qed.
Lemma lsum_swap_ {A B} (f : A -> B -> Z) l r : lsum (fun x => lsum (f x) r) l = lsum (fun y => lsum (fun x => f x y) l) r.
Proof.
  induction l as [|x l IH]; cbn [lsum].
  - induction r as [|y r IH]; cbn [lsum]; [reflexivity|]. now rewrite <- IH.
  - rewrite IH. now rewrite <- lsum_add_.
Qed.
Lemma lsum_abs {A} (f : A -> Z) l : Z.abs (lsum f l) <= lsum (fun x => Z.abs (f x)) l.
Proof. induction l as [|x l IH]; cbn [lsum]; lia. Qed.
Lemma lsum_max {A} (f : A -> Z) l : 0 < size l -> exists x, In x l /\ lsum f l <= size l * f x.
Proof.
  induction l as [|x l IH]; [intros H; now cbn in H|]. intros _.
  assert (E : size (x :: l) = size l + 1) by (unfold size; cbn [length]; lia). rewrite E. cbn [lsum].
  destruct l as [|y l].
  - exists x. split; [now left|]. change (size [x]) with 1 in E. change (size (@nil A)) with 0. cbn [lsum]. lia.
  - destruct IH as (z & I & H); [unfold size; cbn [length]; lia|]. assert (S : 0 <= size (y :: l)) by (unfold size; lia).
    set (s := size (y :: l)) in *. set (q := lsum f (y :: l)) in *.
    destruct (Z.le_ge_cases (f x) (f z)) as [L|L].
    + exists z. split; [now right|]. nia.
    + exists x. split; [now left|]. nia.
Qed.
Lemma count_lsum_ {A} (P : A -> bool) l : count P l = lsum (fun x => if P x then 1 else 0) l.
Proof. rewrite lsum_if. lia. Qed.
Lemma size_seq_S {A} (l : list A) n : size (sequences l (S n)) = size l * size (sequences l n).
Proof. rewrite <- count_true, count_seq. rewrite (lsum_ext _ (fun _ => size (sequences l n))) by (intros; apply count_true). apply lsum_const. Qed.
Lemma size_nonneg {A} (l : list A) : 0 <= size l. Proof. unfold size. lia. Qed.
Lemma count_ext_ {A} (P Q : A -> bool) l : (forall x, P x = Q x) -> count P l = count Q l.
Proof. intros E. unfold count. f_equal. f_equal. apply filter_ext. exact E. Qed.

Section Hybrid.
Context {X V : Type}.
Variables (f : X -> V) (T : list X) (U : list V).
Hypotheses (HT : 0 < size T) (HU : 0 < size U).
Definition cT n (D : list V -> bool) := count (fun ts => D (map f ts)) (sequences T n).
Definition cU n (D : list V -> bool) := count D (sequences U n).
Definition adv n D := Z.abs (cT n D * size (sequences U n) - cU n D * size (sequences T n)).
Lemma one_T E : cT 1 E = count (fun x => E [f x]) T.
Proof.
  unfold cT. rewrite count_seq, count_lsum_. apply lsum_ext. intros x _. cbn [sequences]. unfold count. cbn [filter map].
  destruct (E [f x]); reflexivity.
Qed.
Lemma one_U E : cU 1 E = count (fun y => E [y]) U.
Proof.
  unfold cU. rewrite count_seq, count_lsum_. apply lsum_ext. intros x _. cbn [sequences]. unfold count. cbn [filter].
  destruct (E [x]); reflexivity.
Qed.
Lemma size_one {A} (l : list A) : size (sequences l 1) = size l.
Proof. rewrite size_seq_S. cbn. lia. Qed.
Lemma step n D : adv (S n) D <=
  size U * lsum (fun x => adv n (fun vs => D (f x :: vs))) T +
  size (sequences T n) * lsum (fun z => adv 1 (fun vs => D (vs ++ z))) (sequences U n).
Proof.
  assert (E1 : cT (S n) D = lsum (fun x => cT n (fun vs => D (f x :: vs))) T) by (unfold cT; rewrite count_seq; reflexivity).
  assert (E2 : cU (S n) D = lsum (fun z => count (fun y => D (y :: z)) U) (sequences U n)).
  { unfold cU. rewrite count_seq. rewrite (lsum_ext _ (fun y => lsum (fun z => if D (y :: z) then 1 else 0) (sequences U n))) by (intros; apply count_lsum_).
    rewrite lsum_swap_. apply lsum_ext. intros z _. now rewrite count_lsum_. }
  assert (E3 : lsum (fun x => cU n (fun vs => D (f x :: vs))) T = lsum (fun z => count (fun x => D (f x :: z)) T) (sequences U n)).
  { unfold cU. rewrite (lsum_ext _ (fun x => lsum (fun z => if D (f x :: z) then 1 else 0) (sequences U n))) by (intros; apply count_lsum_).
    rewrite lsum_swap_. apply lsum_ext. intros z _. now rewrite count_lsum_. }
  set (NU := size (sequences U n)) in *. set (NT := size (sequences T n)) in *.
  set (a := fun x => cT n (fun vs => D (f x :: vs)) * NU - cU n (fun vs => D (f x :: vs)) * NT).
  set (b := fun z => count (fun x => D (f x :: z)) T * size U - count (fun y => D (y :: z)) U * size T).
  assert (A1 : lsum a T = cT (S n) D * NU - lsum (fun x => cU n (fun vs => D (f x :: vs))) T * NT).
  { unfold a. rewrite lsum_sub_. rewrite E1.
    rewrite (lsum_ext (fun x => cT n (fun vs => D (f x :: vs)) * NU) (fun x => NU * cT n (fun vs => D (f x :: vs)))) by (intros; ring).
    rewrite (lsum_ext (fun x => cU n (fun vs => D (f x :: vs)) * NT) (fun x => NT * cU n (fun vs => D (f x :: vs)))) by (intros; ring).
    rewrite !lsum_scale. ring. }
  assert (B1 : lsum b (sequences U n) = lsum (fun x => cU n (fun vs => D (f x :: vs))) T * size U - cU (S n) D * size T).
  { unfold b. rewrite lsum_sub_. rewrite E2, E3.
    rewrite (lsum_ext (fun z => count (fun x => D (f x :: z)) T * size U) (fun z => size U * count (fun x => D (f x :: z)) T)) by (intros; ring).
    rewrite (lsum_ext (fun z => count (fun y => D (y :: z)) U * size T) (fun z => size T * count (fun y => D (y :: z)) U)) by (intros; ring).
    rewrite !lsum_scale. ring. }
  assert (A2 : lsum (fun x => adv n (fun vs => D (f x :: vs))) T = lsum (fun x => Z.abs (a x)) T) by reflexivity.
  assert (B2 : lsum (fun z => adv 1 (fun vs => D (vs ++ z))) (sequences U n) = lsum (fun z => Z.abs (b z)) (sequences U n)).
  { apply lsum_ext. intros z _. unfold adv. rewrite one_T, one_U, !size_one. reflexivity. }
  rewrite A2, B2. pose proof (lsum_abs a T) as A3. pose proof (lsum_abs b (sequences U n)) as B3.
  unfold adv. rewrite !size_seq_S. fold NU NT.
  replace (cT (S n) D * (size U * NU) - cU (S n) D * (size T * NT)) with (size U * lsum a T + NT * lsum b (sequences U n)) by (rewrite A1, B1; ring).
  assert (0 <= NT) by apply size_nonneg.
  set (p := lsum a T) in *. set (q := lsum b (sequences U n)) in *. set (p' := lsum (fun x => Z.abs (a x)) T) in *.
  set (q' := lsum (fun z => Z.abs (b z)) (sequences U n)) in *. clearbody p q p' q' NT. clear - A3 B3 HU H.
  assert (Z.abs (size U * p + NT * q) <= size U * Z.abs p + NT * Z.abs q) by (rewrite <- (Z.abs_eq (size U)) at 2 by lia; rewrite <- (Z.abs_eq NT) at 2 by lia; rewrite <- !Z.abs_mul; apply Z.abs_triangle).
  nia.
Qed.
Lemma size_seq_pos {A} (l : list A) n : 0 < size l -> 0 < size (sequences l n).
Proof. intros H. induction n as [|n IH]; [now cbn|]. rewrite size_seq_S. nia. Qed.
Lemma adv_ext n D E : (forall vs, D vs = E vs) -> adv n D = adv n E.
Proof. intros H. unfold adv, cT, cU. rewrite (count_ext_ D E) by exact H. rewrite (count_ext_ (fun ts => D (map f ts)) (fun ts => E (map f ts))) by (intros; apply H). reflexivity. Qed.
Lemma hybrid k : forall D, exists i j xs post, (i + j = k)%nat /\ In xs (sequences T i) /\ In post (sequences U j) /\
  adv (S k) D <= Z.of_nat (S k) * (size (sequences T k) * size (sequences U k)) * adv 1 (fun vs => D (map f xs ++ vs ++ post)).
Proof.
  induction k as [|k IH]; intros D.
  - exists 0%nat, 0%nat, [], []. split; [reflexivity|]. split; [now left|]. split; [now left|].
    rewrite (adv_ext 1 D (fun vs => D (map f [] ++ vs ++ []))) by (intros; cbn [map app]; now rewrite app_nil_r).
    cbn [sequences]. change (size [[]]) with 1. lia.
  - pose proof (step (S k) D) as S1.
    destruct (lsum_max (fun x => adv (S k) (fun vs => D (f x :: vs))) T HT) as (x & Ix & Hx).
    destruct (lsum_max (fun z => adv 1 (fun vs => D (vs ++ z))) (sequences U (S k)) (size_seq_pos U (S k) HU)) as (z & Iz & Hz).
    destruct (IH (fun vs => D (f x :: vs))) as (i & j & xs & post & E & I1 & I2 & B).
    set (a := adv 1 (fun vs => D (f x :: map f xs ++ vs ++ post))) in *.
    set (b := adv 1 (fun vs => D (vs ++ z))) in *.
    assert (TOT : adv (S (S k)) D <= (size (sequences T (S k)) * size (sequences U (S k))) * (Z.of_nat (S k) * a + b)).
    { rewrite !size_seq_S in *. pose proof (size_nonneg (sequences T k)) as P1. pose proof (size_nonneg (sequences U k)) as P2.
      set (l1 := lsum _ T) in *. set (l2 := lsum _ (sequences U (S k))) in *. set (NT := size (sequences T k)) in *. set (NU := size (sequences U k)) in *.
      set (A1 := adv (S k) (fun vs => D (f x :: vs))) in *. set (N := Z.of_nat (S k)) in *. set (t := size T) in *. set (u := size U) in *.
      assert (u * l1 <= u * (t * (N * (NT * NU) * a))) by (apply Z.mul_le_mono_nonneg_l; [lia|]; etransitivity; [exact Hx|]; apply Z.mul_le_mono_nonneg_l; [lia|exact B]).
      assert (t * NT * l2 <= t * NT * (u * NU * b)) by (apply Z.mul_le_mono_nonneg_l; [nia|exact Hz]).
      etransitivity; [exact S1|]. etransitivity; [apply Z.add_le_mono; eassumption|]. apply Z.eq_le_incl. ring. }
    assert (P : 0 <= size (sequences T (S k)) * size (sequences U (S k))) by (apply Z.mul_nonneg_nonneg; apply size_nonneg).
    assert (N : Z.of_nat (S (S k)) = Z.of_nat (S k) + 1) by lia.
    set (M := size (sequences T (S k)) * size (sequences U (S k))) in *.
    destruct (Z.le_ge_cases b a) as [L|L].
    + exists (S i), j, (x :: xs), post. split; [lia|]. split; [|split; [exact I2|]].
      * cbn [sequences]. apply in_flat_map. exists x. split; [exact Ix|]. apply in_map. exact I1.
      * cbn [map app]. fold a. rewrite N. clearbody M. nia.
    + exists 0%nat, (S k), [], z. split; [lia|]. split; [now left|]. split; [exact Iz|].
      cbn [map app]. fold b. rewrite N. assert (0 <= Z.of_nat (S k)) by lia. set (K := Z.of_nat (S k)) in *. clearbody M K.
      assert (M * (K * a) <= M * (K * b)) by (apply Z.mul_le_mono_nonneg_l; [exact P|]; apply Z.mul_le_mono_nonneg_l; assumption). lia.
Qed.
End Hybrid.
