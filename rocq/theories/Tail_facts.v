(** * Tail_facts: a Chernoff bound for ternary noise, in integers. *)
From Verif Require Import Base Spec Experiment Base_facts.
Local Open Scope Z_scope.

Section Cosh.
Variables p q : Z.
Hypothesis Hq : 0 < q.
Hypothesis Hpq : q <= p.
Let P := p * p.
Let R := p * q.
Let Q := q * q.
Definition N3 (d : nat) : Z := P ^ Z.of_nat d + R ^ Z.of_nat d + Q ^ Z.of_nat d.

Lemma pos_P : 0 < P. Proof. unfold P. nia. Qed.
Lemma pos_R : 0 < R. Proof. unfold R. nia. Qed.
Lemma pos_Q : 0 < Q. Proof. unfold Q. nia. Qed.

Lemma pw_pos : forall a (n : nat), 0 < a -> 0 < a ^ Z.of_nat n.
Proof. intros. apply Z.pow_pos_nonneg; lia. Qed.

Lemma pw_S : forall a (n : nat), a ^ Z.of_nat (S n) = a * a ^ Z.of_nat n.
Proof. intros. rewrite Nat2Z.inj_succ, Z.pow_succ_r by lia. reflexivity. Qed.

Lemma N3_pos : forall d, 0 < N3 d.
Proof.
  intros d. unfold N3. pose proof (pw_pos P d pos_P). pose proof (pw_pos R d pos_R). pose proof (pw_pos Q d pos_Q). lia.
Qed.

Lemma RR_PQ : R * R = P * Q.
Proof. unfold P, Q, R. ring. Qed.

Lemma pw_RR : forall d : nat, R ^ Z.of_nat d * R ^ Z.of_nat d = P ^ Z.of_nat d * Q ^ Z.of_nat d.
Proof. intros d. rewrite <- !Z.pow_mul_l, RR_PQ. reflexivity. Qed.

Lemma am_gm : forall a b r, 0 <= a -> 0 <= b -> 0 <= r -> r * r = a * b -> 2 * r <= a + b.
Proof.
  intros a b r Ha Hb Hr E. pose proof (Z.square_nonneg (a - b)) as H0.
  assert (H4 : (2 * r) * (2 * r) <= (a + b) * (a + b)) by nia.
  apply Z.square_le_simpl_nonneg; [lia|exact H4].
Qed.

Lemma two_R : forall d : nat, 2 * R ^ Z.of_nat d <= P ^ Z.of_nat d + Q ^ Z.of_nat d.
Proof.
  intros d. pose proof (pw_pos P d pos_P). pose proof (pw_pos R d pos_R). pose proof (pw_pos Q d pos_Q).
  apply am_gm; try lia. apply pw_RR.
Qed.

Lemma poly_ineq : forall r R0 u v, 0 <= r -> 0 <= R0 -> 0 <= u -> 0 <= v ->
  let al := 2 * r + u in let be := 2 * R0 + v in
  9 * (R0 * R0 * (al * al) + be * be * (r * r) + R0 * r * (al * be) - 3 * (R0 * R0) * (r * r))
  <= (al + r) * (al + r) * ((be + R0) * (be + R0)).
Proof.
  intros r R0 u v Hr HR Hu Hv. cbv zeta.
  set (D := (2 * r + u + r) * (2 * r + u + r) * ((2 * R0 + v + R0) * (2 * R0 + v + R0)) -
    9 * (R0 * R0 * ((2 * r + u) * (2 * r + u)) + (2 * R0 + v) * (2 * R0 + v) * (r * r) + R0 * r * ((2 * r + u) * (2 * R0 + v)) - 3 * (R0 * R0) * (r * r))).
  assert (E : D = 27 * (r * R0 * (u * v)) + 6 * (R0 * v * (u * u)) + 6 * (r * u * (v * v)) + (u * u) * (v * v)) by (unfold D; ring).
  assert (0 <= r * R0 * (u * v)) by (repeat apply Z.mul_nonneg_nonneg; assumption).
  assert (0 <= R0 * v * (u * u)) by (repeat apply Z.mul_nonneg_nonneg; assumption).
  assert (0 <= r * u * (v * v)) by (repeat apply Z.mul_nonneg_nonneg; assumption).
  assert (0 <= u * u * (v * v)) by (repeat apply Z.mul_nonneg_nonneg; assumption).
  unfold D in *. lia.
Qed.

(** Log-concavity of the moment generating function along squares. *)
Lemma N3_step : forall d, 9 * (R * R) * (N3 (S (S d)) * N3 d) <= N3 (S d) * N3 (S d) * (N3 1 * N3 1).
Proof.
  intros d. pose proof (two_R (S d)) as T1. pose proof (two_R 1) as T2. pose proof (pw_RR (S d)) as E1.
  pose proof RR_PQ as E0. pose proof (pw_pos R (S d) pos_R) as G1. pose proof pos_R as G2.
  unfold N3. change (Z.of_nat 1) with 1 in *. rewrite !Z.pow_1_r in *.
  set (u := P ^ Z.of_nat (S d)) in *. set (r := R ^ Z.of_nat (S d)) in *. set (w := Q ^ Z.of_nat (S d)) in *.
  assert (A : P ^ Z.of_nat (S (S d)) + R ^ Z.of_nat (S (S d)) + Q ^ Z.of_nat (S (S d)) = P * u + R * r + Q * w).
  { rewrite !(pw_S _ (S d)). fold u r w. reflexivity. }
  assert (B : R * R * (P ^ Z.of_nat d + R ^ Z.of_nat d + Q ^ Z.of_nat d) = Q * u + R * r + P * w).
  { unfold u, r, w. rewrite !pw_S, E0. replace (R * (R * R ^ Z.of_nat d)) with (R * R * R ^ Z.of_nat d) by ring. rewrite E0. ring. }
  rewrite A. clearbody u r w.
  replace (9 * (R * R) * ((P * u + R * r + Q * w) * (P ^ Z.of_nat d + R ^ Z.of_nat d + Q ^ Z.of_nat d)))
    with (9 * ((P * u + R * r + Q * w) * (R * R * (P ^ Z.of_nat d + R ^ Z.of_nat d + Q ^ Z.of_nat d)))) by ring.
  rewrite B. clear A B.
  pose proof (poly_ineq r R (u + w - 2 * r) (P + Q - 2 * R) ltac:(lia) ltac:(lia) ltac:(lia) ltac:(lia)) as I.
  cbv zeta in I.
  replace (2 * r + (u + w - 2 * r)) with (u + w) in I by ring. replace (2 * R + (P + Q - 2 * R)) with (P + Q) in I by ring.
  assert (E : (P * u + R * r + Q * w) * (Q * u + R * r + P * w)
    = R * R * ((u + w) * (u + w)) + (P + Q) * (P + Q) * (r * r) + R * r * ((u + w) * (P + Q)) - 3 * (R * R) * (r * r)).
  { transitivity (P * Q * (u * u + w * w) + (P * P + Q * Q) * (u * w) + R * r * ((u + w) * (P + Q)) + R * R * (r * r)); [ring|].
    rewrite E0, E1. ring. }
  rewrite E. eapply Z.le_trans; [exact I|]. apply Z.eq_le_incl. ring.
Qed.

Lemma N3_ratio : forall d, N3 (S d) * (3 * R) ^ Z.of_nat (2 * d + 1) <= N3 d * R * N3 1 ^ Z.of_nat (2 * d + 1).
Proof.
  induction d as [|d IH].
  - cbn [Nat.mul Nat.add]. change (Z.of_nat 1) with 1. rewrite !Z.pow_1_r.
    assert (N3 0 = 3) as -> by (unfold N3; reflexivity). lia.
  - replace (2 * S d + 1)%nat with (S (S (2 * d + 1))) by lia. rewrite !pw_S.
    set (a := (3 * R) ^ Z.of_nat (2 * d + 1)) in *. set (b := N3 1 ^ Z.of_nat (2 * d + 1)) in *.
    pose proof (N3_pos d) as P0. pose proof (N3_pos (S d)) as P1. pose proof (N3_pos 1) as P2. pose proof pos_R as PR.
    pose proof (N3_step d) as ST.
    assert (Pa : 0 < a) by (apply pw_pos; lia).
    apply (Z.mul_le_mono_pos_r _ _ (N3 d) P0).
    apply Z.le_trans with (N3 (S d) * (N3 1 * N3 1) * (N3 (S d) * a)).
    + replace (N3 (S (S d)) * (3 * R * (3 * R * a)) * N3 d) with (9 * (R * R) * (N3 (S (S d)) * N3 d) * a) by ring.
      replace (N3 (S d) * (N3 1 * N3 1) * (N3 (S d) * a)) with (N3 (S d) * N3 (S d) * (N3 1 * N3 1) * a) by ring.
      apply Z.mul_le_mono_nonneg_r; [lia|exact ST].
    + replace (N3 (S d) * R * (N3 1 * (N3 1 * b)) * N3 d) with (N3 (S d) * (N3 1 * N3 1) * (N3 d * R * b)) by ring.
      apply Z.mul_le_mono_nonneg_l; [|exact IH].
      apply Z.mul_nonneg_nonneg; [lia|apply Z.mul_nonneg_nonneg; lia].
Qed.

(** [(1 + 2 cosh (d t)) / 3 <= ((1 + 2 cosh t) / 3) ^ (d^2)] with [p / q = e^t]. *)
Lemma N3_bound : forall d, N3 d * (3 * R) ^ Z.of_nat (d * d) <= 3 * R ^ Z.of_nat d * N3 1 ^ Z.of_nat (d * d).
Proof.
  induction d as [|d IH].
  - cbn [Nat.mul]. unfold N3. cbn. lia.
  - replace (S d * S d)%nat with ((2 * d + 1) + d * d)%nat by lia.
    rewrite Nat2Z.inj_add, !Z.pow_add_r by lia.
    set (a := (3 * R) ^ Z.of_nat (2 * d + 1)) in *. set (b := N3 1 ^ Z.of_nat (2 * d + 1)) in *.
    set (a' := (3 * R) ^ Z.of_nat (d * d)) in *. set (b' := N3 1 ^ Z.of_nat (d * d)) in *.
    rewrite pw_S. pose proof (N3_ratio d) as RT. fold a b in RT.
    pose proof pos_R as PR. pose proof (N3_pos 1) as P2.
    assert (0 < a') by (apply pw_pos; lia). assert (0 < b) by (apply pw_pos; lia).
    apply Z.le_trans with (R * b * (N3 d * a')).
    + replace (N3 (S d) * (a * a')) with (N3 (S d) * a * a') by ring.
      replace (R * b * (N3 d * a')) with (N3 d * R * b * a') by ring. apply Z.mul_le_mono_nonneg_r; [lia|exact RT].
    + replace (3 * (R * R ^ Z.of_nat d) * (b * b')) with (R * b * (3 * R ^ Z.of_nat d * b')) by ring.
      apply Z.mul_le_mono_nonneg_l; [apply Z.mul_nonneg_nonneg; lia|exact IH].
Qed.

(** The weight of an error value against a coefficient [d]: [R^d * (p/q)^(e*d)]. *)
Definition wt (e d : Z) : Z :=
  if e =? 1 then P ^ d else if e =? -1 then Q ^ d else R ^ d.

Lemma wt_pos : forall e d, 0 <= d -> 0 < wt e d.
Proof.
  intros e d Hd. unfold wt. pose proof pos_P. pose proof pos_Q. pose proof pos_R.
  destruct (e =? 1); [apply Z.pow_pos_nonneg; lia|]. destruct (e =? -1); apply Z.pow_pos_nonneg; lia.
Qed.

Fixpoint wts (e d : list Z) : Z :=
  match e, d with x :: e', y :: d' => wt x y * wts e' d' | _, _ => 1 end.
Fixpoint sum (l : list Z) : Z := match l with [] => 0 | x :: t => x + sum t end.
Definition tern (x : Z) : Prop := x = 0 \/ x = 1 \/ x = -1.

Lemma sum_nonneg : forall l, Forall (fun x => 0 <= x) l -> 0 <= sum l.
Proof. induction 1; cbn [sum]; lia. Qed.

Lemma dot_bound : forall e d, length e = length d -> Forall tern e -> Forall (fun x => 0 <= x) d ->
  - sum d <= dot e d <= sum d.
Proof.
  induction e as [|x e IH]; intros [|y d] HL He Hd; cbn [length] in HL; try discriminate; cbn [dot sum]; [lia|].
  apply Forall_cons_iff in He, Hd. destruct He as [Hx He], Hd as [Hy Hd].
  specialize (IH d ltac:(lia) He Hd). destruct Hx as [-> | [-> | ->]]; lia.
Qed.

Lemma wts_value : forall e d, length e = length d -> Forall tern e -> Forall (fun x => 0 <= x) d ->
  wts e d = p ^ (sum d + dot e d) * q ^ (sum d - dot e d).
Proof.
  induction e as [|x e IH]; intros [|y d] HL He Hd; cbn [length] in HL; try discriminate; cbn [wts sum dot]; [reflexivity|].
  apply Forall_cons_iff in He, Hd. destruct He as [Hx He], Hd as [Hy Hd].
  pose proof (dot_bound e d ltac:(lia) He Hd) as B.
  rewrite IH by (auto; lia). unfold wt, P, Q, R. destruct Hx as [-> | [-> | ->]]; cbn [Z.eqb Pos.eqb].
  - replace (y + sum d + (0 * y + dot e d)) with (y + (sum d + dot e d)) by ring.
    replace (y + sum d - (0 * y + dot e d)) with (y + (sum d - dot e d)) by ring.
    set (s1 := sum d + dot e d) in *. set (s2 := sum d - dot e d) in *.
    assert (0 <= s1) by (unfold s1; lia). assert (0 <= s2) by (unfold s2; lia). clearbody s1 s2.
    rewrite !Z.pow_add_r by lia. rewrite Z.pow_mul_l. ring.
  - replace (y + sum d + (1 * y + dot e d)) with (y + y + (sum d + dot e d)) by ring.
    replace (y + sum d - (1 * y + dot e d)) with (sum d - dot e d) by ring.
    set (s1 := sum d + dot e d) in *. set (s2 := sum d - dot e d) in *.
    assert (0 <= s1) by (unfold s1; lia). assert (0 <= s2) by (unfold s2; lia). clearbody s1 s2.
    rewrite !Z.pow_add_r by lia. rewrite Z.pow_mul_l. ring.
  - replace (y + sum d + (-1 * y + dot e d)) with (sum d + dot e d) by ring.
    replace (y + sum d - (-1 * y + dot e d)) with (y + y + (sum d - dot e d)) by ring.
    set (s1 := sum d + dot e d) in *. set (s2 := sum d - dot e d) in *.
    assert (0 <= s1) by (unfold s1; lia). assert (0 <= s2) by (unfold s2; lia). clearbody s1 s2.
    rewrite !Z.pow_add_r by lia. rewrite Z.pow_mul_l. ring.
Qed.

Lemma wts_large : forall e d B, length e = length d -> Forall tern e -> Forall (fun x => 0 <= x) d ->
  0 <= B <= dot e d -> p ^ B * R ^ sum d <= q ^ B * wts e d.
Proof.
  intros e d B HL He Hd HB. rewrite wts_value by auto. pose proof (dot_bound e d HL He Hd) as BD.
  set (D := sum d) in *. set (s := dot e d) in *. clearbody D s.
  unfold R. rewrite Z.pow_mul_l.
  replace (D + s) with (D + B + (s - B)) by ring. rewrite (Z.pow_add_r p (D + B)), (Z.pow_add_r p D) by lia.
  replace (q ^ D) with (q ^ B * q ^ (D - s) * q ^ (s - B)) by (rewrite <- !Z.pow_add_r by lia; f_equal; lia).
  replace (p ^ B * (p ^ D * (q ^ B * q ^ (D - s) * q ^ (s - B)))) with (p ^ B * p ^ D * q ^ B * q ^ (D - s) * q ^ (s - B)) by ring.
  replace (q ^ B * (p ^ D * p ^ B * p ^ (s - B) * q ^ (D - s))) with (p ^ B * p ^ D * q ^ B * q ^ (D - s) * p ^ (s - B)) by ring.
  apply Z.mul_le_mono_nonneg_l.
  - assert (0 < p) by lia. repeat apply Z.mul_nonneg_nonneg; apply Z.pow_nonneg; lia.
  - apply Z.pow_le_mono_l. lia.
Qed.

(** ** Sums over tapes *)
Variable ws : list Z.
Variable cls : Z -> Z.
Variable n0 n1 : Z.
Hypothesis Hn : 0 <= n1 <= n0.
Hypothesis Hcls : Forall (fun w => tern (cls w)) ws.
Definition nclass (v : Z) : Z := Z.of_nat (length (filter (fun w => cls w =? v) ws)).
Hypothesis C0 : nclass 0 = n0.
Hypothesis C1 : nclass 1 = n1.
Hypothesis C2 : nclass (-1) = n1.

Definition sumf {A} (f : A -> Z) (l : list A) : Z := sum (map f l).

Lemma sumf_app : forall A (f : A -> Z) l1 l2, sumf f (l1 ++ l2) = sumf f l1 + sumf f l2.
Proof. intros A f l1 l2. unfold sumf. induction l1 as [|x l1 IH]; cbn [app map sum]; [ring|]. unfold sumf in IH. lia. Qed.

Lemma sumf_scale : forall A (f : A -> Z) c l, sumf (fun x => c * f x) l = c * sumf f l.
Proof. intros A f c l. unfold sumf. induction l as [|x l IH]; cbn [map sum]; [ring|]. rewrite IH. ring. Qed.

Lemma sumf_ext : forall A (f g : A -> Z) l, (forall x, In x l -> f x = g x) -> sumf f l = sumf g l.
Proof. intros A f g l H. unfold sumf. f_equal. now apply map_ext_in. Qed.

Lemma class_sum : forall (g : Z -> Z),
  sumf (fun w => g (cls w)) ws = n0 * g 0 + n1 * g 1 + n1 * g (-1).
Proof.
  intros g. transitivity (nclass 0 * g 0 + nclass 1 * g 1 + nclass (-1) * g (-1)); [|rewrite C0, C1, C2; reflexivity].
  unfold nclass, sumf. clear C0 C1 C2.
  induction ws as [|w l IH]; [reflexivity|]. apply Forall_cons_iff in Hcls. destruct Hcls as [Hw Hl].
  cbn [map sum filter]. rewrite IH by exact Hl.
  destruct Hw as [E | [E | E]]; rewrite E; cbn [Z.eqb Pos.eqb]; cbn [length]; rewrite Nat2Z.inj_succ; ring.
Qed.

Definition vsum (d : Z) : Z := n0 * R ^ d + n1 * P ^ d + n1 * Q ^ d.

Lemma wts_sum : forall d, Forall (fun x => 0 <= x) d ->
  sumf (fun t => wts (map cls t) d) (tapes_over ws (length d)) = fold_right (fun x a => vsum x * a) 1 d.
Proof.
  induction d as [|y d IH]; intros Hd; [reflexivity|].
  apply Forall_cons_iff in Hd. destruct Hd as [Hy Hd]. cbn [length tapes_over fold_right].
  rewrite <- IH by exact Hd. generalize (tapes_over ws (length d)) as l. clear IH Hd.
  induction l as [|t l IHl]; [unfold sumf; cbn [flat_map map sum]; ring|].
  cbn [flat_map]. rewrite sumf_app, IHl.
  assert (E : sumf (fun t0 => wts (map cls t0) (y :: d)) (map (fun w => w :: t) ws) = vsum y * wts (map cls t) d).
  2:{ rewrite E. assert (EC : sumf (fun t0 => wts (map cls t0) d) (t :: l) = wts (map cls t) d + sumf (fun t0 => wts (map cls t0) d) l) by reflexivity.
      rewrite EC. ring. }
  unfold sumf. rewrite map_map. cbn [map wts]. fold (sumf (fun w => wt (cls w) y * wts (map cls t) d) ws).
  rewrite (sumf_ext _ _ (fun w => wts (map cls t) d * wt (cls w) y)) by (intros; ring). rewrite sumf_scale.
  rewrite (class_sum (fun e => wt e y)). unfold wt, vsum. cbn [Z.eqb Pos.eqb]. ring.
Qed.

Lemma vsum_bound : forall d : nat,
  vsum (Z.of_nat d) * (3 * R) ^ Z.of_nat (d * d) <= (n0 + 2 * n1) * R ^ Z.of_nat d * N3 1 ^ Z.of_nat (d * d).
Proof.
  intros d. pose proof (N3_bound d) as NB. pose proof (two_R d) as T. pose proof pos_R as PR.
  assert (A : 3 * vsum (Z.of_nat d) <= (n0 + 2 * n1) * N3 d).
  { unfold vsum, N3. set (r := R ^ Z.of_nat d) in *. set (u := P ^ Z.of_nat d) in *. set (w := Q ^ Z.of_nat d) in *.
    clearbody r u w. clear - T Hn. assert (0 <= (n0 - n1) * (u + w - 2 * r)) by (apply Z.mul_nonneg_nonneg; lia). nia. }
  assert (X : 0 < (3 * R) ^ Z.of_nat (d * d)) by (apply pw_pos; lia).
  set (x := (3 * R) ^ Z.of_nat (d * d)) in *. set (y := N3 1 ^ Z.of_nat (d * d)) in *. clearbody x y.
  apply (Z.mul_le_mono_pos_l _ _ 3); [lia|].
  apply Z.le_trans with ((n0 + 2 * n1) * (N3 d * x)).
  - replace (3 * (vsum (Z.of_nat d) * x)) with (3 * vsum (Z.of_nat d) * x) by ring.
    replace ((n0 + 2 * n1) * (N3 d * x)) with ((n0 + 2 * n1) * N3 d * x) by ring.
    apply Z.mul_le_mono_nonneg_r; [lia|exact A].
  - replace (3 * ((n0 + 2 * n1) * R ^ Z.of_nat d * y)) with ((n0 + 2 * n1) * (3 * R ^ Z.of_nat d * y)) by ring.
    apply Z.mul_le_mono_nonneg_l; [lia|exact NB].
Qed.

Definition sumsq (d : list Z) : Z := sum (map (fun x => x * x) d).

Lemma sumsq_nonneg : forall d, 0 <= sumsq d.
Proof. induction d as [|x d IH]; unfold sumsq in *; cbn [map sum]; nia. Qed.

Lemma vsum_pos : forall d, 0 <= d -> 0 <= vsum d.
Proof.
  intros d Hd. unfold vsum. pose proof pos_P. pose proof pos_Q. pose proof pos_R.
  assert (0 < P ^ d) by (apply Z.pow_pos_nonneg; lia). assert (0 < Q ^ d) by (apply Z.pow_pos_nonneg; lia).
  assert (0 < R ^ d) by (apply Z.pow_pos_nonneg; lia). nia.
Qed.

Lemma prod_bound : forall d, Forall (fun x => 0 <= x) d ->
  0 <= fold_right (fun x a => vsum x * a) 1 d /\
  fold_right (fun x a => vsum x * a) 1 d * (3 * R) ^ sumsq d
  <= (n0 + 2 * n1) ^ Z.of_nat (length d) * R ^ sum d * N3 1 ^ sumsq d.
Proof.
  induction d as [|y d IH]; intros Hd; [cbn; lia|].
  apply Forall_cons_iff in Hd. destruct Hd as [Hy Hd]. specialize (IH Hd). destruct IH as [IH0 IH].
  pose proof (vsum_pos y Hy) as VP. pose proof (sumsq_nonneg d) as SN. pose proof (sum_nonneg d Hd) as DN.
  cbn [fold_right length]. split; [apply Z.mul_nonneg_nonneg; assumption|].
  assert (ES : sumsq (y :: d) = y * y + sumsq d) by reflexivity. rewrite ES. clear ES. cbn [sum].
  rewrite pw_S. rewrite !Z.pow_add_r by nia.
  pose proof (vsum_bound (Z.to_nat y)) as VB. rewrite Nat2Z.inj_mul, !Z2Nat.id in VB by exact Hy.
  set (f := fold_right (fun x a => vsum x * a) 1 d) in *.
  set (x1 := (3 * R) ^ (y * y)) in *. set (x2 := (3 * R) ^ sumsq d) in *.
  set (y1 := N3 1 ^ (y * y)) in *. set (y2 := N3 1 ^ sumsq d) in *.
  pose proof pos_R as PR. pose proof (N3_pos 1) as PN.
  assert (0 < x1) by (apply Z.pow_pos_nonneg; nia). assert (0 < x2) by (apply Z.pow_pos_nonneg; lia).
  assert (0 < y1) by (apply Z.pow_pos_nonneg; nia). assert (0 < R ^ y) by (apply Z.pow_pos_nonneg; lia).
  apply Z.le_trans with ((vsum y * x1) * (f * x2)); [apply Z.eq_le_incl; ring|].
  apply Z.le_trans with ((n0 + 2 * n1) * R ^ y * y1 * (f * x2)).
  - apply Z.mul_le_mono_nonneg_r; [apply Z.mul_nonneg_nonneg; lia|exact VB].
  - apply Z.le_trans with ((n0 + 2 * n1) * R ^ y * y1 * ((n0 + 2 * n1) ^ Z.of_nat (length d) * R ^ sum d * y2)).
    + apply Z.mul_le_mono_nonneg_l; [|exact IH]. repeat apply Z.mul_nonneg_nonneg; lia.
    + apply Z.eq_le_incl. ring.
Qed.

Lemma tapes_spec : forall n t, In t (tapes_over ws n) -> length t = n /\ Forall (fun w => In w ws) t.
Proof.
  induction n as [|n IH]; intros t Ht; cbn [tapes_over] in Ht.
  - destruct Ht as [<-|[]]. auto.
  - apply in_flat_map in Ht. destruct Ht as (t' & Ht' & Hw). apply in_map_iff in Hw. destruct Hw as (w & <- & Hw).
    destruct (IH _ Ht') as [L F]. cbn [length]. auto.
Qed.

(** Number of tapes in a list on which F holds, bounded by a weighted sum. *)
Lemma markov : forall A (F : A -> bool) (g : A -> Z) c l, 0 <= c ->
  (forall t, In t l -> 0 <= g t) -> (forall t, In t l -> F t = true -> c <= g t) ->
  Z.of_nat (length (filter F l)) * c <= sumf g l.
Proof.
  intros A F g c l Hc Hg HF. unfold sumf. induction l as [|t l IH]; [cbn; lia|].
  cbn [filter map sum]. assert (IH' := IH (fun x h => Hg x (or_intror h)) (fun x h => HF x (or_intror h))).
  destruct (F t) eqn:E.
  - cbn [length]. rewrite Nat2Z.inj_succ. specialize (HF t (or_introl eq_refl) E). lia.
  - specialize (Hg t (or_introl eq_refl)). lia.
Qed.

Lemma wts_pos : forall e d, Forall (fun x => 0 <= x) d -> 0 < wts e d.
Proof.
  induction e as [|x e IH]; intros [|y d] Hd; cbn [wts]; try lia.
  apply Forall_cons_iff in Hd. destruct Hd as [Hy Hd]. specialize (IH d Hd). pose proof (wt_pos x y Hy). nia.
Qed.

Theorem tail_bound : forall (F : list Z -> bool) d B S, Forall (fun x => 0 <= x) d -> 0 <= B -> sumsq d <= S ->
  (forall t, In t (tapes_over ws (length d)) -> F t = true -> B <= dot (map cls t) d) ->
  Z.of_nat (length (filter F (tapes_over ws (length d)))) * p ^ B * (3 * R) ^ S
  <= q ^ B * (n0 + 2 * n1) ^ Z.of_nat (length d) * N3 1 ^ S.
Proof.
  intros F d B S Hd HB HS HF. set (k := Z.of_nat (length (filter F (tapes_over ws (length d))))).
  pose proof pos_R as PR. pose proof (N3_pos 1) as PN. pose proof (sumsq_nonneg d) as SN. pose proof (sum_nonneg d Hd) as DN.
  assert (K : k * (p ^ B * R ^ sum d) <= q ^ B * fold_right (fun x a => vsum x * a) 1 d).
  { rewrite <- wts_sum by exact Hd. rewrite <- sumf_scale. apply markov.
    - apply Z.mul_nonneg_nonneg; apply Z.pow_nonneg; lia.
    - intros t Ht. pose proof (wts_pos (map cls t) d Hd). apply Z.mul_nonneg_nonneg; [apply Z.pow_nonneg; lia|lia].
    - intros t Ht HFt. specialize (HF t Ht HFt). destruct (tapes_spec _ _ Ht) as [HL HI].
      apply wts_large; auto; [now rewrite map_length|].
      apply Forall_forall. intros x Hx. apply in_map_iff in Hx. destruct Hx as (w & <- & Hw).
      rewrite Forall_forall in HI, Hcls. auto. }
  destruct (prod_bound d Hd) as [V0 V]. set (v := fold_right (fun x a => vsum x * a) 1 d) in *.
  assert (PR' : 0 < R ^ sum d) by (apply Z.pow_pos_nonneg; lia).
  assert (QB : 0 < q ^ B) by (apply Z.pow_pos_nonneg; lia). assert (PB : 0 < p ^ B) by (apply Z.pow_pos_nonneg; lia).
  assert (X0 : 0 < (3 * R) ^ sumsq d) by (apply Z.pow_pos_nonneg; lia).
  assert (Main : k * p ^ B * (3 * R) ^ sumsq d <= q ^ B * (n0 + 2 * n1) ^ Z.of_nat (length d) * N3 1 ^ sumsq d).
  { apply (Z.mul_le_mono_pos_r _ _ (R ^ sum d) PR').
    apply Z.le_trans with (q ^ B * v * (3 * R) ^ sumsq d).
    - replace (k * p ^ B * (3 * R) ^ sumsq d * R ^ sum d) with (k * (p ^ B * R ^ sum d) * (3 * R) ^ sumsq d) by ring.
      apply Z.mul_le_mono_nonneg_r; [lia|exact K].
    - replace (q ^ B * v * (3 * R) ^ sumsq d) with (q ^ B * (v * (3 * R) ^ sumsq d)) by ring.
      replace (q ^ B * (n0 + 2 * n1) ^ Z.of_nat (length d) * N3 1 ^ sumsq d * R ^ sum d)
        with (q ^ B * ((n0 + 2 * n1) ^ Z.of_nat (length d) * R ^ sum d * N3 1 ^ sumsq d)) by ring.
      apply Z.mul_le_mono_nonneg_l; [lia|exact V]. }
  assert (N1 : 3 * R <= N3 1).
  { pose proof (two_R 1) as T. unfold N3. change (Z.of_nat 1) with 1 in *. rewrite !Z.pow_1_r in *. lia. }
  replace S with (sumsq d + (S - sumsq d)) by ring. rewrite !Z.pow_add_r by lia.
  set (z := S - sumsq d) in *. assert (Z1 : (3 * R) ^ z <= N3 1 ^ z) by (apply Z.pow_le_mono_l; lia).
  assert (Z0 : 0 < (3 * R) ^ z) by (apply Z.pow_pos_nonneg; lia).
  set (L := k * p ^ B * (3 * R) ^ sumsq d) in *. set (G := q ^ B * (n0 + 2 * n1) ^ Z.of_nat (length d) * N3 1 ^ sumsq d) in *.
  assert (G0 : 0 <= G).
  { unfold G. repeat apply Z.mul_nonneg_nonneg; apply Z.pow_nonneg; lia. }
  replace (k * p ^ B * ((3 * R) ^ sumsq d * (3 * R) ^ z)) with (L * (3 * R) ^ z) by (unfold L; ring).
  replace (q ^ B * (n0 + 2 * n1) ^ Z.of_nat (length d) * (N3 1 ^ sumsq d * N3 1 ^ z)) with (G * N3 1 ^ z) by (unfold G; ring).
  apply Z.le_trans with (G * (3 * R) ^ z).
  - apply Z.mul_le_mono_nonneg_r; [lia|exact Main].
  - apply Z.mul_le_mono_nonneg_l; [lia|exact Z1].
Qed.
End Cosh.
