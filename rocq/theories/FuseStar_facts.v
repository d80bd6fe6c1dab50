(** Fuse filters: key sets that force a table (stars), and the slots of a hash. *)
From Coq Require Import Permutation.
From Verif Require Import Base Hash Xorf Float64 Fuse SpecFilter SpecXorf SpecRate Base_facts HashInj_facts Window_facts Peel_facts KeyPeel_facts Fuse_facts Rate_facts Claims_fuse Claims_rate Claims_anysize Claims_xorrate Claims_bfuserate.
Local Open Scope Z_scope.

Lemma finite_choice {A} (P : nat -> A -> Prop) (d : A) n : (forall i, (i < n)%nat -> exists x, P i x) ->
  exists f, forall i, (i < n)%nat -> P i (f i).
Proof.
  induction n as [|n IH]; intros H; [exists (fun _ => d); intros; lia|].
  destruct IH as (f & Hf); [intros; apply H; lia|]. destruct (H n ltac:(lia)) as (x & Hx).
  exists (fun i => if Nat.eqb i n then x else f i). intros i Hi. destruct (Nat.eqb_spec i n) as [->|]; [exact Hx|apply Hf; lia].
Qed.

(** ** Walking through a box of multiples *)
Section WALK.
Variables M W A B X Y : Z.
Hypothesis HW : 0 < W.
(** From every point of the box a step of at most [W] leads to another one. *)
Hypothesis STEP : forall x y, 0 <= x < X -> 0 <= y < Y ->
  exists p q d k, 0 <= x + q < X /\ 0 <= y + p < Y /\ 0 < d <= W /\ A * p + B * q = d + k * M.

Lemma walk : forall n R x y, 0 <= R < Z.of_nat n -> 0 <= x < X -> 0 <= y < Y ->
  exists x' y' r k, 0 <= x' < X /\ 0 <= y' < Y /\ 0 <= r < W /\ A * y' + B * x' = A * y + B * x + R - r + k * M.
Proof.
  induction n as [|n IH]; intros R x y HR Hx Hy; [lia|].
  destruct (Z.lt_ge_cases R W) as [L|L].
  - exists x, y, R, 0. repeat split; try lia.
  - destruct (STEP x y Hx Hy) as (p & q & d & k & H1 & H2 & H3 & H4).
    destruct (IH (R - d) (x + q) (y + p) ltac:(lia) H1 H2) as (x' & y' & r & k' & G1 & G2 & G3 & G4).
    exists x', y', r, (k + k'). split; [exact G1|]. split; [exact G2|]. split; [exact G3|].
    rewrite G4. clear - H4. replace (A * (y + p)) with (A * y + A * p) by ring. replace (B * (x + q)) with (B * x + B * q) by ring. lia.
Qed.

Lemma walk_hits E c : 0 < M -> 0 < X -> 0 < Y -> 0 <= c -> (c + 1) * W <= M ->
  exists x y, 0 <= x < X /\ 0 <= y < Y /\ (E + A * y + B * x) mod M / W = c.
Proof.
  intros HM HX HY Hc HcM.
  pose proof (Z.mod_pos_bound (c * W + W - 1 - E) M HM) as RB. pose proof (Z.div_mod (c * W + W - 1 - E) M ltac:(lia)) as RD.
  set (R := (c * W + W - 1 - E) mod M) in *. set (Q := (c * W + W - 1 - E) / M) in *. clearbody R Q.
  destruct (walk (Z.to_nat (R + 1)) R 0 0 ltac:(rewrite Z2Nat.id; lia) ltac:(lia) ltac:(lia)) as (x & y & r & k & Hx & Hy & Hr & EQ).
  exists x, y. split; [exact Hx|]. split; [exact Hy|].
  assert (E1 : E + A * y + B * x = (k - Q) * M + (c * W + (W - 1 - r))).
  { replace ((k - Q) * M) with (k * M - M * Q) by ring. clear - EQ RD. lia. }
  assert (E2 : (E + A * y + B * x) mod M = c * W + (W - 1 - r)).
  { symmetry. apply (Z.mod_unique_pos _ _ (k - Q)); [|rewrite E1; ring]. assert (0 <= c * W) by (apply Z.mul_nonneg_nonneg; lia). lia. }
  rewrite E2. symmetry. apply (Z.div_unique_pos _ _ _ (W - 1 - r)); lia.
Qed.
End WALK.

(** ** Stars: keys that force a table, for every third segment *)
Section STARS.
Variables (sl w : nat) (N X Y : Z) (mk : Z -> Z -> Z -> Z -> Z -> Z) (F G : Z -> Z).
Hypothesis HN : Z.of_nat sl = N.
Hypothesis N1 : 1 < N.
Hypothesis HX : 0 < X.
Hypothesis HY : 0 < Y.
Hypothesis OK : forall j a b x y, 0 <= j < 30 -> 0 <= a < N -> 0 <= b < N -> 0 <= x < X -> 0 <= y < Y ->
  is_u64 (mk j a b x y) /\ Z.of_nat (fs1 sl (mk j a b x y)) = 3 * (j * N) + a /\
  Z.of_nat (fs2 sl (mk j a b x y)) = 3 * (j * N) + N + b /\
  (exists c, 0 <= c < N /\ Z.of_nat (fs3 sl (mk j a b x y)) = 3 * (j * N) + 2 * N + c) /\
  fingerprint w (mk j a b x y) = Z.lxor (F a) (G b).
Hypothesis COV : forall j c, 0 <= j < 30 -> 0 <= c < N -> exists x y, 0 <= x < X /\ 0 <= y < Y /\
  Z.of_nat (fs3 sl (mk j 0 0 x y)) = 3 * (j * N) + 2 * N + c.
Hypothesis INJ : forall j a b x y j' a' b' x' y',
  0 <= j < 30 -> 0 <= a < N -> 0 <= b < N -> 0 <= x < X -> 0 <= y < Y ->
  0 <= j' < 30 -> 0 <= a' < N -> 0 <= b' < N -> 0 <= x' < X -> 0 <= y' < Y ->
  mk j a b x y = mk j' a' b' x' y' -> j = j' /\ a = a' /\ b = b' /\ x = x' /\ y = y'.

Definition star_len : Z := 3 * N - 2.
(** The [i]-th hash: a ray of the star, in one of the three segments. *)
Definition star_spec (i : nat) (h : Z) : Prop :=
  let j := Z.of_nat i / star_len in let t := Z.of_nat i mod star_len in
  (t < N - 1 /\ h = mk j (t + 1) 0 0 0) \/
  (N - 1 <= t < 2 * N - 2 /\ h = mk j 0 (t - N + 2) 0 0) \/
  (2 * N - 2 <= t /\ exists x y, 0 <= x < X /\ 0 <= y < Y /\ h = mk j 0 0 x y /\
     Z.of_nat (fs3 sl h) = 3 * (j * N) + 2 * N + (t - 2 * N + 2)).

Lemma star_index i : Z.of_nat i < 30 * star_len ->
  exists j t, Z.of_nat i / star_len = j /\ Z.of_nat i mod star_len = t /\ Z.of_nat i = j * star_len + t /\ 0 <= j < 30 /\ 0 <= t < 3 * N - 2.
Proof.
  intros Hi. exists (Z.of_nat i / star_len), (Z.of_nat i mod star_len). unfold star_len in *.
  pose proof (Z.div_mod (Z.of_nat i) (3 * N - 2) ltac:(lia)) as D. pose proof (Z.mod_pos_bound (Z.of_nat i) (3 * N - 2) ltac:(lia)) as B.
  split; [reflexivity|]. split; [reflexivity|]. split; [lia|]. split; [|exact B].
  split; [apply Z.div_pos; lia|apply Z.div_lt_upper_bound; lia].
Qed.

Lemma star_exists n : Z.of_nat n <= 30 * star_len -> exists key, forall i, (i < n)%nat -> star_spec i (key i).
Proof.
  intros Hn. apply (finite_choice star_spec 0). intros i Hi. unfold star_spec. cbv zeta.
  destruct (star_index i ltac:(lia)) as (j & t & Ej & Et & _ & Hj & Ht). rewrite Ej, Et.
  destruct (Z.lt_ge_cases t (N - 1)) as [L|L]; [eexists; left; split; [exact L|reflexivity]|].
  destruct (Z.lt_ge_cases t (2 * N - 2)) as [L2|L2]; [eexists; right; left; split; [lia|reflexivity]|].
  destruct (COV j (t - 2 * N + 2) Hj ltac:(lia)) as (x & y & Hx & Hy & E).
  exists (mk j 0 0 x y). right. right. split; [exact L2|]. exists x, y. auto.
Qed.

(** The three slots of a ray; the last conjunct is its own slot. *)
Lemma star_slots i h j t : star_spec i h -> Z.of_nat i / star_len = j -> Z.of_nat i mod star_len = t -> 0 <= j < 30 -> 0 <= t < 3 * N - 2 ->
  is_u64 h /\
  Z.of_nat (fs1 sl h) = 3 * (j * N) + (if t <? N - 1 then t + 1 else 0) /\
  Z.of_nat (fs2 sl h) = 3 * (j * N) + N + (if t <? N - 1 then 0 else if t <? 2 * N - 2 then t - N + 2 else 0) /\
  (exists c, 0 <= c < N /\ Z.of_nat (fs3 sl h) = 3 * (j * N) + 2 * N + c /\ (2 * N - 2 <= t -> c = t - 2 * N + 2)).
Proof.
  intros S Ej Et Hj Ht. unfold star_spec in S. cbv zeta in S. rewrite Ej, Et in S.
  destruct S as [[L ->]|[[L ->]|(L & x & y & Hx & Hy & -> & E)]].
  - destruct (OK j (t + 1) 0 0 0 Hj ltac:(lia) ltac:(lia) ltac:(lia) ltac:(lia)) as (U & E1 & E2 & (c & Hc & E3) & _).
    rewrite (proj2 (Z.ltb_lt _ _)) by lia. split; [exact U|]. split; [exact E1|]. split; [exact E2|]. exists c. split; [exact Hc|]. split; [exact E3|lia].
  - destruct (OK j 0 (t - N + 2) 0 0 Hj ltac:(lia) ltac:(lia) ltac:(lia) ltac:(lia)) as (U & E1 & E2 & (c & Hc & E3) & _).
    rewrite (proj2 (Z.ltb_ge t (N - 1))) by lia. rewrite (proj2 (Z.ltb_lt t (2 * N - 2))) by lia.
    split; [exact U|]. split; [exact E1|]. split; [exact E2|]. exists c. split; [exact Hc|]. split; [exact E3|lia].
  - destruct (OK j 0 0 x y Hj ltac:(lia) ltac:(lia) Hx Hy) as (U & E1 & E2 & _).
    rewrite (proj2 (Z.ltb_ge t (N - 1))) by lia. rewrite (proj2 (Z.ltb_ge t (2 * N - 2))) by lia.
    split; [exact U|]. split; [exact E1|]. split; [exact E2|]. exists (t - 2 * N + 2). split; [lia|]. split; [exact E|lia].
Qed.

Definition star_slot (i : nat) : nat :=
  let j := Z.of_nat i / star_len in let t := Z.of_nat i mod star_len in
  Z.to_nat (3 * (j * N) + (if t <? N - 1 then t + 1 else if t <? 2 * N - 2 then N + (t - N + 2) else 2 * N + (t - 2 * N + 2))).

Lemma star_peels n key : Z.of_nat n <= 30 * star_len -> (forall i, (i < n)%nat -> star_spec i (key i)) ->
  peels (fs1 sl) (fs2 sl) (fs3 sl) (map key (seq 0 n)).
Proof.
  intros Hn HK. apply (ordered_peels _ _ _ _ star_slot).
  - intros i Hi. apply inc_iff. destruct (star_index i ltac:(lia)) as (j & t & Ej & Et & _ & Hj & Ht).
    destruct (star_slots i (key i) j t (HK i ltac:(lia)) Ej Et Hj Ht) as (_ & E1 & E2 & c & Hc & E3 & Ec).
    unfold star_slot. cbv zeta. rewrite Ej, Et. assert (P0 : 0 <= j * N) by (apply Z.mul_nonneg_nonneg; lia).
    set (P := j * N) in *. clearbody P.
    destruct (Z.ltb_spec t (N - 1)) as [L|L]; [left; lia|]. destruct (Z.ltb_spec t (2 * N - 2)) as [L2|L2]; [right; left; lia|]. right. right.
    specialize (Ec L2). lia.
  - intros i i' Hii Hi'.
    destruct (star_index i ltac:(lia)) as (j & t & Ej & Et & D & Hj & Ht). destruct (star_index i' ltac:(lia)) as (j' & t' & Ej' & Et' & D' & Hj' & Ht').
    destruct (star_slots i' (key i') j' t' (HK i' ltac:(lia)) Ej' Et' Hj' Ht') as (_ & E1 & E2 & c & Hc & E3 & Ec).
    assert (O : j * N + N <= j' * N \/ j = j' /\ t < t').
    { assert (LE : j <= j') by (rewrite <- Ej, <- Ej'; apply Z.div_le_mono; [unfold star_len; lia|lia]).
      destruct (Z.eq_dec j j') as [->|NE]; [right; split; [reflexivity|lia]|left].
      replace (j * N + N) with ((j + 1) * N) by ring. apply Z.mul_le_mono_nonneg_r; lia. }
    unfold star_slot. cbv zeta. rewrite Ej, Et. assert (P0 : 0 <= j * N) by (apply Z.mul_nonneg_nonneg; lia).
    assert (O' : j * N + N <= j' * N \/ j * N = j' * N /\ t < t') by (destruct O as [O|[-> O]]; auto). clear O D D' Ej Et Ej' Et' Hii Hi'.
    set (P := j * N) in *. set (P' := j' * N) in *. clearbody P P'.
    apply inc_not; intros EE; apply (f_equal Z.of_nat) in EE; rewrite Z2Nat.id in EE by (destruct (t <? N - 1), (t <? 2 * N - 2); lia);
      rewrite ?E1, ?E2, ?E3 in EE; clear E1 E2 E3;
      destruct (Z.ltb_spec t (N - 1)), (Z.ltb_spec t (2 * N - 2)), (Z.ltb_spec t' (N - 1)), (Z.ltb_spec t' (2 * N - 2)); lia.
Qed.

(** Every table that answers for the rays of a full star answers for all its hashes. *)
Lemma star_in n key (J : Z) : J * star_len <= Z.of_nat n -> (forall i, (i < n)%nat -> star_spec i (key i)) ->
  forall j, 0 <= j < J -> forall t, 0 <= t < 3 * N - 2 -> exists h, In h (map key (seq 0 n)) /\
  ((t < N - 1 /\ h = mk j (t + 1) 0 0 0) \/ (N - 1 <= t < 2 * N - 2 /\ h = mk j 0 (t - N + 2) 0 0) \/
   (2 * N - 2 <= t /\ exists x y, 0 <= x < X /\ 0 <= y < Y /\ h = mk j 0 0 x y /\ Z.of_nat (fs3 sl h) = 3 * (j * N) + 2 * N + (t - 2 * N + 2))).
Proof.
  intros Hn HK j Hj t Ht. unfold star_len in *.
  assert (B : (j + 1) * (3 * N - 2) <= J * (3 * N - 2)) by (apply Z.mul_le_mono_nonneg_r; lia).
  assert (B0 : 0 <= j * (3 * N - 2)) by (apply Z.mul_nonneg_nonneg; lia).
  set (i := Z.to_nat (j * (3 * N - 2) + t)).
  assert (Ei : Z.of_nat i = j * (3 * N - 2) + t) by (unfold i; apply Z2Nat.id; lia).
  assert (Hi : (i < n)%nat) by lia.
  exists (key i). split; [apply in_map, in_seq; lia|].
  pose proof (HK i Hi) as S. unfold star_spec, star_len in S. cbv zeta in S. rewrite Ei in S.
  replace ((j * (3 * N - 2) + t) / (3 * N - 2)) with j in S by (apply (Z.div_unique_pos _ _ _ t); lia).
  replace ((j * (3 * N - 2) + t) mod (3 * N - 2)) with t in S by (apply (Z.mod_unique_pos _ _ j); lia). exact S.
Qed.

Lemma star_force n key J fps : J * star_len <= Z.of_nat n -> J <= 30 -> (forall i, (i < n)%nat -> star_spec i (key i)) ->
  (forall h, In h (map key (seq 0 n)) -> x3 (fs1 sl) (fs2 sl) (fs3 sl) fps h = fingerprint w h) ->
  forall j a b x y, 0 <= j < J -> 0 <= a < N -> 0 <= b < N -> 0 <= x < X -> 0 <= y < Y ->
  x3 (fs1 sl) (fs2 sl) (fs3 sl) fps (mk j a b x y) = fingerprint w (mk j a b x y).
Proof.
  intros Hn HJ HK HX3 j a b x y Hj Ha Hb Hx Hy. assert (Hj' : 0 <= j < 30) by lia.
  set (T := fun k => nth (Z.to_nat k) fps 0).
  assert (V : forall a b x y, 0 <= a < N -> 0 <= b < N -> 0 <= x < X -> 0 <= y < Y ->
    x3 (fs1 sl) (fs2 sl) (fs3 sl) fps (mk j a b x y) =
    Z.lxor (Z.lxor (T (3 * (j * N) + a)) (T (3 * (j * N) + N + b))) (T (Z.of_nat (fs3 sl (mk j a b x y))))).
  { intros a' b' x' y' Ha' Hb' Hx' Hy'. destruct (OK j a' b' x' y' Hj' Ha' Hb' Hx' Hy') as (_ & E1 & E2 & _).
    unfold x3, T. rewrite <- E1, <- E2, !Nat2Z.id. reflexivity. }
  assert (FP : forall a b x y, 0 <= a < N -> 0 <= b < N -> 0 <= x < X -> 0 <= y < Y -> fingerprint w (mk j a b x y) = Z.lxor (F a) (G b)).
  { intros a' b' x' y' Ha' Hb' Hx' Hy'. apply (OK j a' b' x' y' Hj' Ha' Hb' Hx' Hy'). }
  assert (H3 : forall a b x y, 0 <= a < N -> 0 <= b < N -> 0 <= x < X -> 0 <= y < Y ->
    exists c, 0 <= c < N /\ Z.of_nat (fs3 sl (mk j a b x y)) = 3 * (j * N) + 2 * N + c).
  { intros a' b' x' y' Ha' Hb' Hx' Hy'. apply (OK j a' b' x' y' Hj' Ha' Hb' Hx' Hy'). }
  (* third slots *)
  assert (TC : forall c, 0 <= c < N -> Z.lxor (Z.lxor (T (3 * (j * N) + 0)) (T (3 * (j * N) + N + 0))) (T (3 * (j * N) + 2 * N + c)) = Z.lxor (F 0) (G 0)).
  { intros c Hc. destruct (star_in n key J Hn HK j Hj (c + 2 * N - 2) ltac:(lia)) as (h & Hin & [[? _]|[[? _]|(_ & x' & y' & Hx' & Hy' & -> & E)]]); [lia|lia|].
    specialize (HX3 _ Hin). rewrite V, FP in HX3 by lia. rewrite E in HX3.
    replace (c + 2 * N - 2 - 2 * N + 2) with c in HX3 by lia. exact HX3. }
  assert (TA : forall a, 0 <= a < N -> exists c, 0 <= c < N /\ Z.lxor (Z.lxor (T (3 * (j * N) + a)) (T (3 * (j * N) + N + 0))) (T (3 * (j * N) + 2 * N + c)) = Z.lxor (F a) (G 0)).
  { intros a' Ha'. destruct (Z.eq_dec a' 0) as [->|NZ]; [exists 0; split; [lia|apply TC; lia]|].
    destruct (star_in n key J Hn HK j Hj (a' - 1) ltac:(lia)) as (h & Hin & [[? ->]|[[? _]|(? & _)]]); [|lia|lia].
    replace (a' - 1 + 1) with a' in Hin by lia.
    specialize (HX3 _ Hin). rewrite V, FP in HX3 by lia. destruct (H3 a' 0 0 0 Ha' ltac:(lia) ltac:(lia) ltac:(lia)) as (c & Hc & E).
    rewrite E in HX3. exists c. split; assumption. }
  assert (TB : forall b, 0 <= b < N -> exists c, 0 <= c < N /\ Z.lxor (Z.lxor (T (3 * (j * N) + 0)) (T (3 * (j * N) + N + b))) (T (3 * (j * N) + 2 * N + c)) = Z.lxor (F 0) (G b)).
  { intros b' Hb'. destruct (Z.eq_dec b' 0) as [->|NZ]; [exists 0; split; [lia|apply TC; lia]|].
    destruct (star_in n key J Hn HK j Hj (b' + N - 2) ltac:(lia)) as (h & Hin & [[? _]|[[? ->]|(? & _)]]); [lia| |lia].
    replace (b' + N - 2 - N + 2) with b' in Hin by lia.
    specialize (HX3 _ Hin). rewrite V, FP in HX3 by lia. destruct (H3 0 b' 0 0 ltac:(lia) Hb' ltac:(lia) ltac:(lia)) as (c & Hc & E).
    rewrite E in HX3. exists c. split; assumption. }
  rewrite V, FP by assumption. destruct (H3 a b x y Ha Hb Hx Hy) as (c & Hc & ->).
  destruct (TA a Ha) as (ca & Hca & EA). destruct (TB b Hb) as (cb & Hcb & EB).
  pose proof (TC c Hc) as EC. pose proof (TC ca Hca) as ECa. pose proof (TC cb Hcb) as ECb. clear - EA EB EC ECa ECb.
  revert EA EB EC ECa ECb. generalize (T (3 * (j * N) + a)) (T (3 * (j * N) + N + b)) (T (3 * (j * N) + 0)) (T (3 * (j * N) + N + 0))
    (T (3 * (j * N) + 2 * N + c)) (T (3 * (j * N) + 2 * N + ca)) (T (3 * (j * N) + 2 * N + cb)) (F a) (F 0) (G b) (G 0).
  intros a1 a2 a3 a4 a5 a6 a7 a8 a9 b1 b2 EA EB EC ECa ECb. apply Z.bits_inj. intros k.
  apply (f_equal (fun z => Z.testbit z k)) in EA, EB, EC, ECa, ECb. rewrite !Z.lxor_spec in *.
  destruct (Z.testbit a1 k), (Z.testbit a2 k), (Z.testbit a3 k), (Z.testbit a4 k), (Z.testbit a5 k), (Z.testbit a6 k), (Z.testbit a7 k), (Z.testbit a8 k), (Z.testbit a9 k), (Z.testbit b1 k), (Z.testbit b2 k); cbn in *; congruence.
Qed.

(** How many hashes there are in the first [J] stars. *)
Lemma star_count (P : Z -> bool) J : 0 <= J <= 30 ->
  (forall j a b x y, 0 <= j < J -> 0 <= a < N -> 0 <= b < N -> 0 <= x < X -> 0 <= y < Y -> P (mk j a b x y) = true) ->
  J * N * N * X * Y <= how_many P (2 ^ 64).
Proof.
  intros HJ HP. assert (NN : N <> 0) by lia. assert (NX : X <> 0) by lia. assert (NY : Y <> 0) by lia.
  set (f := fun e => mk (e / Y / X / N / N) (e / Y / X / N mod N) (e / Y / X mod N) (e / Y mod X) (e mod Y)).
  assert (R : forall e, 0 <= e < J * N * N * X * Y -> 0 <= e / Y / X / N / N < J /\ 0 <= e / Y / X / N mod N < N /\ 0 <= e / Y / X mod N < N /\ 0 <= e / Y mod X < X /\ 0 <= e mod Y < Y).
  { intros e He. split; [|repeat split; apply Z.mod_pos_bound; lia].
    split; [repeat (apply Z.div_pos; [|lia]); lia|]. repeat (apply Z.div_lt_upper_bound; [lia|]).
    replace (Y * (X * (N * (N * J)))) with (J * N * N * X * Y) by ring. apply He. }
  apply (how_many_inject P f).
  - repeat apply Z.mul_nonneg_nonneg; lia.
  - intros e He. destruct (R e He) as (R1 & R2 & R3 & R4 & R5). assert (R1' : 0 <= e / Y / X / N / N < 30) by (split; [apply R1|eapply Z.lt_le_trans; [apply R1|apply HJ]]).
    destruct (OK _ _ _ _ _ R1' R2 R3 R4 R5) as (U & _). exact U.
  - intros e e' He He' E. destruct (R e He) as (R1 & R2 & R3 & R4 & R5). destruct (R e' He') as (Q1 & Q2 & Q3 & Q4 & Q5).
    assert (R1' : 0 <= e / Y / X / N / N < 30) by (split; [apply R1|eapply Z.lt_le_trans; [apply R1|apply HJ]]). assert (Q1' : 0 <= e' / Y / X / N / N < 30) by (split; [apply Q1|eapply Z.lt_le_trans; [apply Q1|apply HJ]]).
    destruct (INJ _ _ _ _ _ _ _ _ _ _ R1' R2 R3 R4 R5 Q1' Q2 Q3 Q4 Q5 E) as (D1 & D2 & D3 & D4 & D5).
    assert (G1 : e / Y / X / N = e' / Y / X / N) by (rewrite (Z.div_mod (e / Y / X / N) N NN), (Z.div_mod (e' / Y / X / N) N NN), D1, D2; reflexivity).
    assert (G2 : e / Y / X = e' / Y / X) by (rewrite (Z.div_mod (e / Y / X) N NN), (Z.div_mod (e' / Y / X) N NN), G1, D3; reflexivity).
    assert (G3 : e / Y = e' / Y) by (rewrite (Z.div_mod (e / Y) X NX), (Z.div_mod (e' / Y) X NX), G2, D4; reflexivity).
    rewrite (Z.div_mod e Y NY), (Z.div_mod e' Y NY), G3, D5. reflexivity.
  - intros e He. destruct (R e He) as (R1 & R2 & R3 & R4 & R5). exact (HP _ _ _ _ _ R1 R2 R3 R4 R5).
Qed.

Lemma star_keys n J : Z.of_nat n < 2 ^ 32 -> fuse_segment_length n = sl -> 0 <= J <= 30 -> J * star_len <= Z.of_nat n <= 30 * star_len ->
  exists keys, length keys = n /\ NoDup keys /\ Forall is_u64 keys /\
  forall max_iter dbg rnd, (0 < max_iter)%nat ->
    exists f, fuse_from_impl max_iter w dbg rnd keys = Ok f /\
      forall dbg', J * N * N * X * Y - Z.of_nat (length keys) <= false_positives (fuse_contains w dbg' f) keys.
Proof.
  intros Hn32 Hsl HJ Hn.
  destruct (star_exists n ltac:(lia)) as (key & HK).
  set (keys := map (fun i => unmix (key i) (retry_seed 0)) (seq 0 n)). exists keys.
  assert (L : length keys = n) by (unfold keys; now rewrite map_length, seq_length).
  assert (E : fhs keys (retry_seed 0) = map key (seq 0 n)).
  { unfold fhs, keys. rewrite map_map. apply map_ext_in. intros i Hi. apply in_seq in Hi. apply mix_unmix.
    destruct (star_index i ltac:(lia)) as (j & t & Ej & Et & _ & Hj & Ht).
    exact (proj1 (star_slots i (key i) j t (HK i ltac:(lia)) Ej Et Hj Ht)). }
  pose proof (star_peels n key ltac:(lia) HK) as PP.
  assert (ND : NoDup keys).
  { pose proof (apeels_nodup _ _ _ _ PP) as Q. rewrite <- E in Q. unfold fhs in Q. now apply NoDup_map_inv in Q. }
  split; [exact L|]. split; [exact ND|]. split.
  { apply Forall_forall. intros k Hk. unfold keys in Hk. apply in_map_iff in Hk. destruct Hk as (i & <- & _). unfold unmix. apply Z.mod_pos_bound. reflexivity. }
  intros mi dbg rnd Hmi. clearbody keys. subst n.
  assert (Hs0 : (0 < fuse_segment_length (length keys))%nat) by (rewrite Hsl; lia).
  pose proof (fuse_sl_small _ Hn32) as Hsm.
  destruct (fuse_construct dbg keys Hs0 Hsm Hn32 mi w rnd (fun _ => ND)) as [(i & fps & Hi & Lf & _ & HV & NP & EE)|[_ NN]].
  2:{ exfalso. apply (NN 0%nat Hmi). rewrite E, Hsl. exact PP. }
  assert (i = 0%nat).
  { destruct i as [|i]; [reflexivity|]. exfalso. apply (NP 0%nat); [lia|]. rewrite E, Hsl. exact PP. }
  subst i. rewrite Hsl in *. eexists. split; [exact EE|]. intros dbg'.
  assert (HX3 : forall h, In h (map key (seq 0 (length keys))) -> x3 (fs1 sl) (fs2 sl) (fs3 sl) fps h = fingerprint w h).
  { intros h Hh. rewrite <- E in Hh. unfold fhs in Hh. apply in_map_iff in Hh. destruct Hh as (k & <- & Hk). apply HV, Hk. }
  set (f := {| ff_seed := retry_seed 0; ff_segment_length := sl; ff_fingerprints := fps |}).
  assert (ACC : J * N * N * X * Y <= how_many (fun k => says_yes (fuse_contains w dbg' f k)) (2 ^ 64)).
  { rewrite (how_many_ext _ (fun k => (fun h => fingerprint w h =? x3 (fs1 sl) (fs2 sl) (fs3 sl) fps h) (mix k (retry_seed 0)))).
    2:{ intros k Hk. unfold f. rewrite (fuse_contains_x3 w dbg' sl (retry_seed 0) fps k) by assumption. cbn [says_yes].
        destruct (_ =? _); reflexivity. }
    rewrite (how_many_inj (fun h => fingerprint w h =? x3 (fs1 sl) (fs2 sl) (fs3 sl) fps h) (fun k => mix k (retry_seed 0)) (2 ^ 64)).
    - apply star_count; [exact HJ|]. intros j a b x y Hj Ha Hb Hx Hy. apply Z.eqb_eq. symmetry.
      apply (star_force (length keys) key J fps); try assumption; lia.
    - intros x Hx. pose proof (mix_is_u64 x (retry_seed 0)) as V. unfold is_u64, two64 in V. lia.
    - intros x y Hx Hy. apply mix_inj; unfold is_u64, two64; lia. }
  pose proof (accepted_false_positives (fuse_contains w dbg' f) keys) as FPS.
  set (acc := how_many _ _) in *. set (fpc := false_positives _ _) in *. clearbody acc fpc. clear - ACC FPS. lia.
Qed.
End STARS.

(** ** The hashes *)
Lemma rot21 h : is_u64 h -> rotl64 h 21 mod two32 = h mod 2 ^ 11 * 2 ^ 21 + h / 2 ^ 43.
Proof.
  intros Hh. destruct (fields_of h Hh) as (x & y & z & t & u & v & R & ->). rewrite window21 by exact R.
  destruct R as (R1 & R2 & R3 & R4 & R5 & R6).
  replace (fields x y z t u v mod 2 ^ 11) with z by (apply (Z.mod_unique_pos _ _ (t * 2 ^ 43 + u * 2 ^ 32 + v * 2 ^ 21 + x * 2 ^ 11 + y)); unfold fields; lia).
  replace (fields x y z t u v / 2 ^ 43) with (t * 2 ^ 11 + u) by (apply (Z.div_unique_pos _ _ _ (v * 2 ^ 32 + x * 2 ^ 22 + y * 2 ^ 11 + z)); unfold fields; lia).
  lia.
Qed.
Lemma rot42 h : is_u64 h -> rotl64 h 42 mod two32 = h / 2 ^ 22 mod 2 ^ 32.
Proof.
  intros Hh. destruct (fields_of h Hh) as (x & y & z & t & u & v & R & ->). rewrite window42 by exact R.
  destruct R as (R1 & R2 & R3 & R4 & R5 & R6).
  replace (fields x y z t u v / 2 ^ 22) with (t * 2 ^ 32 + u * 2 ^ 21 + v * 2 ^ 10 + x) by (apply (Z.div_unique_pos _ _ _ (y * 2 ^ 11 + z)); unfold fields; lia).
  apply (Z.mod_unique_pos _ _ t); lia.
Qed.
Lemma mul_win h : Z.shiftr (wmul64 H3 h) 32 mod two32 = (H3 * h) mod 2 ^ 64 / 2 ^ 32.
Proof.
  unfold wmul64. rewrite Z.shiftr_div_pow2 by lia. change two64 with (2 ^ 64). apply Z.mod_small.
  pose proof (Z.mod_pos_bound (H3 * h) (2 ^ 64) ltac:(lia)). unfold two32. split; [apply Z.div_pos; lia|apply Z.div_lt_upper_bound; lia].
Qed.
Lemma foff_pow sl r k : Z.of_nat sl = 2 ^ k -> 0 <= k <= 32 -> 0 <= r -> Z.of_nat (foff sl r) = r / 2 ^ (32 - k).
Proof.
  intros E Hk Hr. unfold foff. rewrite E, Z.shiftr_div_pow2 by lia.
  replace (2 ^ 32) with (2 ^ (32 - k) * 2 ^ k) by (rewrite <- Z.pow_add_r by lia; f_equal; lia).
  assert (0 < 2 ^ k) by (apply Z.pow_pos_nonneg; lia). assert (0 < 2 ^ (32 - k)) by (apply Z.pow_pos_nonneg; lia).
  rewrite Z.div_mul_cancel_r by lia. apply Z2Nat.id. apply Z.div_pos; lia.
Qed.
Lemma fingerprint_halves w h : fingerprint w h = Z.lxor (h mod 2 ^ Z.of_nat w) (h / 2 ^ 32 mod 2 ^ Z.of_nat w).
Proof.
  unfold fingerprint. rewrite Z.shiftr_div_pow2 by lia. rewrite <- !Z.land_ones by lia. apply Z.bits_inj. intros k.
  rewrite !Z.land_spec, !Z.lxor_spec, !Z.land_spec. destruct (Z.testbit h k), (Z.testbit (h / 2 ^ 32) k), (Z.testbit (Z.ones (Z.of_nat w)) k); reflexivity.
Qed.
Lemma slots_of sl k h s lo hi : Z.of_nat sl = 2 ^ k -> 0 <= k <= 32 -> is_u64 h -> h = hi * 2 ^ 32 + lo -> 0 <= lo < 2 ^ 32 ->
  0 <= s -> s * 2 ^ 32 <= lo * 100 < (s + 1) * 2 ^ 32 ->
  Z.of_nat (fs1 sl h) = s * 2 ^ k + (h mod 2 ^ 11 * 2 ^ 21 + h / 2 ^ 43) / 2 ^ (32 - k) /\
  Z.of_nat (fs2 sl h) = s * 2 ^ k + 2 ^ k + h / 2 ^ 22 mod 2 ^ 32 / 2 ^ (32 - k) /\
  Z.of_nat (fs3 sl h) = s * 2 ^ k + 2 * 2 ^ k + (H3 * h) mod 2 ^ 64 / 2 ^ 32 / 2 ^ (32 - k).
Proof.
  intros Esl Hk Hu Eh Hlo Hs0 Hseg.
  assert (ES : Z.of_nat (fseg h) = s).
  { unfold fseg. change two32 with (2 ^ 32). replace (h mod 2 ^ 32) with lo by (apply (Z.mod_unique_pos _ _ hi); lia).
    rewrite Z.shiftr_div_pow2 by lia. change (Z.of_nat SEGMENT_COUNT) with 100.
    replace (lo * 100 / 2 ^ 32) with s by (apply (Z.div_unique_pos _ _ _ (lo * 100 - s * 2 ^ 32)); lia). apply Z2Nat.id. lia. }
  unfold fs1, fs2, fs3. rewrite rot21, rot42, mul_win by exact Hu. rewrite !Nat2Z.inj_add, !Nat2Z.inj_mul, !Nat2Z.inj_add, ES, Esl.
  unfold is_u64, two64 in Hu.
  rewrite !(foff_pow sl _ k Esl Hk).
  - change (Z.of_nat 1) with 1. change (Z.of_nat 2) with 2. repeat split; ring.
  - apply Z.div_pos; [apply Z.mod_pos_bound; lia|lia].
  - apply Z.mod_pos_bound. lia.
  - pose proof (Z.mod_pos_bound h (2 ^ 11) ltac:(lia)). assert (0 <= h / 2 ^ 43) by (apply Z.div_pos; lia). lia.
Qed.
