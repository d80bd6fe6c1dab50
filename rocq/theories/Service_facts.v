(** The provenance of everything in a service. *)
From Verif Require Import Base Service Base_facts.
Local Open Scope Z_scope.

Lemma nth_error_upd_ne {A} (l : list A) i j x : i <> j -> nth_error (upd l i x) j = nth_error l j.
Proof. revert i j. induction l as [|y l IH]; intros [|i] [|j] N; try reflexivity; [now destruct N|]. cbn [upd nth_error]. apply IH. congruence. Qed.
Lemma nth_error_upd_eq {A} (l : list A) i x : (i < length l)%nat -> nth_error (upd l i x) i = Some x.
Proof. revert i. induction l as [|y l IH]; intros [|i] H; cbn in *; try lia; [reflexivity|]. apply IH. lia. Qed.
Lemma nth_error_upd_some {A} (l : list A) i j x y : nth_error (upd l i x) j = Some y -> (i = j /\ y = x) \/ (i <> j /\ nth_error l j = Some y).
Proof.
  intros H. destruct (Nat.eq_dec i j) as [->|N]; [|right; split; [exact N|now rewrite nth_error_upd_ne in H by exact N]].
  left. split; [reflexivity|]. destruct (Nat.lt_ge_cases j (length l)) as [L|L]; [rewrite nth_error_upd_eq in H by exact L; congruence|].
  exfalso. assert (nth_error (upd l j x) j = None) by (apply nth_error_None; rewrite length_upd; exact L). congruence.
Qed.
Lemma nth_error_snoc {A} (l : list A) x j y : nth_error (l ++ [x]) j = Some y -> (j = length l /\ y = x) \/ nth_error l j = Some y.
Proof.
  intros H. destruct (Nat.lt_ge_cases j (length l)) as [L|L]; [right; now rewrite nth_error_app1 in H|].
  rewrite nth_error_app2 in H by exact L. destruct (j - length l)%nat as [|k] eqn:E; cbn in H; [left; split; [lia|congruence]|].
  destruct k; discriminate.
Qed.
Lemma nth_error_more {A} (l r : list A) j y : nth_error l j = Some y -> nth_error (l ++ r) j = Some y.
Proof. intros H. rewrite nth_error_app1; [exact H|]. apply nth_error_Some. congruence. Qed.

Section Service.
Context {R S X : Type}.
Variable M : mode R S X.
(** Which shards a place may hold, and what reading an answer must give. *)
Variable good : nat -> S -> Prop.
Variable correct : nat -> list Z -> X -> res (list Z) -> Prop.
Hypothesis join_fresh : forall s tape qp rest, m_join M s tape = Ok (qp, rest) -> qp_used qp = false.
Hypothesis ask_keeps : forall qp x, exists b, fst (m_ask M qp x) = set_used b qp.
Hypothesis ask_fresh : forall qp x qp' q, m_ask M qp x = (qp', Ok q) -> qp_used qp = false.
Hypothesis read_used : forall b qp x bytes, m_read M (set_used b qp) x bytes = m_read M qp x bytes.
Hypothesis round_trip : forall i s1 s2 tape qp rest x qp' q, good i s1 -> good i s2 ->
  m_join M s1 tape = Ok (qp, rest) -> m_ask M qp x = (qp', Ok q) ->
  exists bytes, m_respond M s2 q = Ok bytes /\ correct i tape x (m_read M qp x bytes).

Lemma set_used_twice a b qp : set_used a (set_used b qp) = set_used a qp.
Proof. reflexivity. Qed.
Lemma set_used_same qp : set_used (qp_used qp) qp = qp.
Proof. now destruct qp. Qed.

Record inv (v : service S X) : Prop := {
  inv_places : forall i s, nth_error (v_places v) i = Some (Some s) -> good i s;
  inv_clients : forall c qp i tape, nth_error (v_clients v) c = Some (qp, i, tape) ->
    exists s qp0 rest b, good i s /\ m_join M s tape = Ok (qp0, rest) /\ qp = set_used b qp0;
  inv_queries : forall k c x q, nth_error (v_queries v) k = Some (c, x, q) ->
    exists qp i tape qp', nth_error (v_clients v) c = Some (qp, i, tape) /\ m_ask M (set_used false qp) x = (qp', Ok q);
  inv_answers : forall a k i bytes, nth_error (v_answers v) a = Some (k, i, bytes) ->
    exists c x q s, nth_error (v_queries v) k = Some (c, x, q) /\ good i s /\ m_respond M s q = Ok bytes;
  inv_reads : forall c x a out, In (c, x, a, out) (v_reads v) ->
    exists qp i tape k j bytes, nth_error (v_clients v) c = Some (qp, i, tape) /\
      nth_error (v_answers v) a = Some (k, j, bytes) /\ out = m_read M qp x bytes }.

Lemma inv_empty n : inv (empty_service n).
Proof.
  constructor; cbn [empty_service v_places v_clients v_queries v_answers v_reads]; intros; try (destruct k; discriminate);
    try (destruct c; discriminate); try (destruct a; discriminate); try contradiction.
  exfalso. apply nth_error_In, repeat_spec in H. discriminate.
Qed.

Lemma inv_same_clients v cl : inv v -> length cl = length (v_clients v) ->
  (forall c qp i tape, nth_error (v_clients v) c = Some (qp, i, tape) -> exists b, nth_error cl c = Some (set_used b qp, i, tape)) ->
  inv (Build_service (v_places v) cl (v_queries v) (v_answers v) (v_reads v)).
Proof.
  intros [P C Q A RR] L H. constructor; cbn [v_places v_clients v_queries v_answers v_reads]; auto.
  - intros c qp i tape E. assert (HL : (c < length (v_clients v))%nat) by (rewrite <- L; apply nth_error_Some; congruence).
    destruct (nth_error (v_clients v) c) as [[[qp1 i1] t1]|] eqn:E1; [|apply nth_error_None in E1; lia].
    destruct (H _ _ _ _ E1) as (b & E2). rewrite E in E2. injection E2 as -> -> ->.
    destruct (C _ _ _ _ E1) as (s & qp0 & rest & b0 & G & J & ->). exists s, qp0, rest, b. auto.
  - intros k c x q E. destruct (Q _ _ _ _ E) as (qp & i & tape & qp' & E1 & E2). destruct (H _ _ _ _ E1) as (b & E3).
    exists (set_used b qp), i, tape, qp'. auto.
  - intros c x a out HI. destruct (RR _ _ _ _ HI) as (qp & i & tape & k & j & bytes & E1 & E2 & E3).
    destruct (H _ _ _ _ E1) as (b & E4). exists (set_used b qp), i, tape, k, j, bytes. rewrite read_used. auto.
Qed.

Lemma inv_step v e : inv v -> (forall i r s, e = Build i r -> m_build M r = Ok s -> (i < length (v_places v))%nat -> good i s) -> inv (v_step M v e).
Proof.
  intros I HB. destruct e as [i r|i tape|c|c b|c x|k i|c x a]; cbn [v_step].
  - destruct (m_build M r) as [s| | |] eqn:E; try exact I. destruct I as [P C Q A RR].
    constructor; cbn [v_places v_clients v_queries v_answers v_reads]; auto. intros j s' H.
    assert (HL : (j < length (v_places v))%nat) by (rewrite <- (length_upd (v_places v) i (Some s)); apply nth_error_Some; congruence).
    apply nth_error_upd_some in H as [[-> H]|[_ H]]; [|now apply P]. injection H as ->. eapply HB; eauto.
  - destruct (nth_error (v_places v) i) as [[s|]|] eqn:E; try exact I.
    destruct (m_join M s tape) as [[qp rest]| | |] eqn:J; try exact I. destruct I as [P C Q A RR].
    constructor; cbn [v_places v_clients v_queries v_answers v_reads]; auto.
    + intros c qp1 i1 t1 H. apply nth_error_snoc in H as [[_ H]|H]; [|now apply (C c)]. injection H as -> -> ->.
      exists s, qp, rest, false. split; [now apply P|]. split; [exact J|].
      rewrite <- (join_fresh _ _ _ _ J). symmetry. apply set_used_same.
    + intros k c x q H. destruct (Q _ _ _ _ H) as (qp1 & i1 & t1 & qp' & E1 & E2).
      exists qp1, i1, t1, qp'. split; [now apply nth_error_more|exact E2].
    + intros c x a out H. destruct (RR _ _ _ _ H) as (qp1 & i1 & t1 & k & j & bytes & E1 & E2 & E3).
      exists qp1, i1, t1, k, j, bytes. split; [now apply nth_error_more|auto].
  - destruct (nth_error (v_clients v) c) as [[[qp i] t]|] eqn:E; try exact I. destruct I as [P C Q A RR].
    constructor; cbn [v_places v_clients v_queries v_answers v_reads]; auto.
    + intros c1 qp1 i1 t1 H. apply nth_error_snoc in H as [[_ H]|H]; [|now apply (C c1)]. injection H as -> -> ->. now apply (C c).
    + intros k c1 x q H. destruct (Q _ _ _ _ H) as (qp1 & i1 & t1 & qp' & E1 & E2).
      exists qp1, i1, t1, qp'. split; [now apply nth_error_more|exact E2].
    + intros c1 x a out H. destruct (RR _ _ _ _ H) as (qp1 & i1 & t1 & k & j & bytes & E1 & E2 & E3).
      exists qp1, i1, t1, k, j, bytes. split; [now apply nth_error_more|auto].
  - destruct (nth_error (v_clients v) c) as [[[qp i] t]|] eqn:E; try exact I.
    apply inv_same_clients; [exact I|apply length_upd|]. intros c1 qp1 i1 t1 H.
    destruct (Nat.eq_dec c c1) as [<-|N].
    + rewrite E in H. injection H as <- <- <-. exists b. apply nth_error_upd_eq, nth_error_Some. congruence.
    + exists (qp_used qp1). rewrite nth_error_upd_ne, set_used_same by exact N. exact H.
  - destruct (nth_error (v_clients v) c) as [[[qp i] t]|] eqn:E; try exact I.
    destruct (m_ask M qp x) as [qp' r] eqn:EA.
    assert (HU : exists b, qp' = set_used b qp) by (destruct (ask_keeps qp x) as (b & Hb); rewrite EA in Hb; exists b; exact Hb).
    destruct HU as (b & ->).
    assert (I' : inv (Build_service (v_places v) (upd (v_clients v) c (set_used b qp, i, t)) (v_queries v) (v_answers v) (v_reads v))).
    { apply inv_same_clients; [exact I|apply length_upd|]. intros c1 qp1 i1 t1 H. destruct (Nat.eq_dec c c1) as [<-|N].
      + rewrite E in H. injection H as <- <- <-. exists b. apply nth_error_upd_eq, nth_error_Some. congruence.
      + exists (qp_used qp1). rewrite nth_error_upd_ne, set_used_same by exact N. exact H. }
    destruct r as [q| | |]; try (rewrite app_nil_r; exact I'). clear I. destruct I' as [P C Q A RR].
    cbn [v_places v_clients v_queries v_answers v_reads] in *.
    constructor; cbn [v_places v_clients v_queries v_answers v_reads]; auto.
    + intros k c1 x1 q1 H. apply nth_error_snoc in H as [[_ H]|H]; [|now apply (Q k)]. injection H as -> -> ->.
      exists (set_used b qp), i, t, (set_used b qp). split; [apply nth_error_upd_eq, nth_error_Some; congruence|].
      rewrite set_used_twice, <- (ask_fresh _ _ _ _ EA), set_used_same. exact EA.
    + intros a k j bytes H. destruct (A _ _ _ _ H) as (c1 & x1 & q1 & s & H1 & H2 & H3). exists c1, x1, q1, s.
      split; [now apply nth_error_more|auto].
  - destruct (nth_error (v_queries v) k) as [[[c x] q]|] eqn:E; try exact I.
    destruct (nth_error (v_places v) i) as [[s|]|] eqn:EP; try exact I.
    destruct (m_respond M s q) as [bytes| | |] eqn:ER; try exact I. destruct I as [P C Q A RR].
    constructor; cbn [v_places v_clients v_queries v_answers v_reads]; auto.
    + intros a k1 i1 b1 H. apply nth_error_snoc in H as [[_ H]|H]; [|now apply (A a)]. injection H as -> -> ->.
      exists c, x, q, s. auto.
    + intros c1 x1 a out H. destruct (RR _ _ _ _ H) as (qp1 & i1 & t1 & k1 & j & b1 & E1 & E2 & E3).
      exists qp1, i1, t1, k1, j, b1. split; [exact E1|]. split; [now apply nth_error_more|auto].
  - destruct (nth_error (v_clients v) c) as [[[qp i] t]|] eqn:E; try exact I.
    destruct (nth_error (v_answers v) a) as [[[k j] bytes]|] eqn:EA; try exact I. destruct I as [P C Q A RR].
    constructor; cbn [v_places v_clients v_queries v_answers v_reads]; auto.
    intros c1 x1 a1 out H. apply in_app_or in H as [H|[H|[]]]; [now apply (RR _ _ _ _ H)|]. injection H as -> -> -> <-.
    exists qp, i, t, k, j, bytes. auto.
Qed.

Lemma places_step v e : length (v_places (v_step M v e)) = length (v_places v).
Proof.
  destruct e as [i r|i tape|c|c b|c x|k i|c x a]; cbn [v_step].
  - destruct (m_build M r); try reflexivity. apply length_upd.
  - destruct (nth_error (v_places v) i) as [[s|]|]; try reflexivity. destruct (m_join M s tape) as [[? ?]| | |]; reflexivity.
  - destruct (nth_error (v_clients v) c); reflexivity.
  - destruct (nth_error (v_clients v) c) as [[[? ?] ?]|]; reflexivity.
  - destruct (nth_error (v_clients v) c) as [[[? ?] ?]|]; try reflexivity. destruct (m_ask M _ x); reflexivity.
  - destruct (nth_error (v_queries v) k) as [[[? ?] ?]|]; try reflexivity.
    destruct (nth_error (v_places v) i) as [[s|]|]; try reflexivity. destruct (m_respond M s _); reflexivity.
  - destruct (nth_error (v_clients v) c) as [[[? ?] ?]|]; try reflexivity. destruct (nth_error (v_answers v) a) as [[[? ?] ?]|]; reflexivity.
Qed.

Lemma inv_run es : forall v, inv v ->
  (forall i r s, In (Build i r) es -> m_build M r = Ok s -> (i < length (v_places v))%nat -> good i s) -> inv (v_run M v es).
Proof.
  unfold v_run. induction es as [|e es IH]; intros v I HB; [exact I|]. cbn [fold_left]. apply IH.
  - apply inv_step; [exact I|]. intros i r s -> E L. apply (HB i r s); [now left|exact E|exact L].
  - intros i r s HI E L. rewrite places_step in L. apply (HB i r s); [now right|exact E|exact L].
Qed.

(** Every answer to a client's own query, given by the place its parameters came from, reads
    correctly; and every such query is answered. *)
Lemma service_correct n es :
  (forall i r s, In (Build i r) es -> m_build M r = Ok s -> (i < n)%nat -> good i s) ->
  let v := v_run M (empty_service n) es in
  (forall c x a out k i bytes q qp tape, In (c, x, a, out) (v_reads v) ->
     nth_error (v_answers v) a = Some (k, i, bytes) -> nth_error (v_queries v) k = Some (c, x, q) ->
     nth_error (v_clients v) c = Some (qp, i, tape) -> correct i tape x out) /\
  (forall c x k q qp i tape s, nth_error (v_queries v) k = Some (c, x, q) ->
     nth_error (v_clients v) c = Some (qp, i, tape) -> nth_error (v_places v) i = Some (Some s) ->
     exists bytes, m_respond M s q = Ok bytes).
Proof.
  intros HB v. assert (I : inv v).
  { apply inv_run; [apply inv_empty|]. cbn [empty_service v_places]. rewrite repeat_length. exact HB. }
  clearbody v. split.
  - intros c x a out k i bytes q qp tape HR HA HQ HC.
    destruct (inv_reads _ I _ _ _ _ HR) as (qp1 & i1 & t1 & k1 & j1 & b1 & E1 & E2 & ->).
    rewrite HC in E1. injection E1 as <- <- <-. rewrite HA in E2. injection E2 as <- <- <-.
    destruct (inv_answers _ I _ _ _ _ HA) as (c2 & x2 & q2 & s2 & E3 & G2 & ER). rewrite HQ in E3. injection E3 as <- <- <-.
    destruct (inv_queries _ I _ _ _ _ HQ) as (qp3 & i3 & t3 & qp' & E4 & EQ). rewrite HC in E4. injection E4 as <- <- <-.
    destruct (inv_clients _ I _ _ _ _ HC) as (s1 & qp0 & rest & b & G1 & J & ->).
    rewrite set_used_twice, <- (join_fresh _ _ _ _ J), set_used_same in EQ.
    destruct (round_trip i s1 s2 tape qp0 rest x qp' q G1 G2 J EQ) as (bytes' & ER' & CO).
    rewrite ER in ER'. injection ER' as <-. now rewrite read_used.
  - intros c x k q qp i tape s HQ HC HP.
    destruct (inv_queries _ I _ _ _ _ HQ) as (qp3 & i3 & t3 & qp' & E4 & EQ). rewrite HC in E4. injection E4 as <- <- <-.
    destruct (inv_clients _ I _ _ _ _ HC) as (s1 & qp0 & rest & b & G1 & J & ->).
    rewrite set_used_twice, <- (join_fresh _ _ _ _ J), set_used_same in EQ.
    destruct (round_trip i s1 s tape qp0 rest x qp' q G1 (inv_places _ I _ _ HP) J EQ) as (bytes' & ER' & CO). eauto.
Qed.
End Service.
