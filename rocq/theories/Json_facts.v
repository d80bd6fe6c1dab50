(** * Json_facts: the JSON model: extension, fuel, round trip, torn texts, UTF-8. *)
From Verif Require Import Base Base_facts Json.
Local Open Scope Z_scope.

(** ** Extension: parsing looks only at what it consumes *)
Lemma skip_ws_ext s x c t : skip_ws s = c :: t -> skip_ws (s ++ x) = c :: t ++ x.
Proof.
  induction s as [|a s IH]; cbn [skip_ws app]; [discriminate|].
  destruct (is_ws a); auto. intros E. now inversion E.
Qed.
Lemma strip_ext lit : forall s r x, strip lit s = Some r -> strip lit (s ++ x) = Some (r ++ x).
Proof.
  induction lit as [|a l IH]; intros s r x; cbn [strip]; [congruence|].
  destruct s as [|c t]; [discriminate|]. cbn [app].
  destruct (a =? c); [auto|discriminate].
Qed.
Lemma take_digits_ext s : forall d r x, take_digits s = (d, r) -> r <> [] ->
  take_digits (s ++ x) = (d, r ++ x).
Proof.
  induction s as [|c s IH]; intros d r x; cbn [take_digits app].
  - intros E. inversion E. congruence.
  - destruct (is_digit c).
    + destruct (take_digits s) as [d' r'] eqn:E'. intros E. inversion E; subst. intros N.
      now rewrite (IH d' r x).
    + intros E _. inversion E. reflexivity.
Qed.
Lemma parse_frac_ext s b r x : parse_frac s = Some (b, r) -> r <> [] ->
  parse_frac (s ++ x) = Some (b, r ++ x).
Proof.
  unfold parse_frac. destruct s as [|c t]; cbn [app]; [intros E; inversion E; congruence|].
  destruct (c =? 46).
  - destruct (take_digits t) as [d r'] eqn:E'. destruct d as [|d0 dt]; [discriminate|].
    intros E. inversion E; subst. intros N. now rewrite (take_digits_ext _ _ _ x E' N).
  - intros E _. inversion E. reflexivity.
Qed.
Lemma parse_frac_nil s b r : parse_frac s = Some (b, r) -> r <> [] -> s <> [].
Proof. unfold parse_frac. destruct s; [intros E; inversion E; congruence|discriminate]. Qed.
Lemma take_digits_nil s d r : take_digits s = (d, r) -> r <> [] -> s <> [].
Proof. destruct s; [intros E; inversion E; congruence|discriminate]. Qed.
Lemma parse_exp_ext s b r x : parse_exp s = Some (b, r) -> r <> [] ->
  parse_exp (s ++ x) = Some (b, r ++ x).
Proof.
  unfold parse_exp. destruct s as [|c t]; cbn [app]; [intros E; inversion E; congruence|].
  destruct ((c =? 101) || (c =? 69)).
  - set (t' := match t with [] => t | x0 :: u => if (x0 =? 43) || (x0 =? 45) then u else t end).
    destruct (take_digits t') as [d r'] eqn:E'. destruct d as [|d0 dt]; [discriminate|].
    intros E. inversion E; subst. intros N.
    assert (T : match t ++ x with [] => t ++ x | x0 :: u => if (x0 =? 43) || (x0 =? 45) then u else t ++ x end
                = t' ++ x).
    { unfold t' in *. destruct t as [|x0 u]; cbn [app].
      - cbn [take_digits] in E'. discriminate.
      - destruct ((x0 =? 43) || (x0 =? 45)); reflexivity. }
    rewrite T. now rewrite (take_digits_ext _ _ _ x E' N).
  - intros E _. inversion E. reflexivity.
Qed.
Lemma parse_exp_nil s b r : parse_exp s = Some (b, r) -> r <> [] -> s <> [].
Proof. unfold parse_exp. destruct s; [intros E; inversion E; congruence|discriminate]. Qed.
Lemma parse_num_ext s v r x : parse_num s = Some (v, r) -> r <> [] ->
  parse_num (s ++ x) = Some (v, r ++ x).
Proof.
  unfold parse_num. intros E N.
  set (ns := match s with [] => (false, s) | c :: t => if c =? 45 then (true, t) else (false, s) end) in E.
  assert (S : match s ++ x with [] => (false, s ++ x)
              | c :: t => if c =? 45 then (true, t) else (false, s ++ x) end
              = (fst ns, snd ns ++ x)).
  { unfold ns. destruct s as [|c t]; cbn [app].
    - exfalso. cbn in E. discriminate.
    - destruct (c =? 45); reflexivity. }
  rewrite S. destruct ns as [neg s']. cbn [fst snd].
  destruct (take_digits s') as [d r1] eqn:E1. destruct d as [|d0 dt]; [discriminate|].
  destruct ((d0 =? 48) && _) eqn:Ez; [discriminate|].
  destruct (parse_frac r1) as [[fr r2]|] eqn:E2; [|discriminate].
  destruct (parse_exp r2) as [[ex r3]|] eqn:E3; [|discriminate].
  assert (r3 = r) by congruence. subst r3.
  assert (N2 : r2 <> []) by (eapply parse_exp_nil; eauto).
  assert (N1 : r1 <> []) by (eapply parse_frac_nil; eauto).
  rewrite (take_digits_ext _ _ _ x E1 N1). cbv iota beta. rewrite Ez.
  rewrite (parse_frac_ext _ _ _ x E2 N2), (parse_exp_ext _ _ _ x E3 N). congruence.
Qed.

Lemma hex4_ext s n t x : hex4 s = Some (n, t) -> hex4 (s ++ x) = Some (n, t ++ x).
Proof.
  destruct s as [|a [|b [|c [|d s]]]]; cbn [hex4 app]; try discriminate.
  destruct (hex_val a), (hex_val b), (hex_val c), (hex_val d); try discriminate. congruence.
Qed.
Lemma unicode_escape_ext s b t x : unicode_escape s = Some (b, t) -> unicode_escape (s ++ x) = Some (b, t ++ x).
Proof.
  unfold unicode_escape. destruct (hex4 s) as [[n u]|] eqn:E; [|discriminate].
  rewrite (hex4_ext _ _ _ x E). destruct (_ && _); [discriminate|].
  destruct ((55296 <=? n) && _); [|congruence].
  destruct (strip [92; 117] u) as [u'|] eqn:Es; [|discriminate]. rewrite (strip_ext _ _ _ x Es).
  destruct (hex4 u') as [[n2 u2]|] eqn:E2; [|discriminate]. rewrite (hex4_ext _ _ _ x E2).
  destruct (_ && _); [congruence|discriminate].
Qed.
Lemma parse_str_ext f : forall s l r x, parse_str f s = Some (l, r) -> parse_str f (s ++ x) = Some (l, r ++ x).
Proof.
  induction f as [|f IH]; intros s l r x; cbn [parse_str]; [discriminate|].
  destruct s as [|c t]; [discriminate|]. cbn [app].
  destruct (c =? 34); [congruence|]. destruct (c =? 92).
  - destruct t as [|e u]; [discriminate|]. cbn [app]. destruct (e =? 117).
    + destruct (unicode_escape u) as [[b u']|] eqn:E; [|discriminate].
      rewrite (unicode_escape_ext _ _ _ x E).
      destruct (parse_str f u') as [[l' r']|] eqn:E'; [|discriminate]. rewrite (IH _ _ _ x E'). congruence.
    + destruct (simple_escape e); [|discriminate].
      destruct (parse_str f u) as [[l' r']|] eqn:E'; [|discriminate]. rewrite (IH _ _ _ x E'). congruence.
  - destruct (c <? 32); [discriminate|].
    destruct (parse_str f t) as [[l' r']|] eqn:E'; [|discriminate]. rewrite (IH _ _ _ x E'). congruence.
Qed.

(** Values whose text ends by itself. *)
Definition closed_json (v : json) : Prop := match v with JInt _ | JFloat => False | _ => True end.

Lemma strip1_skip c s : strip [c] (skip_ws s) = None ->
  skip_ws s = [] \/ forall x, strip [c] (skip_ws (s ++ x)) = None.
Proof.
  destruct (skip_ws s) as [|a t] eqn:E; [auto|]. intros H. right. intros x.
  rewrite (skip_ws_ext _ x _ _ E). cbn [strip] in *. destruct (c =? a); [discriminate|reflexivity].
Qed.
Lemma parse_value_ws_nil f s : skip_ws s = [] -> parse_value f s = None.
Proof. intros E. destruct f; cbn [parse_value]; [reflexivity|]. now rewrite E. Qed.

Lemma parse_ext f : forall s x,
  (forall v r, parse_value f s = Some (v, r) -> r <> [] \/ closed_json v ->
               parse_value f (s ++ x) = Some (v, r ++ x)) /\
  (forall l r, parse_items f s = Some (l, r) -> parse_items f (s ++ x) = Some (l, r ++ x)) /\
  (forall l r, parse_members f s = Some (l, r) -> parse_members f (s ++ x) = Some (l, r ++ x)).
Proof.
  induction f as [|f IH]; intros s x; [repeat split; discriminate|].
  split; [|split].
  - intros v r. cbn [parse_value].
    destruct (skip_ws s) as [|c t] eqn:Es; [discriminate|]. rewrite (skip_ws_ext _ x _ _ Es).
    destruct (c =? 34).
    { destruct (parse_str f t) as [[b r']|] eqn:E; [|discriminate].
      rewrite (parse_str_ext _ _ _ _ x E). congruence. }
    destruct (c =? 91).
    { destruct (strip [93] (skip_ws t)) as [r'|] eqn:E.
      - intros H _. destruct (skip_ws t) as [|a u] eqn:Et; [discriminate|].
        rewrite (skip_ws_ext _ x _ _ Et). change (a :: u ++ x) with ((a :: u) ++ x).
        rewrite (strip_ext _ _ _ x E). congruence.
      - destruct (parse_items f t) as [[l r']|] eqn:E'; [|discriminate]. intros H _.
        destruct (strip1_skip _ _ E) as [W|W].
        + exfalso. destruct f as [|f']; [discriminate|]. cbn [parse_items] in E'.
          rewrite (parse_value_ws_nil _ _ W) in E'. discriminate.
        + rewrite W. destruct (IH t x) as (_ & I & _). rewrite (I _ _ E'). congruence. }
    destruct (c =? 123).
    { destruct (strip [125] (skip_ws t)) as [r'|] eqn:E.
      - intros H _. destruct (skip_ws t) as [|a u] eqn:Et; [discriminate|].
        rewrite (skip_ws_ext _ x _ _ Et). change (a :: u ++ x) with ((a :: u) ++ x).
        rewrite (strip_ext _ _ _ x E). congruence.
      - destruct (parse_members f t) as [[l r']|] eqn:E'; [|discriminate]. intros H _.
        destruct (strip1_skip _ _ E) as [W|W].
        + exfalso. destruct f as [|f']; [discriminate|]. cbn [parse_members] in E'.
          rewrite W in E'. discriminate.
        + rewrite W. destruct (IH t x) as (_ & _ & I). rewrite (I _ _ E'). congruence. }
    destruct (c =? 110).
    { destruct (strip _ t) eqn:E; [|discriminate]. rewrite (strip_ext _ _ _ x E). congruence. }
    destruct (c =? 116).
    { destruct (strip _ t) eqn:E; [|discriminate]. rewrite (strip_ext _ _ _ x E). congruence. }
    destruct (c =? 102).
    { destruct (strip _ t) eqn:E; [|discriminate]. rewrite (strip_ext _ _ _ x E). congruence. }
    intros E H. change (c :: t ++ x) with ((c :: t) ++ x). apply parse_num_ext; auto.
    destruct H as [H|H]; auto. exfalso. revert E H. unfold parse_num.
    match goal with |- context[let '(neg, s) := ?X in _] => destruct X as [neg s'] end.
    destruct (take_digits s') as [[|d0 dt] r1]; [discriminate|].
    destruct (_ && _); [discriminate|]. destruct (parse_frac r1) as [[fr r2]|]; [|discriminate].
    destruct (parse_exp r2) as [[ex r3]|]; [|discriminate]. intros E. inversion E; subst.
    destruct (_ || _); auto.
  - intros l r. cbn [parse_items].
    destruct (parse_value f s) as [[v r1]|] eqn:E; [|discriminate].
    destruct (skip_ws r1) as [|c t] eqn:Er; [discriminate|]. intros H.
    assert (N : r1 <> []) by (intros ->; discriminate).
    destruct (IH s x) as (I & _ & _). rewrite (I _ _ E (or_introl N)).
    rewrite (skip_ws_ext _ x _ _ Er). destruct (c =? 44).
    + destruct (parse_items f t) as [[l' r']|] eqn:E'; [|discriminate].
      destruct (IH t x) as (_ & I' & _). rewrite (I' _ _ E'). congruence.
    + destruct (c =? 93); [congruence|discriminate].
  - intros l r. cbn [parse_members].
    destruct (skip_ws s) as [|c t] eqn:Es; [discriminate|]. rewrite (skip_ws_ext _ x _ _ Es).
    destruct (strip [34] (c :: t)) as [t1|] eqn:E1; [|discriminate].
    change (c :: t ++ x) with ((c :: t) ++ x). rewrite (strip_ext _ _ _ x E1).
    destruct (parse_str f t1) as [[k r1]|] eqn:E2; [|discriminate]. rewrite (parse_str_ext _ _ _ _ x E2).
    destruct (skip_ws r1) as [|c2 t2] eqn:Er1; [discriminate|]. rewrite (skip_ws_ext _ x _ _ Er1).
    destruct (strip [58] (c2 :: t2)) as [t3|] eqn:E3; [|discriminate].
    change (c2 :: t2 ++ x) with ((c2 :: t2) ++ x). rewrite (strip_ext _ _ _ x E3).
    destruct (parse_value f t3) as [[v r3]|] eqn:E4; [|discriminate].
    destruct (skip_ws r3) as [|c4 t4] eqn:Er3; [discriminate|]. intros H.
    assert (N : r3 <> []) by (intros ->; discriminate).
    destruct (IH t3 x) as (I & _ & _). rewrite (I _ _ E4 (or_introl N)).
    rewrite (skip_ws_ext _ x _ _ Er3). destruct (c4 =? 44).
    + destruct (parse_members f t4) as [[l' r']|] eqn:E'; [|discriminate].
      destruct (IH t4 x) as (_ & _ & I'). rewrite (I' _ _ E'). congruence.
    + destruct (c4 =? 125); [congruence|discriminate].
Qed.

(** ** Fuel *)
Lemma parse_str_mono f : forall f' s y, parse_str f s = Some y -> (f <= f')%nat -> parse_str f' s = Some y.
Proof.
  induction f as [|f IH]; intros f' s y; cbn [parse_str]; [discriminate|].
  destruct f' as [|f']; [lia|]. intros H L. assert (L' : (f <= f')%nat) by lia. cbn [parse_str].
  destruct s as [|c t]; [discriminate|]. destruct (c =? 34); [auto|]. destruct (c =? 92).
  - destruct t as [|e u]; [discriminate|]. destruct (e =? 117).
    + destruct (unicode_escape u) as [[b u']|]; [|discriminate].
      destruct (parse_str f u') as [z|] eqn:E; [|discriminate]. now rewrite (IH _ _ _ E L').
    + destruct (simple_escape e); [|discriminate].
      destruct (parse_str f u) as [z'|] eqn:E; [|discriminate]. now rewrite (IH _ _ _ E L').
  - destruct (c <? 32); [discriminate|].
    destruct (parse_str f t) as [z'|] eqn:E; [|discriminate]. now rewrite (IH _ _ _ E L').
Qed.
Lemma parse_mono f : forall f' s, (f <= f')%nat ->
  (forall y, parse_value f s = Some y -> parse_value f' s = Some y) /\
  (forall y, parse_items f s = Some y -> parse_items f' s = Some y) /\
  (forall y, parse_members f s = Some y -> parse_members f' s = Some y).
Proof.
  induction f as [|f IH]; intros f' s L; [repeat split; discriminate|].
  destruct f' as [|f']; [lia|]. assert (L' : (f <= f')%nat) by lia.
  split; [|split]; intros y.
  - cbn [parse_value]. destruct (skip_ws s) as [|c t]; [discriminate|].
    destruct (c =? 34).
    { destruct (parse_str f t) as [z|] eqn:E; [|discriminate]. now rewrite (parse_str_mono _ _ _ _ E L'). }
    destruct (c =? 91).
    { destruct (strip [93] (skip_ws t)); [auto|].
      destruct (parse_items f t) as [z|] eqn:E; [|discriminate].
      destruct (IH f' t L') as (_ & I & _). now rewrite (I _ E). }
    destruct (c =? 123).
    { destruct (strip [125] (skip_ws t)); [auto|].
      destruct (parse_members f t) as [z|] eqn:E; [|discriminate].
      destruct (IH f' t L') as (_ & _ & I). now rewrite (I _ E). }
    auto.
  - cbn [parse_items]. destruct (parse_value f s) as [z|] eqn:E; [|discriminate].
    destruct (IH f' s L') as (I & _ & _). rewrite (I _ E). destruct z as [v r].
    destruct (skip_ws r) as [|c t]; [discriminate|]. destruct (c =? 44); [|auto].
    destruct (parse_items f t) as [z|] eqn:E'; [|discriminate].
    destruct (IH f' t L') as (_ & I' & _). now rewrite (I' _ E').
  - cbn [parse_members]. destruct (strip [34] (skip_ws s)) as [t|]; [|discriminate].
    destruct (parse_str f t) as [[k r]|] eqn:E; [|discriminate]. rewrite (parse_str_mono _ _ _ _ E L').
    destruct (strip [58] (skip_ws r)) as [t1|]; [|discriminate].
    destruct (parse_value f t1) as [z|] eqn:E1; [|discriminate].
    destruct (IH f' t1 L') as (I & _ & _). rewrite (I _ E1). destruct z as [v r1].
    destruct (skip_ws r1) as [|c t2]; [discriminate|]. destruct (c =? 44); [|auto].
    destruct (parse_members f t2) as [z|] eqn:E'; [|discriminate].
    destruct (IH f' t2 L') as (_ & _ & I'). now rewrite (I' _ E').
Qed.

(** ** Round trip *)

(** Well-formed trees: integers are u64s, string bytes are bytes. *)
Fixpoint wf_json (v : json) : Prop :=
  match v with
  | JInt n => 0 <= n < two64
  | JStr s => Forall (fun c => 0 <= c < 256) s
  | JArr l => (fix all l := match l with [] => True | x :: t => wf_json x /\ all t end) l
  | JObj l => (fix all l := match l with
                            | [] => True
                            | (k, x) :: t => Forall (fun c => 0 <= c < 256) k /\ wf_json x /\ all t
                            end) l
  | _ => True
  end.
Section ind.
  Variable P : json -> Prop.
  Hypothesis (Hn : P JNull) (Hb : forall b, P (JBool b)) (Hi : forall n, P (JInt n)) (Hf : P JFloat)
    (Hs : forall s, P (JStr s)) (Ha : forall l, Forall P l -> P (JArr l))
    (Ho : forall l, Forall (fun kv => P (snd kv)) l -> P (JObj l)).
  Fixpoint json_ind' (v : json) : P v :=
    match v with
    | JNull => Hn
    | JBool b => Hb b
    | JInt n => Hi n
    | JFloat => Hf
    | JStr s => Hs s
    | JArr l => Ha l ((fix go l : Forall P l :=
                         match l with [] => Forall_nil _ | x :: t => Forall_cons _ (json_ind' x) (go t) end) l)
    | JObj l => Ho l ((fix go l : Forall (fun kv => P (snd kv)) l :=
                         match l with
                         | [] => Forall_nil _
                         | kv :: t => Forall_cons kv (json_ind' (snd kv)) (go t)
                         end) l)
    end.
End ind.

(** Digits *)
Definition digs (l : list Z) : Prop := Forall (fun c => 48 <= c <= 57) l.
Definition stops (rest : list Z) : Prop :=
  match rest with [] => True | c :: _ => is_digit c = false /\ c <> 46 /\ c <> 101 /\ c <> 69 end.
Lemma is_digit_true c : 48 <= c <= 57 -> is_digit c = true.
Proof. intros. unfold is_digit. apply andb_true_intro. split; apply Z.leb_le; lia. Qed.
Lemma take_digits_app d rest : digs d -> stops rest -> take_digits (d ++ rest) = (d, rest).
Proof.
  intros H S. induction H as [|c d Hc _ IH]; cbn [app].
  - destruct rest as [|c t]; [reflexivity|]. cbn [take_digits]. destruct S as [-> _]. reflexivity.
  - cbn [take_digits]. rewrite is_digit_true by auto. now rewrite IH.
Qed.
Lemma num_of_app d c : num_of (d ++ [c]) = num_of d * 10 + (c - 48).
Proof. unfold num_of. rewrite fold_left_app. reflexivity. Qed.
Lemma dec_digits_spec f : forall n, 0 <= n < 10 ^ Z.of_nat f -> (0 < f)%nat ->
  digs (dec_digits f n) /\ num_of (dec_digits f n) = n /\
  exists d0 dt, dec_digits f n = d0 :: dt /\ (d0 = 48 -> dt = []).
Proof.
  induction f as [|f IH]; intros n Hn Hf; [lia|]. cbn [dec_digits].
  destruct (Z.ltb_spec n 10) as [L|L].
  - split; [constructor; [lia|constructor]|]. split; [unfold num_of; cbn [fold_left]; lia|].
    exists (48 + n), []. auto.
  - assert (E : 10 ^ Z.of_nat (S f) = 10 * 10 ^ Z.of_nat f) by (rewrite Nat2Z.inj_succ, Z.pow_succ_r; lia).
    assert (B : 0 <= n / 10 < 10 ^ Z.of_nat f) by (split; [apply Z.div_pos; lia|apply Z.div_lt_upper_bound; lia]).
    assert (F : (0 < f)%nat).
    { destruct f; [|lia]. change (10 ^ Z.of_nat 0) with 1 in B. assert (1 <= n / 10) by (apply Z.div_le_lower_bound; lia). lia. }
    destruct (IH _ B F) as (D & N & d0 & dt & Ed & Z0). pose proof (Z.mod_pos_bound n 10 ltac:(lia)).
    split; [apply Forall_app; split; [exact D|constructor; [lia|constructor]]|].
    split; [rewrite num_of_app, N; pose proof (Z.div_mod n 10); lia|].
    exists d0, (dt ++ [48 + n mod 10]). rewrite Ed. split; [reflexivity|]. intros D0. exfalso.
    specialize (Z0 D0). subst dt d0. rewrite Ed in N. unfold num_of in N. cbn [fold_left] in N.
    assert (1 <= n / 10) by (apply Z.div_le_lower_bound; lia). lia.
Qed.
Lemma dec_of_spec n : 0 <= n < two64 ->
  digs (dec_of n) /\ num_of (dec_of n) = n /\
  exists d0 dt, dec_of n = d0 :: dt /\ (d0 = 48 -> dt = []).
Proof.
  intros H. apply dec_digits_spec; [|lia]. change (10 ^ Z.of_nat 20) with 100000000000000000000.
  unfold two64 in H. lia.
Qed.
Lemma stops_frac rest : stops rest -> parse_frac rest = Some (false, rest).
Proof.
  destruct rest as [|c t]; [reflexivity|]. intros (_ & H & _). cbn [parse_frac].
  destruct (Z.eqb_spec c 46); [congruence|reflexivity].
Qed.
Lemma stops_exp rest : stops rest -> parse_exp rest = Some (false, rest).
Proof.
  destruct rest as [|c t]; [reflexivity|]. intros (_ & _ & H & H'). cbn [parse_exp].
  destruct (Z.eqb_spec c 101); [congruence|]. destruct (Z.eqb_spec c 69); [congruence|]. reflexivity.
Qed.
Lemma parse_num_dec n rest : 0 <= n < two64 -> stops rest ->
  parse_num (dec_of n ++ rest) = Some (JInt n, rest).
Proof.
  intros Hn S. destruct (dec_of_spec n Hn) as (D & N & d0 & dt & E & Z0).
  assert (H0 : 48 <= d0 <= 57) by (rewrite E in D; now inversion D).
  unfold parse_num. rewrite E at 1. cbn [app]. destruct (Z.eqb_spec d0 45); [lia|].
  rewrite take_digits_app by auto. rewrite E. cbv iota beta.
  replace ((d0 =? 48) && _) with false.
  2:{ destruct (Z.eqb_spec d0 48) as [->|]; [rewrite Z0 by auto; reflexivity|reflexivity]. }
  rewrite stops_frac, stops_exp by auto. cbn [orb]. rewrite <- E, N. reflexivity.
Qed.

(** Strings *)
Lemma hex_val_digit v : 0 <= v < 16 -> hex_val (hex_digit v) = Some v.
Proof.
  intros H. unfold hex_digit, hex_val, is_digit.
  destruct (Z.ltb_spec v 10).
  - replace ((48 <=? 48 + v) && (48 + v <=? 57)) with true by (symmetry; apply andb_true_intro; split; apply Z.leb_le; lia).
    f_equal. lia.
  - replace ((48 <=? 87 + v) && (87 + v <=? 57)) with false.
    2:{ symmetry. apply andb_false_iff. right. apply Z.leb_gt. lia. }
    replace ((97 <=? 87 + v) && (87 + v <=? 102)) with true by (symmetry; apply andb_true_intro; split; apply Z.leb_le; lia).
    f_equal. lia.
Qed.
Lemma parse_escape f c s l r : 0 <= c < 256 -> parse_str f s = Some (l, r) ->
  parse_str (S f) (escape_byte c ++ s) = Some (c :: l, r).
Proof.
  intros Hc H. unfold escape_byte.
  destruct (Z.eqb_spec c 34) as [->|]; [cbn; now rewrite H|].
  destruct (Z.eqb_spec c 92) as [->|]; [cbn; now rewrite H|].
  destruct (Z.eqb_spec c 8) as [->|]; [cbn; now rewrite H|].
  destruct (Z.eqb_spec c 9) as [->|]; [cbn; now rewrite H|].
  destruct (Z.eqb_spec c 10) as [->|]; [cbn; now rewrite H|].
  destruct (Z.eqb_spec c 12) as [->|]; [cbn; now rewrite H|].
  destruct (Z.eqb_spec c 13) as [->|]; [cbn; now rewrite H|].
  destruct (Z.ltb_spec c 32).
  - cbn [app parse_str]. change (92 =? 34) with false. change (92 =? 92) with true. change (117 =? 117) with true.
    cbv iota. unfold unicode_escape, hex4.
    rewrite !hex_val_digit.
    2:{ pose proof (Z.mod_pos_bound c 16). lia. }
    2:{ split; [apply Z.div_pos; lia|apply Z.div_lt_upper_bound; lia]. }
    change (hex_val 48) with (Some 0). cbv iota beta.
    replace (((0 * 16 + 0) * 16 + c / 16) * 16 + c mod 16) with c by (pose proof (Z.div_mod c 16); lia).
    destruct (Z.leb_spec 56320 c); [lia|]. cbn [andb]. destruct (Z.leb_spec 55296 c); [lia|]. cbn [andb].
    unfold utf8_of. destruct (Z.ltb_spec c 128); [|lia]. rewrite H. reflexivity.
  - cbn [app parse_str]. destruct (Z.eqb_spec c 34); [contradiction|]. destruct (Z.eqb_spec c 92); [contradiction|].
    destruct (Z.ltb_spec c 32); [lia|]. now rewrite H.
Qed.
Lemma escape_nonempty c : (1 <= length (escape_byte c))%nat.
Proof. unfold escape_byte. repeat match goal with |- context[if ?b then _ else _] => destruct b end; cbn; lia. Qed.
Lemma parse_str_write s : Forall (fun c => 0 <= c < 256) s -> forall f rest,
  (length (flat_map escape_byte s) < f)%nat ->
  parse_str f (flat_map escape_byte s ++ [34] ++ rest) = Some (s, rest).
Proof.
  induction 1 as [|c s Hc _ IH]; intros f rest L.
  - destruct f; [cbn in L; lia|]. reflexivity.
  - cbn [flat_map] in *. rewrite app_length in L. pose proof (escape_nonempty c).
    destruct f; [lia|]. rewrite <- app_assoc. apply parse_escape; auto. apply IH. lia.
Qed.

(** The text of a value starts with none of: whitespace, ']', '}'. *)
Definition starter (c : Z) : Prop := is_ws c = false /\ c <> 93 /\ c <> 125.
Lemma starter_digit c : 48 <= c <= 57 -> starter c.
Proof.
  intros. unfold starter, is_ws. split; [|lia].
  repeat (apply orb_false_intro); apply Z.eqb_neq; lia.
Qed.
Lemma write_start v : wf_json v -> exists c t, write_json v = c :: t /\ starter c.
Proof.
  intros W.
  assert (K : forall c t, starter c -> exists c' t', c :: t = c' :: t' /\ starter c') by eauto.
  destruct v as [|[]|n| |s|l|l]; cbn [write_json]; unfold write_str; cbn [app];
    try (apply K; unfold starter; repeat split; discriminate || reflexivity).
  destruct (dec_of_spec n W) as (D & _ & d0 & dt & E & _). rewrite E. apply K.
  apply starter_digit. rewrite E in D. now inversion D.
Qed.
Lemma skip_start c t : starter c -> skip_ws (c :: t) = c :: t.
Proof. intros (H & _). cbn [skip_ws]. now rewrite H. Qed.

Lemma stops_sep c t : c = 44 \/ c = 93 \/ c = 125 -> stops (c :: t).
Proof. intros [->|[->| ->]]; repeat split; discriminate || reflexivity. Qed.

Lemma join_cons2 sep (x y : list Z) t : join sep (x :: y :: t) = x ++ sep ++ join sep (y :: t).
Proof. reflexivity. Qed.

Definition member (kv : list Z * json) : list Z := write_str (fst kv) ++ [58] ++ write_json (snd kv).

Lemma items_roundtrip l : l <> [] ->
  Forall (fun v => wf_json v /\ forall f rest, (length (write_json v) < f)%nat -> stops rest ->
                    parse_value f (write_json v ++ rest) = Some (v, rest)) l ->
  forall f rest, (length (join [44%Z] (map write_json l) ++ [93%Z]) < f)%nat ->
  parse_items f ((join [44] (map write_json l) ++ [93]) ++ rest) = Some (l, rest).
Proof.
  intros NE H. induction H as [|v l (W & Hv) Hl IH]; [congruence|]. intros f rest L.
  destruct f as [|f]; [lia|]. cbn [map] in *. destruct l as [|w l'].
  - cbn [map join] in *. rewrite app_length in L. cbn [length] in L. cbn [parse_items].
    rewrite <- app_assoc, Hv by (lia || (apply stops_sep; auto)). reflexivity.
  - cbn [map] in *. rewrite join_cons2 in *. rewrite !app_length in L. cbn [length] in L.
    cbn [parse_items]. rewrite <- !app_assoc. rewrite Hv by (lia || (cbn [app]; apply stops_sep; auto)).
    change ([44] ++ ?y) with (44 :: y). cbn [skip_ws]. change (is_ws 44) with false. cbv iota.
    rewrite Z.eqb_refl. rewrite app_assoc. rewrite IH; [reflexivity|discriminate|].
    rewrite app_length. cbn [length]. lia.
Qed.
Lemma members_roundtrip l : l <> [] ->
  Forall (fun kv => Forall (fun c => 0 <= c < 256) (fst kv) /\
                    forall f rest, (length (write_json (snd kv)) < f)%nat -> stops rest ->
                    parse_value f (write_json (snd kv) ++ rest) = Some (snd kv, rest)) l ->
  forall f rest, (length (join [44%Z] (map member l) ++ [125%Z]) < f)%nat ->
  parse_members f ((join [44] (map member l) ++ [125]) ++ rest) = Some (l, rest).
Proof.
  intros NE H. induction H as [|[k v] l (W & Hv) Hl IH]; [congruence|]. intros f rest L.
  cbn [fst snd] in W, Hv.
  assert (KV : forall f rest, (length (member (k, v)) < S f)%nat -> stops rest ->
     match strip [34] (skip_ws (member (k, v) ++ rest)) with
     | None => None | Some t =>
       match parse_str f t with None => None | Some (k', r) =>
         match strip [58] (skip_ws r) with None => None | Some t => 
           match parse_value f t with None => None | Some (v', r) => Some (k', v', r) end end end end
     = Some (k, v, rest)).
  { intros f' rest' L' S. unfold member, write_str in *. cbn [fst snd] in *.
    rewrite !app_length in L'. cbn [length] in L'. rewrite <- !app_assoc.
    change (skip_ws ([34] ++ ?y)) with (34 :: y). cbn [strip]. rewrite Z.eqb_refl.
    rewrite parse_str_write by (auto; lia). cbn [app]. change (skip_ws (58 :: ?y)) with (58 :: y).
    cbn [strip]. rewrite Z.eqb_refl. rewrite Hv by (auto; lia). reflexivity. }
  destruct f as [|f]; [lia|]. cbn [map] in *. destruct l as [|w l'].
  - cbn [map join] in *. rewrite app_length in L. cbn [length] in L. cbn [parse_members].
    rewrite <- app_assoc. specialize (KV f ([125] ++ rest) ltac:(lia) ltac:(apply stops_sep; auto)).
    destruct (strip [34] _) as [t|]; [|discriminate]. destruct (parse_str f t) as [[k' r]|]; [|discriminate].
    destruct (strip [58] _) as [t'|]; [|discriminate]. destruct (parse_value f t') as [[v' r']|]; [|discriminate].
    inversion KV; subst. reflexivity.
  - cbn [map] in *. rewrite join_cons2 in *. rewrite !app_length in L. cbn [length] in L.
    cbn [parse_members]. rewrite <- !app_assoc.
    match goal with |- context[member (k, v) ++ ?y] =>
      specialize (KV f y ltac:(lia) ltac:(cbn [app]; apply stops_sep; auto)) end.
    destruct (strip [34] _) as [t|]; [|discriminate]. destruct (parse_str f t) as [[k' r]|]; [|discriminate].
    destruct (strip [58] _) as [t'|]; [|discriminate]. destruct (parse_value f t') as [[v' r']|]; [|discriminate].
    assert (k' = k /\ v' = v /\ r' = [44] ++ join [44] (member w :: map member l') ++ [125] ++ rest) as (-> & -> & ->)
      by (repeat split; congruence). clear KV.
    change ([44] ++ ?y) with (44 :: y). cbn [skip_ws]. change (is_ws 44) with false. cbv iota.
    rewrite Z.eqb_refl. rewrite app_assoc. rewrite IH; [reflexivity|discriminate|].
    rewrite app_length. cbn [length]. lia.
Qed.

Lemma wf_arr l : wf_json (JArr l) -> Forall wf_json l.
Proof. induction l as [|x t IH]; constructor; [apply H|apply IH, H]. Qed.
Lemma wf_obj l : wf_json (JObj l) -> Forall (fun kv => Forall (fun c => 0 <= c < 256) (fst kv) /\ wf_json (snd kv)) l.
Proof. induction l as [|[k x] t IH]; constructor; [split; apply H|apply IH, H]. Qed.

Lemma strip1_ne c d t : c <> d -> strip [c] (d :: t) = None.
Proof. intros. cbn [strip]. destruct (Z.eqb_spec c d); [contradiction|reflexivity]. Qed.

Lemma arr_start l rest : l <> [] -> Forall wf_json l ->
  exists c t, (join [44] (map write_json l) ++ [93]) ++ rest = c :: t /\ starter c.
Proof.
  intros NE H. destruct H as [|v l W _]; [congruence|].
  destruct (write_start v W) as (c & t & E & S). cbn [map]. destruct l; cbn [map join]; rewrite E; cbn [app]; eauto.
Qed.
Lemma obj_start (l : list (list Z * json)) rest : l <> [] ->
  exists t, (join [44] (map member l) ++ [125]) ++ rest = 34 :: t.
Proof. destruct l as [|[k v] l]; [congruence|]. intros _. cbn [map]. destruct l; cbn [map join]; unfold member, write_str; cbn [app]; eauto. Qed.

Lemma write_parse v : wf_json v -> forall f rest, (length (write_json v) < f)%nat -> stops rest ->
  parse_value f (write_json v ++ rest) = Some (v, rest).
Proof.
  induction v using json_ind'; intros W f rest L S; (destruct f as [|f]; [lia|]).
  - reflexivity.
  - destruct b; reflexivity.
  - destruct (dec_of_spec n W) as (D & _ & d0 & dt & E & _).
    assert (H0 : 48 <= d0 <= 57) by (rewrite E in D; now inversion D).
    cbn [write_json parse_value]. rewrite E at 1. cbn [app]. rewrite skip_start by now apply starter_digit.
    cbv iota.
    destruct (Z.eqb_spec d0 34); [lia|]. destruct (Z.eqb_spec d0 91); [lia|].
    destruct (Z.eqb_spec d0 123); [lia|]. destruct (Z.eqb_spec d0 110); [lia|].
    destruct (Z.eqb_spec d0 116); [lia|]. destruct (Z.eqb_spec d0 102); [lia|].
    change (d0 :: dt ++ rest) with ((d0 :: dt) ++ rest). rewrite <- E. now apply parse_num_dec.
  - cbn [write_json app parse_value]. change (skip_ws (48 :: ?y)) with (48 :: y). cbv iota.
    change (48 =? 34) with false. change (48 =? 91) with false. change (48 =? 123) with false.
    change (48 =? 110) with false. change (48 =? 116) with false. change (48 =? 102) with false. cbv iota.
    unfold parse_num. change (48 =? 45) with false. cbv iota beta.
    cbn [take_digits]. change (is_digit 48) with true. change (is_digit 46) with false. cbv iota beta.
    change ((48 =? 48) && negb true) with false. cbv iota. unfold parse_frac. change (46 =? 46) with true. cbv iota.
    pose proof (take_digits_app [] rest (Forall_nil _) S) as T. cbn [app] in T. cbn [take_digits]. change (is_digit 48) with true. cbv iota. rewrite T.
    cbv iota beta. rewrite stops_exp by auto. reflexivity.
  - cbn [write_json] in *. unfold write_str in *. rewrite !app_length in L. cbn [length] in L.
    cbn [parse_value]. rewrite <- !app_assoc. change (skip_ws ([34] ++ ?y)) with (34 :: y). cbv iota.
    rewrite Z.eqb_refl. rewrite parse_str_write by (auto; lia). reflexivity.
  - cbn [write_json] in *. apply wf_arr in W. rewrite !app_length in L. cbn [length] in L.
    cbn [parse_value]. rewrite <- !app_assoc. change (skip_ws ([91] ++ ?y)) with (91 :: y). cbv iota.
    change (91 =? 34) with false. change (91 =? 91) with true. cbv iota.
    destruct l as [|v0 l0]; [reflexivity|].
    destruct (arr_start (v0 :: l0) rest) as (c & t & E & St); auto; [discriminate|].
    rewrite app_assoc. rewrite E at 1. rewrite skip_start, strip1_ne by (auto; destruct St as (_ & N & _); auto).
    rewrite items_roundtrip; [reflexivity|discriminate| |rewrite app_length; cbn [length]; lia].
    rewrite Forall_forall in *. intros x Hx. split; auto.
  - cbn [write_json] in *. apply wf_obj in W. rewrite !app_length in L. cbn [length] in L.
    fold member in *. change (fun kv : list Z * json => write_str (fst kv) ++ [58] ++ write_json (snd kv)) with member in *.
    cbn [parse_value]. rewrite <- !app_assoc. change (skip_ws ([123] ++ ?y)) with (123 :: y). cbv iota.
    change (123 =? 34) with false. change (123 =? 91) with false. change (123 =? 123) with true. cbv iota.
    destruct l as [|v0 l0]; [reflexivity|].
    destruct (obj_start (v0 :: l0) rest) as (t & E); [discriminate|].
    rewrite app_assoc. rewrite E at 1. change (skip_ws (34 :: t)) with (34 :: t). rewrite strip1_ne by discriminate.
    rewrite members_roundtrip; [reflexivity|discriminate| |rewrite app_length; cbn [length]; lia].
    rewrite Forall_forall in *. intros x Hx. destruct (W x Hx). split; auto.
Qed.

Lemma parse_text_write v : wf_json v -> parse_text (write_json v) = Some v.
Proof.
  intros W. unfold parse_text. pose proof (write_parse v W (2 * length (write_json v) + 2) [] ltac:(lia) I) as H.
  rewrite app_nil_r in H. now rewrite H.
Qed.

(** A proper prefix of an array, object or string text does not parse. *)
Lemma parse_text_torn v p x : wf_json v -> closed_json v -> write_json v = p ++ x -> x <> [] ->
  parse_text p = None.
Proof.
  intros W C E N. unfold parse_text.
  destruct (parse_value (2 * length p + 2) p) as [[v' r]|] eqn:Ep; [|reflexivity].
  exfalso.
  assert (C' : closed_json v' \/ r <> []).
  { left. destruct p as [|c p']; [discriminate|].
    destruct v as [|b|n| |s|l|l]; cbn [closed_json] in C; try contradiction;
      [|destruct b| | |];
      cbn [write_json write_str app] in E; inversion E; subst c;
      cbn [parse_value Nat.mul Nat.add] in Ep; rewrite Nat.add_comm in Ep; cbn [Nat.add parse_value skip_ws is_ws orb Z.eqb Pos.eqb] in Ep.
    all: repeat match type of Ep with
         | context[strip ?a ?b] => destruct (strip a b)
         | context[parse_str ?a ?b] => destruct (parse_str a b) as [[? ?]|]
         | context[parse_items ?a ?b] => destruct (parse_items a b) as [[? ?]|]
         | context[parse_members ?a ?b] => destruct (parse_members a b) as [[? ?]|]
         end; try discriminate Ep; inversion Ep; subst; exact I. }
  destruct (parse_ext (2 * length p + 2) p x) as (X & _).
  pose proof (X _ _ Ep ltac:(tauto)) as X1. rewrite <- E in X1.
  pose proof (write_parse v W (2 * length (write_json v) + 2) [] ltac:(lia) I) as X2. rewrite app_nil_r in X2.
  destruct (parse_mono (2 * length p + 2) (2 * length (write_json v) + 2) (write_json v)) as (M & _).
  { rewrite E, app_length. lia. }
  rewrite (M _ X1) in X2. inversion X2 as [[E1 E2]]. apply app_eq_nil in E2. tauto.
Qed.

(** ** UTF-8 *)
Inductive utf8 : list Z -> Prop :=
| utf8_nil : utf8 []
| utf8_1 a t : 0 <= a < 128 -> utf8 t -> utf8 (a :: t)
| utf8_2 a b t : 194 <= a <= 223 -> cont b = true -> utf8 t -> utf8 (a :: b :: t)
| utf8_3 a b c t : 224 <= a <= 239 -> cont b = true -> cont c = true ->
    (a = 224 -> 160 <= b) -> (a = 237 -> b <= 159) -> utf8 t -> utf8 (a :: b :: c :: t)
| utf8_4 a b c d t : 240 <= a <= 244 -> cont b = true -> cont c = true -> cont d = true ->
    (a = 240 -> 144 <= b) -> (a = 244 -> b <= 143) -> utf8 t -> utf8 (a :: b :: c :: d :: t).

Lemma utf8_valid_sound f : forall s, utf8_valid f s = true -> utf8 s.
Proof.
  induction f as [|f IH]; intros s; cbn [utf8_valid].
  - destruct s; [constructor|discriminate].
  - destruct s as [|a t]; [constructor|].
    destruct (_ && _) eqn:E1; [apply andb_prop in E1 as [A B]; apply Z.leb_le in A; apply Z.ltb_lt in B; intros; apply utf8_1; auto|].
    destruct ((194 <=? a) && _) eqn:E2.
    { apply andb_prop in E2 as [A B]; apply Z.leb_le in A; apply Z.leb_le in B.
      destruct t as [|b t]; [discriminate|]. intros H. apply andb_prop in H as [H1 H2]. apply utf8_2; auto. }
    destruct ((224 <=? a) && _) eqn:E3.
    { apply andb_prop in E3 as [A B]; apply Z.leb_le in A; apply Z.leb_le in B.
      destruct t as [|b [|c t]]; try discriminate. intros H.
      apply andb_prop in H as [H H5]. apply andb_prop in H as [H H4]. apply andb_prop in H as [H H3].
      apply andb_prop in H as [H1 H2]. apply utf8_3; auto.
      - intros ->. cbn in H3. now apply Z.leb_le in H3.
      - intros ->. cbn in H4. now apply Z.leb_le in H4. }
    destruct ((240 <=? a) && _) eqn:E4; [|discriminate].
    apply andb_prop in E4 as [A B]; apply Z.leb_le in A; apply Z.leb_le in B.
    destruct t as [|b [|c [|d t]]]; try discriminate. intros H.
    apply andb_prop in H as [H H6]. apply andb_prop in H as [H H5]. apply andb_prop in H as [H H4].
    apply andb_prop in H as [H H3]. apply andb_prop in H as [H1 H2]. apply utf8_4; auto.
    + intros ->. cbn in H4. now apply Z.leb_le in H4.
    + intros ->. cbn in H5. now apply Z.leb_le in H5.
Qed.
Lemma utf8_valid_complete s : utf8 s -> forall f, (length s <= f)%nat -> utf8_valid f s = true.
Proof.
  induction 1 as [|a t A _ IH|a b t A B _ IH|a b c t A B C D E _ IH|a b c d t A B C D E F _ IH]; intros f L.
  - destruct f; reflexivity.
  - destruct f; cbn [length] in L; [lia|]. cbn [utf8_valid].
    destruct (Z.leb_spec 0 a), (Z.ltb_spec a 128); try lia. cbn [andb]. apply IH. lia.
  - destruct f; cbn [length] in L; [lia|]. cbn [utf8_valid].
    destruct (Z.leb_spec 0 a), (Z.ltb_spec a 128), (Z.leb_spec 194 a), (Z.leb_spec a 223); try lia. cbn [andb].
    rewrite B. apply IH. lia.
  - destruct f; cbn [length] in L; [lia|]. cbn [utf8_valid].
    destruct (Z.leb_spec 0 a), (Z.ltb_spec a 128), (Z.leb_spec 194 a), (Z.leb_spec a 223); try lia. cbn [andb].
    destruct (Z.leb_spec 224 a), (Z.leb_spec a 239); try lia. cbn [andb].
    rewrite B, C, IH by lia. rewrite !andb_true_r. cbn [andb].
    apply andb_true_intro. split.
    + destruct (Z.eqb_spec a 224); [apply Z.leb_le; auto|reflexivity].
    + destruct (Z.eqb_spec a 237); [apply Z.leb_le; auto|reflexivity].
  - destruct f; cbn [length] in L; [lia|]. cbn [utf8_valid].
    destruct (Z.leb_spec 0 a), (Z.ltb_spec a 128), (Z.leb_spec 194 a), (Z.leb_spec a 223); try lia. cbn [andb].
    destruct (Z.leb_spec 224 a), (Z.leb_spec a 239); try lia. cbn [andb].
    destruct (Z.leb_spec 240 a), (Z.leb_spec a 244); try lia. cbn [andb].
    rewrite B, C, D, IH by lia. rewrite !andb_true_r. cbn [andb].
    apply andb_true_intro. split.
    + destruct (Z.eqb_spec a 240); [apply Z.leb_le; auto|reflexivity].
    + destruct (Z.eqb_spec a 244); [apply Z.leb_le; auto|reflexivity].
Qed.
Lemma is_utf8_iff s : is_utf8 s = true <-> utf8 s.
Proof. split; [apply utf8_valid_sound|intros; apply utf8_valid_complete; auto]. Qed.
Lemma utf8_app a b : utf8 a -> utf8 b -> utf8 (a ++ b).
Proof. induction 1; intros; cbn [app]; auto; [apply utf8_1|apply utf8_2|apply utf8_3|apply utf8_4]; auto. Qed.
Lemma utf8_ascii s : Forall (fun c => 0 <= c < 128) s -> utf8 s.
Proof. induction 1; [constructor|apply utf8_1; auto]. Qed.
Lemma cont_bounds b : cont b = true -> 128 <= b <= 191.
Proof. unfold cont. intros H. apply andb_prop in H as [A B]. apply Z.leb_le in A, B. lia. Qed.
Lemma utf8_bytes s : utf8 s -> Forall (fun c => 0 <= c < 256) s.
Proof.
  induction 1; repeat match goal with H : cont _ = true |- _ => apply cont_bounds in H end;
    repeat (constructor; [lia|]); auto.
Qed.
Lemma escape_high c : 128 <= c -> escape_byte c = [c].
Proof.
  intros. unfold escape_byte.
  repeat match goal with |- context[c =? ?k] => destruct (Z.eqb_spec c k); [lia|] end.
  destruct (Z.ltb_spec c 32); [lia|reflexivity].
Qed.
Lemma escape_ascii c : 0 <= c < 128 -> Forall (fun c => 0 <= c < 128) (escape_byte c).
Proof.
  intros H. unfold escape_byte.
  repeat match goal with |- context[c =? ?k] => destruct (Z.eqb_spec c k); [repeat constructor; lia|] end.
  destruct (Z.ltb_spec c 32); [|repeat constructor; lia].
  assert (B : forall v, 0 <= v < 16 -> 0 <= hex_digit v < 128).
  { intros v Hv. unfold hex_digit. destruct (v <? 10); lia. }
  assert (0 <= c / 16 < 16) by (split; [apply Z.div_pos; lia|apply Z.div_lt_upper_bound; lia]).
  pose proof (Z.mod_pos_bound c 16 ltac:(lia)).
  repeat (constructor; [try lia; auto|]). constructor.
Qed.
Lemma utf8_escape s : utf8 s -> utf8 (flat_map escape_byte s).
Proof.
  induction 1; repeat match goal with H : cont _ = true |- _ => pose proof (cont_bounds _ H); revert H end; intros;
    cbn [flat_map]; [constructor| | | |]; rewrite ?escape_high by lia; cbn [app].
  - apply utf8_app; auto. apply utf8_ascii, escape_ascii; auto.
  - apply utf8_2; auto.
  - apply utf8_3; auto.
  - apply utf8_4; auto.
Qed.
Lemma utf8_join l : Forall utf8 l -> utf8 (join [44] l).
Proof.
  induction 1 as [|x t Hx Ht IH]; [constructor|]. destruct t as [|y t]; [exact Hx|].
  rewrite join_cons2. apply utf8_app; auto. cbn [app]. apply utf8_1; [lia|exact IH].
Qed.

(** Trees whose strings are UTF-8 have UTF-8 texts. *)
Fixpoint utf8_json (v : json) : Prop :=
  match v with
  | JInt n => 0 <= n < two64
  | JStr s => utf8 s
  | JArr l => (fix all l := match l with [] => True | x :: t => utf8_json x /\ all t end) l
  | JObj l => (fix all l := match l with
                            | [] => True
                            | (k, x) :: t => utf8 k /\ utf8_json x /\ all t
                            end) l
  | _ => True
  end.
Lemma utf8_arr l : utf8_json (JArr l) <-> Forall utf8_json l.
Proof.
  induction l as [|x t IH]; [split; constructor|]. split.
  - intros [A B]. constructor; [exact A|]. now apply IH.
  - intros H. inversion H; subst. split; [auto|]. now apply IH.
Qed.
Lemma utf8_obj l : utf8_json (JObj l) <-> Forall (fun kv => utf8 (fst kv) /\ utf8_json (snd kv)) l.
Proof.
  induction l as [|[k x] t IH]; [split; constructor|]. split.
  - intros (A & B & C). constructor; [split; [exact A|exact B]|]. now apply IH.
  - intros H. inversion H as [|? ? [A B] C]; subst. split; [auto|]. split; [auto|]. now apply IH.
Qed.
Lemma wf_arr_iff l : wf_json (JArr l) <-> Forall wf_json l.
Proof.
  split; [apply wf_arr|]. induction 1; [exact I|]. split; auto.
Qed.
Lemma wf_obj_iff l : wf_json (JObj l) <->
  Forall (fun kv => Forall (fun c => 0 <= c < 256) (fst kv) /\ wf_json (snd kv)) l.
Proof.
  split; [apply wf_obj|]. induction 1 as [|[k v] l [A B] _ IH]; [exact I|]. split; [exact A|]. split; auto.
Qed.
Lemma utf8_wf v : utf8_json v -> wf_json v.
Proof.
  induction v using json_ind'; intros U; auto.
  - apply utf8_bytes, U.
  - apply wf_arr_iff. apply utf8_arr in U. rewrite Forall_forall in *. auto.
  - apply wf_obj_iff. apply utf8_obj in U. rewrite Forall_forall in *. intros x Hx. destruct (U x Hx).
    split; auto using utf8_bytes.
Qed.
Lemma write_utf8 v : utf8_json v -> utf8 (write_json v).
Proof.
  induction v using json_ind'; intros U; cbn [write_json].
  - apply utf8_ascii. repeat constructor; lia.
  - destruct b; apply utf8_ascii; repeat constructor; lia.
  - destruct (dec_of_spec n U) as (D & _). apply utf8_ascii. eapply Forall_impl; [|exact D]. cbn. intros; lia.
  - apply utf8_ascii. repeat constructor; lia.
  - unfold write_str. cbn [app]. apply utf8_1; [lia|]. apply utf8_app; [now apply utf8_escape|].
    apply utf8_1; [lia|constructor].
  - apply utf8_arr in U. cbn [app]. apply utf8_1; [lia|]. apply utf8_app; [|apply utf8_1; [lia|constructor]].
    apply utf8_join. apply Forall_map. rewrite Forall_forall in *. auto.
  - apply utf8_obj in U. cbn [app]. apply utf8_1; [lia|]. apply utf8_app; [|apply utf8_1; [lia|constructor]].
    apply utf8_join. apply Forall_map. rewrite Forall_forall in *. intros kv Hkv. destruct (U kv Hkv) as [A B].
    unfold write_str. cbn [app]. apply utf8_1; [lia|]. apply utf8_app.
    + apply utf8_app; [now apply utf8_escape|]. apply utf8_1; [lia|constructor].
    + apply utf8_1; [lia|auto].
Qed.

(** ** Decoders *)
Lemma all_some_map {A B C} (f : B -> option C) (g : A -> B) (h : A -> C) l :
  (forall x, In x l -> f (g x) = Some (h x)) -> all_some f (map g l) = Some (map h l).
Proof.
  induction l as [|x t IH]; intros H; [reflexivity|]. cbn [map all_some].
  rewrite H by now left. rewrite IH; [reflexivity|]. intros. apply H. now right.
Qed.
Lemma all_some_id {A B} (f : B -> option A) (g : A -> B) l :
  (forall x, In x l -> f (g x) = Some x) -> all_some f (map g l) = Some l.
Proof. intros H. rewrite (all_some_map f g (fun x => x)) by auto. now rewrite map_id. Qed.
Lemma all_some_none {A B} (f : A -> option B) l x : In x l -> f x = None -> all_some f l = None.
Proof.
  induction l as [|y t IH]; intros H E; [destruct H|]. cbn [all_some]. destruct H as [->|H]; [now rewrite E|].
  rewrite IH by auto. destruct (f y); reflexivity.
Qed.
Lemma beq_refl a : beq a a = true.
Proof. unfold beq. destruct (list_eq_dec _ a a); congruence. Qed.
Lemma beq_neq a b : a <> b -> beq a b = false.
Proof. unfold beq. destruct (list_eq_dec _ a b); congruence. Qed.
Lemma beq_eq a b : beq a b = true -> a = b.
Proof. unfold beq. destruct (list_eq_dec _ a b); congruence. Qed.
