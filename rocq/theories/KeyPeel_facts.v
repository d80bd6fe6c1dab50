(** Peeling with a queue of (hash, slot) entries, and fingerprint assignment along a
    peeling order; independent of the concrete tables. *)
From Coq Require Import Permutation.
From Verif Require Import Base Base_facts Hash Fuse3 Bfusep SpecFilter Peel_facts.
Local Open Scope Z_scope.

Section KeyPeel.
Variables s1 s2 s3 : Z -> nat.
Variable n : nat.
Variable ok : Z -> Prop.
Hypothesis Hs : forall h, ok h -> (s1 h < n)%nat /\ (s2 h < n)%nat /\ (s3 h < n)%nat /\
  s1 h <> s2 h /\ s1 h <> s3 h /\ s2 h <> s3 h.
Notation inc := (inc s1 s2 s3).
Notation deg := (deg s1 s2 s3).
Notation hx := (hx s1 s2 s3).
Notation peels := (peels s1 s2 s3).

Definition aown (stack : list (Z * nat)) (j : nat) : Prop := In j (map snd stack).
Fixpoint aordered (stack : list (Z * nat)) : Prop :=
  match stack with
  | [] => True
  | e :: rest => (forall e', In e' rest -> inc (fst e) (snd e') = false) /\ aordered rest
  end.

Record ainv (M0 : list Z) (Q stack : list (Z * nat)) (M : list Z) : Prop := {
  ai_perm : Permutation (map fst stack ++ M) M0;
  ai_own : forall j, aown stack j -> deg M j = 0;
  ai_ok : Forall ok M;
  ai_stack : Forall (fun e => ok (fst e) /\ inc (fst e) (snd e) = true) stack;
  ai_ord : aordered stack;
  ai_nodup : NoDup (map snd Q);
  ai_lt : forall j, In j (map snd Q) -> (j < n)%nat;
  ai_deg : forall e, In e Q -> ~ aown stack (snd e) /\
     (deg M (snd e) = 0 \/ (deg M (snd e) = 1 /\ hx M (snd e) = fst e));
  ai_all : forall j, (j < n)%nat -> deg M j = 1 -> In j (map snd Q) }.

Lemma ainv_perm M0 Q Q' stack M : Permutation Q Q' -> ainv M0 Q stack M -> ainv M0 Q' stack M.
Proof.
  intros P []. pose proof (Permutation_map snd P) as PS. constructor; auto.
  - now rewrite <- PS.
  - intros j Hj. apply ai_lt0. now rewrite PS.
  - intros e He. apply ai_deg0. now rewrite P.
  - intros j Hj Hd. rewrite <- PS. auto.
Qed.

Lemma ainv_skip M0 e Q stack M : ainv M0 (e :: Q) stack M -> deg M (snd e) = 0 -> ainv M0 Q stack M.
Proof.
  intros [] D. cbn [map] in *. apply NoDup_cons_iff in ai_nodup0. destruct ai_nodup0 as [N ND].
  constructor; auto.
  - intros j Hj. apply ai_lt0. now right.
  - intros e' He'. apply ai_deg0. now right.
  - intros j Hj Hd. destruct (ai_all0 j Hj Hd) as [<-|K]; [lia|auto].
Qed.

Lemma inc_lt h j : ok h -> inc h j = true -> (j < n)%nat.
Proof.
  intros Ho I. destruct (Hs h Ho) as (B1 & B2 & B3 & _). apply (inc_true s1 s2 s3 h j) in I.
  destruct I as [->|[->| ->]]; auto.
Qed.

Lemma ainv_take M0 h i Q stack M : ainv M0 ((h, i) :: Q) stack M -> deg M i <> 0 ->
  exists M', Permutation M (h :: M') /\ ok h /\ inc h i = true /\ deg M' i = 0 /\
    (forall j, inc h j = true -> ~ aown stack j) /\
    (forall j, deg M j = (if inc h j then 1 else 0) + deg M' j) /\
    (forall j, hx M j = Z.lxor (if inc h j then h else 0) (hx M' j)) /\
    (forall e, In e Q -> snd e <> i) /\
    (forall e, In e Q -> inc h (snd e) = true -> deg M' (snd e) = 0) /\
    forall Q', NoDup (map snd Q') ->
      (forall e, In e Q' <-> In e Q \/
         (inc h (snd e) = true /\ snd e <> i /\ deg M' (snd e) = 1 /\ hx M' (snd e) = fst e)) ->
      ainv M0 Q' ((h, i) :: stack) M'.
Proof.
  intros [] D. cbn [map snd] in *. apply NoDup_cons_iff in ai_nodup0. destruct ai_nodup0 as [N ND].
  destruct (ai_deg0 (h, i) (or_introl eq_refl)) as [No Hd]. cbn [fst snd] in *.
  destruct Hd as [Hd|[Hd Hx]]; [contradiction|].
  destruct (deg1 s1 s2 s3 n ok Hs M i Hd) as (h' & M' & P & I & D' & _ & Hx').
  assert (EH : h' = h) by congruence. clear Hx Hx'. rewrite EH in *. clear h' EH.
  assert (DC : forall j, deg M j = (if inc h j then 1 else 0) + deg M' j)
    by (intros j; rewrite (deg_perm s1 s2 s3 n ok Hs _ _ j P); reflexivity).
  assert (XC : forall j, hx M j = Z.lxor (if inc h j then h else 0) (hx M' j))
    by (intros j; rewrite (hx_perm s1 s2 s3 _ _ j P); reflexivity).
  assert (Hok : ok h /\ Forall ok M').
  { pose proof (Permutation_Forall P ai_ok0) as F. now apply Forall_cons_iff in F. }
  assert (NO : forall j, inc h j = true -> ~ aown stack j).
  { intros j Ij Oj. specialize (ai_own0 j Oj). rewrite DC, Ij in ai_own0.
    pose proof (deg_nonneg s1 s2 s3 n ok Hs M' j). lia. }
  assert (QI : forall e, In e Q -> snd e <> i).
  { intros e He E. apply N. rewrite <- E. now apply in_map. }
  exists M'. split; [exact P|]. split; [tauto|]. split; [exact I|]. split; [exact D'|]. split; [exact NO|].
  split; [exact DC|]. split; [exact XC|]. split; [exact QI|]. split.
  { intros e He Ie. destruct (ai_deg0 e (or_intror He)) as [_ [De|[De _]]]; rewrite DC, Ie in De;
      pose proof (deg_nonneg s1 s2 s3 n ok Hs M' (snd e)); lia. }
  intros Q' ND' HQ'. constructor; auto.
  - cbn [map fst app]. rewrite <- ai_perm0, P. apply Permutation_middle.
  - unfold aown. cbn [map snd In]. intros j [<-|Hj]; [auto|]. specialize (ai_own0 j Hj).
    rewrite DC in ai_own0. pose proof (deg_nonneg s1 s2 s3 n ok Hs M' j). destruct (inc h j); lia.
  - tauto.
  - constructor; [cbn; tauto|auto].
  - cbn [aordered fst]. split; [|auto]. intros e' He'. destruct (inc h (snd e')) eqn:E; auto.
    exfalso. apply (NO _ E). unfold aown. now apply in_map.
  - intros j Hj. apply in_map_iff in Hj. destruct Hj as (e & <- & He). apply HQ' in He.
    destruct He as [He|(Ie & _)].
    + apply ai_lt0. right. now apply in_map.
    + apply (inc_lt h); tauto.
  - intros e He. apply HQ' in He. destruct He as [He|(Ie & Ne & De & Xe)].
    + destruct (ai_deg0 e (or_intror He)) as [A B]. split.
      * unfold aown. cbn [map snd In]. intros [K|K]; [apply (QI e He); auto|auto].
      * rewrite DC, XC in B. pose proof (deg_nonneg s1 s2 s3 n ok Hs M' (snd e)).
        destruct (inc h (snd e)) eqn:Ie; [left; lia|].
        rewrite Z.lxor_0_l, Z.add_0_l in B. exact B.
    + split; [|right; auto]. unfold aown. cbn [map snd In]. intros [K|K]; [auto|].
      exact (NO _ Ie K).
  - intros j Hj Dj.
    assert (K : inc h j = true \/ inc h j = false) by (destruct (inc h j); auto).
    destruct K as [Ij|Ij].
    + apply in_map_iff. exists (hx M' j, j). split; auto. apply HQ'. right. cbn [fst snd].
      split; auto. split; [|auto]. intros ->. lia.
    + assert (Dm : deg M j = 1) by (rewrite DC, Ij; lia).
      destruct (ai_all0 j Hj Dm) as [<-|K]; [congruence|].
      apply in_map_iff in K. destruct K as (e & <- & He). apply in_map. apply HQ'. now left.
Qed.

Lemma ainv_init M Q :
  Forall ok M -> NoDup (map snd Q) ->
  (forall e, In e Q <-> (snd e < n)%nat /\ deg M (snd e) = 1 /\ hx M (snd e) = fst e) ->
  ainv M Q [] M.
Proof.
  intros Ho ND HQ. constructor; auto; try exact I; try apply Permutation_refl.
  - intros j [].
  - intros j Hj. apply in_map_iff in Hj. destruct Hj as (e & <- & He). now apply HQ in He.
  - intros e He. apply HQ in He. split; [intros []|tauto].
  - intros j Hj Hd. apply in_map_iff. exists (hx M j, j). split; auto. apply HQ. cbn. auto.
Qed.

Lemma aordered_peels st : Forall (fun e => ok (fst e) /\ inc (fst e) (snd e) = true) st ->
  aordered st -> peels (map fst st).
Proof.
  induction st as [|e st IH] using rev_ind; intros F O; [constructor|].
  apply Forall_app in F. destruct F as [F1 F2]. inversion F2 as [|? ? Fe _]; subst.
  assert (OO : aordered st /\ forall e', In e' st -> inc (fst e') (snd e) = false).
  { clear - O. induction st as [|a st IH]; cbn [app aordered] in *.
    - split; auto. intros e' [].
    - destruct O as [O1 O2]. destruct (IH O2) as [I1 I2]. split.
      + split; auto. intros e' He'. apply O1. apply in_app_iff. now left.
      + intros e' [<-|He']; auto. apply O1. apply in_app_iff. right. now left. }
  destruct OO as [O1 O2].
  apply (peels_take _ _ _ (fst e) _ (map fst st) (snd e)).
  - rewrite map_app. cbn [map]. symmetry. apply Permutation_cons_append.
  - tauto.
  - intros h' Hh'. apply in_map_iff in Hh'. destruct Hh' as (e' & <- & He'). auto.
  - apply IH; auto.
Qed.

Lemma apeels_perm A B : Permutation A B -> peels A -> peels B.
Proof.
  intros PAB HA. inversion HA as [|h A' M' j P I Hf HP]; subst.
  - apply Permutation_nil in PAB. subst. constructor.
  - apply (peels_take _ _ _ h B M' j); auto. now rewrite <- PAB.
Qed.

Lemma apeels_sub M : peels M -> forall N R, Permutation M (N ++ R) -> N <> [] ->
  exists j h, In h N /\ inc h j = true /\ deg N j = 1.
Proof.
  intros HP. induction HP as [|h M M' j P I A HP' IH]; intros N R PN NN.
  - apply Permutation_nil in PN. apply app_eq_nil in PN. tauto.
  - rewrite P in PN.
    assert (Hin : In h (N ++ R)) by (apply (Permutation_in h PN); now left).
    apply in_app_iff in Hin. destruct Hin as [Hin|Hin].
    + apply in_split in Hin. destruct Hin as (N1 & N2 & ->).
      exists j, h. split; [apply in_app_iff; right; now left|]. split; auto.
      rewrite (deg_perm s1 s2 s3 n ok Hs _ (h :: N1 ++ N2) j) by (symmetry; apply Permutation_middle).
      cbn [Peel_facts.deg]. rewrite I.
      assert (Z0 : deg (N1 ++ N2) j = 0).
      { apply (deg_zero_iff s1 s2 s3 n ok Hs). intros h' H'. apply A.
        assert (PP : Permutation (h :: M') (h :: (N1 ++ N2) ++ R)).
        { rewrite PN. rewrite <- app_assoc. cbn [app]. rewrite <- app_assoc. symmetry.
          rewrite Permutation_middle. reflexivity. }
        apply Permutation_cons_inv in PP. apply (Permutation_in h' (Permutation_sym PP)).
        apply in_app_iff. now left. }
      lia.
    + apply in_split in Hin. destruct Hin as (R1 & R2 & ->).
      apply (IH N (R1 ++ R2)); auto.
      assert (PP : Permutation (h :: M') (h :: N ++ R1 ++ R2)).
      { rewrite PN. symmetry. rewrite !app_assoc. apply Permutation_middle. }
      now apply Permutation_cons_inv in PP.
Qed.

Lemma ainv_final M0 stack M : ainv M0 [] stack M -> (M = [] <-> peels M0).
Proof.
  intros []. split.
  - intros ->. rewrite app_nil_r in ai_perm0. apply (apeels_perm (map fst stack)); auto.
    apply aordered_peels; auto.
  - intros HP. destruct M as [|h M]; auto. exfalso.
    destruct (apeels_sub M0 HP (h :: M) (map fst stack)) as (j & h' & Hin & I & D).
    + rewrite <- ai_perm0. apply Permutation_app_comm.
    + discriminate.
    + apply (ai_all0 j); auto. rewrite Forall_forall in ai_ok0. apply (inc_lt h'); auto.
Qed.

(** ** Assignment of fingerprints *)
Section Assign.
Variable E : Type.
Variable hk : E -> Z.
Variable sk : E -> nat.
Variable F : Z -> Z.
Variable init_ok : Z -> Prop.
Variable gd : E -> Prop.
Hypothesis Hgd : forall e, gd e -> inc (hk e) (sk e) = true.
Variable step : list Z -> E -> res (list Z).

Definition x3 (B : list Z) (h : Z) : Z :=
  Z.lxor (Z.lxor (nth (s1 h) B 0) (nth (s2 h) B 0)) (nth (s3 h) B 0).

Fixpoint eordered (stack : list E) : Prop :=
  match stack with
  | [] => True
  | e :: rest => (forall e', In e' rest -> inc (hk e) (sk e') = false) /\ eordered rest
  end.

Hypothesis Hstep : forall B e, length B = n -> gd e ->
  init_ok (nth (sk e) B 0) ->
  exists v, step B e = Ok (upd B (sk e) v) /\ x3 (upd B (sk e) v) (hk e) = F (hk e).

Lemma assign_gen stack : forall B,
  Forall gd stack -> eordered stack ->
  length B = n -> (forall e, In e stack -> init_ok (nth (sk e) B 0)) ->
  exists B', foldM step stack B = Ok B' /\ length B' = n /\
    (forall j, (forall e, In e stack -> sk e <> j) -> nth j B' 0 = nth j B 0) /\
    (forall e, In e stack -> x3 B' (hk e) = F (hk e)).
Proof.
  induction stack as [|e stack IH]; intros B HF HO HL HI.
  - exists B. split; [reflexivity|]. split; auto. split; auto. intros e [].
  - apply Forall_cons_iff in HF. destruct HF as [Hgo HF]. pose proof (Hgd e Hgo) as Hi. cbn [eordered] in HO. destruct HO as [O1 O2].
    destruct (Hstep B e HL Hgo (HI e (or_introl eq_refl))) as (v & E1 & V).
    cbn [foldM]. rewrite E1. cbn [bind].
    assert (NE : forall e', In e' stack -> sk e <> sk e').
    { intros e' He' K. specialize (O1 e' He'). rewrite <- K, Hi in O1. discriminate. }
    destruct (IH (upd B (sk e) v) HF O2) as (B' & E' & L' & Same & Sat).
    { now rewrite length_upd. }
    { intros e' He'. rewrite nth_upd_ne by (apply NE; auto). apply HI. now right. }
    exists B'. split; [exact E'|]. split; [exact L'|]. split.
    + intros j Hj. rewrite Same by (intros e' He'; apply Hj; now right).
      apply nth_upd_ne. apply Hj. now left.
    + intros e' [<-|He']; [|auto]. rewrite <- V. unfold x3.
      assert (K : forall j, inc (hk e) j = true -> nth j B' 0 = nth j (upd B (sk e) v) 0).
      { intros j Ij. apply Same. intros e'' He'' E''. rewrite <- E'' in Ij. rewrite (O1 e'' He'') in Ij. discriminate. }
      destruct (inc_s s1 s2 s3 (hk e)) as (I1 & I2 & I3).
      rewrite (K _ I1), (K _ I2), (K _ I3). reflexivity.
Qed.
End Assign.
(** ** Keys and hashes *)
Section Link.
Variable K : Type.
Variable hk : K -> Z.
Variable slots : K -> list nat.
Hypothesis Hsl : forall key, slots key = [s1 (hk key); s2 (hk key); s3 (hk key)].

Lemma link_in key j : In j (slots key) <-> inc (hk key) j = true.
Proof. rewrite Hsl, inc_true. cbn [In]. intuition. Qed.

Lemma link_load keys j : Z.of_nat (load slots keys j) = deg (map hk keys) j.
Proof.
  unfold load. induction keys as [|key keys IH]; [reflexivity|]. cbn [map filter Peel_facts.deg].
  destruct (in_dec Nat.eq_dec j (slots key)) as [I|N].
  - apply link_in in I. rewrite I. cbn [length]. lia.
  - destruct (inc (hk key) j) eqn:E; [exfalso; apply N, link_in; auto|]. lia.
Qed.

Lemma link_peelable keys : peelable slots keys <-> peels (map hk keys).
Proof.
  split.
  - intros H. induction H as [|key ks ks' j P I A HP IH]; [constructor|].
    apply (peels_take _ _ _ (hk key) _ (map hk ks') j).
    + apply (Permutation_map hk) in P. exact P.
    + now apply link_in.
    + intros h' Hh'. apply in_map_iff in Hh'. destruct Hh' as (key' & <- & Hk').
      destruct (inc (hk key') j) eqn:E; auto. exfalso. apply (A key' Hk'), link_in, E.
    + exact IH.
  - intros H. remember (map hk keys) as M eqn:EM. revert keys EM.
    induction H as [|h M M' j P I A HP IH]; intros keys EM.
    + destruct keys; [constructor|discriminate].
    + subst M. apply Permutation_sym, Permutation_map_inv in P. destruct P as (l3 & E & P).
      destruct l3 as [|key ks']; [discriminate|]. cbn [map] in E. injection E as -> E.
      apply (peelable_take slots key keys ks' j); auto.
      * now apply link_in.
      * intros key' Hk' I'. apply link_in in I'. rewrite A in I'; [discriminate|]. rewrite E.
        apply in_map_iff. exists key'. auto.
Qed.
End Link.

Lemma apeels_nodup M : peels M -> NoDup M.
Proof.
  intros H. induction H as [|h M M' j P I A HP IH]; [constructor|].
  apply (Permutation_NoDup (Permutation_sym P)). constructor; auto.
  intros Hin. specialize (A h Hin). congruence.
Qed.
End KeyPeel.
