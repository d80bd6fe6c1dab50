(** Xor8/16/32: construction and membership. *)
From Coq Require Import Permutation.
From Verif Require Import Base Hash Xorf Xor SpecFilter SpecXorf Base_facts HashInj_facts
  Peel_facts KeyPeel_facts HSet_facts Bfuse_facts.
Local Open Scope Z_scope.

(** Position inside block [b], and in the flat fingerprint array. *)
Definition xpos (bl b : nat) (h : Z) : nat :=
  Z.to_nat (Z.shiftr ((rotl64 h (Z.of_nat b * 21) mod two32) * Z.of_nat bl) 32).
Definition xfl (bl b : nat) (h : Z) : nat := (b * bl + xpos bl b h)%nat.

Lemma mod32_range' x : 0 <= x mod two32 < two32.
Proof. apply Z.mod_pos_bound. reflexivity. Qed.
Lemma xor_h_eq dbg b bl h : Z.of_nat bl < two32 -> xor_h dbg b bl h = Ok (xpos bl b h).
Proof. intros Hbl. unfold xor_h. rewrite (proj1 (reduce_ok dbg _ bl (mod32_range' _) Hbl)). reflexivity. Qed.
Lemma xpos_lt b bl h : (0 < bl)%nat -> Z.of_nat bl < two32 -> (xpos bl b h < bl)%nat.
Proof. intros H0 Hbl. apply (proj2 (reduce_ok true _ bl (mod32_range' _) Hbl) H0). Qed.

Lemma xor_slots bl : (0 < bl)%nat -> Z.of_nat bl < two32 -> forall h, True ->
  (xfl bl 0 h < 3 * bl)%nat /\ (xfl bl 1 h < 3 * bl)%nat /\ (xfl bl 2 h < 3 * bl)%nat /\
  xfl bl 0 h <> xfl bl 1 h /\ xfl bl 0 h <> xfl bl 2 h /\ xfl bl 1 h <> xfl bl 2 h.
Proof.
  intros H0 Hbl h _. unfold xfl.
  pose proof (xpos_lt 0 bl h H0 Hbl) as B0. pose proof (xpos_lt 1 bl h H0 Hbl) as B1. pose proof (xpos_lt 2 bl h H0 Hbl) as B2.
  generalize dependent (xpos bl 0 h). generalize dependent (xpos bl 1 h). generalize dependent (xpos bl 2 h).
  clear Hbl. intros c Hc b Hb a Ha. repeat split; lia.
Qed.

Lemma nil_dec {A} (l : list A) : {l = []} + {l <> []}.
Proof. destruct l; [left; reflexivity|right; discriminate]. Qed.

Section XS.
Variable dbg : bool.
Variable bl nk : nat.
Hypothesis Hbl0 : (0 < bl)%nat.
Hypothesis Hbl : Z.of_nat bl < two32.
Hypothesis Hnk : Z.of_nat nk < two32.
Let cap := (3 * bl)%nat.
Let Hs := xor_slots bl Hbl0 Hbl.
Notation inc := (inc (xfl bl 0) (xfl bl 1) (xfl bl 2)).
Notation deg := (deg (xfl bl 0) (xfl bl 1) (xfl bl 2)).
Notation hx := (hx (xfl bl 0) (xfl bl 1) (xfl bl 2)).
Notation ainv := (ainv (xfl bl 0) (xfl bl 1) (xfl bl 2) cap (fun _ => True)).
Notation pushes := (pushes (xfl bl 0) (xfl bl 1) (xfl bl 2)).

(** The table cell of flat slot [j]. *)
Definition cell (H : list (list hset)) (j : nat) : option hset :=
  nth_error (nth (j / bl) H []) (j mod bl).
Definition shape (H : list (list hset)) : Prop :=
  length H = 3%nat /\ forall b, (b < 3)%nat -> length (nth b H []) = cap.
Definition setcell (H : list (list hset)) (j : nat) (v : hset) : list (list hset) :=
  upd H (j / bl) (upd (nth (j / bl) H []) (j mod bl) v).

Lemma flat_div b i : (i < bl)%nat -> ((b * bl + i) / bl = b /\ (b * bl + i) mod bl = i)%nat.
Proof.
  intros Hi. split.
  - rewrite Nat.add_comm, Nat.div_add by lia. rewrite Nat.div_small by auto. reflexivity.
  - rewrite Nat.add_comm, Nat.mod_add by lia. apply Nat.mod_small; auto.
Qed.
Lemma flat_lt j : (j < cap)%nat -> (j / bl < 3 /\ j mod bl < bl)%nat.
Proof.
  intros Hj. split; [|apply Nat.mod_upper_bound; lia]. apply Nat.div_lt_upper_bound; [lia|]. unfold cap in Hj. lia.
Qed.
Lemma flat_eq j : j = (j / bl * bl + j mod bl)%nat.
Proof. rewrite Nat.mul_comm. apply Nat.div_mod. lia. Qed.

Lemma setcell_shape H j v : shape H -> shape (setcell H j v).
Proof.
  intros [L S]. unfold setcell. split; [now rewrite length_upd|]. intros b Hb.
  destruct (Nat.eq_dec (j / bl) b) as [<-|N].
  - rewrite nth_upd_eq by lia. rewrite length_upd. auto.
  - rewrite nth_upd_ne by auto. auto.
Qed.
Lemma setcell_eq H j v : shape H -> (j < cap)%nat -> cell (setcell H j v) j = Some v.
Proof.
  intros [L S] Hj. destruct (flat_lt j Hj) as [A B]. unfold cell, setcell. rewrite nth_upd_eq by (rewrite L; auto).
  apply nth_error_upd_eq. rewrite S by auto. unfold cap. lia.
Qed.
Lemma setcell_ne H j j' v : shape H -> j <> j' -> cell (setcell H j v) j' = cell H j'.
Proof.
  intros [L S] N. unfold cell, setcell.
  destruct (Nat.eq_dec (j / bl) (j' / bl)) as [E|E]; [|now rewrite nth_upd_ne by auto].
  destruct (Nat.lt_ge_cases (j / bl) 3) as [K|K]; [|now rewrite upd_oob by lia].
  rewrite <- E. rewrite nth_upd_eq by lia. apply nth_error_upd_ne.
  intros EM. apply N. rewrite (flat_eq j), (flat_eq j'). congruence.
Qed.

Definition xrepr (own : nat -> Prop) (H : list (list hset)) (M : list Z) : Prop :=
  shape H /\ forall j, (j < cap)%nat -> ~ own j -> cell H j = Some (deg M j, hx M j).

Lemma xfl_lt b h : (b < 3)%nat -> (xfl bl b h < cap)%nat.
Proof. intros Hb. unfold xfl, cap. pose proof (xpos_lt b bl h Hbl0 Hbl). assert (b * bl <= 2 * bl)%nat by (apply Nat.mul_le_mono_r; lia). lia. Qed.
Lemma xfl_div b h : (xfl bl b h / bl = b /\ xfl bl b h mod bl = xpos bl b h)%nat.
Proof. unfold xfl. apply flat_div. apply xpos_lt; auto. Qed.
Lemma xfl_inj b b' h h' : xfl bl b h = xfl bl b' h' -> b = b'.
Proof. intros E. rewrite <- (proj1 (xfl_div b h)), <- (proj1 (xfl_div b' h')). now rewrite E. Qed.
Lemma xinc_block h b : (b < 3)%nat -> inc h (xfl bl b h) = true.
Proof.
  intros Hb. apply (inc_true (xfl bl 0) (xfl bl 1) (xfl bl 2)).
  destruct b as [|[|[|b]]]; [auto|auto|auto|lia].
Qed.
Lemma xinc_iff h j : inc h j = true <-> exists b, (b < 3)%nat /\ j = xfl bl b h.
Proof.
  rewrite (inc_true (xfl bl 0) (xfl bl 1) (xfl bl 2)). split.
  - intros [->|[->| ->]]; [exists 0%nat|exists 1%nat|exists 2%nat]; split; auto.
  - intros (b & Hb & ->). destruct b as [|[|[|b]]]; [auto|auto|auto|lia].
Qed.

Lemma hs_blocks h : xor_hset dbg h bl = Ok [xpos bl 0 h; xpos bl 1 h; xpos bl 2 h].
Proof. unfold xor_hset. cbn [seq mapM]. rewrite !xor_h_eq by auto. reflexivity. Qed.

(** Adding one hash to some of its blocks. *)
Lemma xadd_blocks h M : Z.of_nat (length M) + 1 < two32 ->
  forall bs H, NoDup bs -> shape H -> (forall b, In b bs -> (b < 3)%nat) ->
  (forall b, In b bs -> cell H (xfl bl b h) = Some (deg M (xfl bl b h), hx M (xfl bl b h))) ->
  exists H', foldM (fun H b =>
           let* setindex := idx [xpos bl 0 h; xpos bl 1 h; xpos bl 2 h] b in
           let* blk := idx H b in
           let* blk := hs_add dbg blk setindex h in
           set H b blk) bs H = Ok H' /\ shape H' /\
    (forall b, In b bs -> cell H' (xfl bl b h) = Some (deg (h :: M) (xfl bl b h), hx (h :: M) (xfl bl b h))) /\
    (forall j, (forall b, In b bs -> xfl bl b h <> j) -> cell H' j = cell H j).
Proof.
  intros HM. induction bs as [|b bs IH]; intros H NB SH LB HC.
  - exists H. cbn [foldM]. split; [reflexivity|]. split; [auto|]. split; [intros b []|auto].
  - apply NoDup_cons_iff in NB. destruct NB as [NB1 NB2]. pose proof (LB b (or_introl eq_refl)) as Hb.
    pose proof (HC b (or_introl eq_refl)) as Ec. set (j := xfl bl b h) in *.
    pose proof (deg_nonneg (xfl bl 0) (xfl bl 1) (xfl bl 2) cap (fun _ => True) Hs M j) as D0.
    pose proof (deg_le_length (xfl bl 0) (xfl bl 1) (xfl bl 2) cap (fun _ => True) Hs M j) as D1.
    destruct (xfl_div b h) as [E1 E2]. fold j in E1, E2.
    assert (Ej : nth_error (nth b H []) (xpos bl b h) = Some (deg M j, hx M j)) by (rewrite <- Ec; unfold cell; now rewrite E1, E2).
    cbn [foldM].
    assert (EI : idx [xpos bl 0 h; xpos bl 1 h; xpos bl 2 h] b = Ok (xpos bl b h)).
    { destruct b as [|[|[|b]]]; [reflexivity|reflexivity|reflexivity|lia]. }
    rewrite EI. cbn [bind]. rewrite (idx_nth H b []) by (rewrite (proj1 SH); auto). cbn [bind].
    rewrite (hs_add_ok dbg _ _ _ _ h Ej) by lia. cbn [bind]. rewrite set_lt by (rewrite (proj1 SH); auto). cbn [bind].
    assert (ES : upd H b (upd (nth b H []) (xpos bl b h) (deg M j + 1, Z.lxor (hx M j) h)) =
                 setcell H j (deg M j + 1, Z.lxor (hx M j) h)) by (unfold setcell; now rewrite E1, E2).
    rewrite ES. clear ES.
    destruct (IH (setcell H j (deg M j + 1, Z.lxor (hx M j) h)) NB2) as (H' & E & L & A & B).
    { now apply setcell_shape. } { intros b' Hb'. apply LB. now right. }
    { intros b' Hb'. rewrite setcell_ne; auto. apply HC; now right. intros K. apply xfl_inj in K. apply NB1. rewrite K. auto. }
    exists H'. split; [exact E|]. split; [exact L|]. split.
    + intros b' [<-|Hb']; [|auto]. fold j. rewrite B by (intros b' Hb' K; apply xfl_inj in K; apply NB1; rewrite <- K; auto).
      rewrite setcell_eq by (auto; apply xfl_lt; auto).
      cbn [Peel_facts.deg Peel_facts.hx]. replace (inc h j) with true by (symmetry; apply xinc_block; auto).
      f_equal. f_equal; [lia|apply Z.lxor_comm].
    + intros j' Hj'. rewrite B by (intros b' Hb'; apply Hj'; now right). apply setcell_ne; auto. apply (Hj' b). now left.
Qed.

Lemma xadd_key M H seed key : Z.of_nat (length M) + 1 < two32 -> xrepr (fun _ => False) H M ->
  exists H', xor_add_key dbg bl seed H key = Ok H' /\ xrepr (fun _ => False) H' (mix key seed :: M).
Proof.
  intros HM [SH RH]. unfold xor_add_key. rewrite hs_blocks. cbn [bind]. set (h := mix key seed).
  destruct (xadd_blocks h M HM (seq 0 3) H (seq_NoDup 3 0) SH) as (H' & E & L & A & B).
  { intros b Hb. apply in_seq in Hb. lia. }
  { intros b Hb. apply RH; [|tauto]. apply xfl_lt. apply in_seq in Hb. lia. }
  exists H'. split; [exact E|]. split; [exact L|]. intros j Hj _.
  destruct (inc h j) eqn:Ij.
  - apply xinc_iff in Ij. destruct Ij as (b & Hb & ->). apply A. apply in_seq. lia.
  - rewrite B. 2:{ intros b Hb <-. apply in_seq in Hb. rewrite xinc_block in Ij by lia. discriminate. }
    cbn [Peel_facts.deg Peel_facts.hx]. rewrite Ij, Z.lxor_0_l. apply RH; auto.
Qed.

Lemma xadd_all seed keys : forall M H, Z.of_nat (length keys + length M) < two32 -> xrepr (fun _ => False) H M ->
  exists H', foldM (xor_add_key dbg bl seed) keys H = Ok H' /\
    xrepr (fun _ => False) H' (rev (map (fun key => mix key seed) keys) ++ M).
Proof.
  induction keys as [|key keys IH]; intros M H HL HR; cbn [foldM map rev].
  - exists H. auto.
  - cbn [length] in HL. destruct (xadd_key M H seed key) as (H1 & E1 & R1); [lia|auto|].
    rewrite E1. cbn [bind]. destruct (IH (mix key seed :: M) H1) as (H' & E & R); [cbn [length]; lia|auto|].
    exists H'. split; [exact E|]. now rewrite <- app_assoc.
Qed.

Lemma xrepr_perm own H M M' : Permutation M M' -> xrepr own H M -> xrepr own H M'.
Proof.
  intros P [L R]. split; [exact L|]. intros j Hj No.
  rewrite <- (deg_perm _ _ _ cap (fun _ => True) Hs _ _ j P), <- (hx_perm _ _ _ _ _ j P). auto.
Qed.
Lemma xrepr_nil : xrepr (fun _ => False) (repeat (repeat (0, 0) cap) 3) [].
Proof.
  assert (N : forall b, (b < 3)%nat -> nth b (repeat (repeat ((0, 0) : hset) cap) 3) [] = repeat (0, 0) cap).
  { intros b Hb. destruct b as [|[|[|b]]]; [reflexivity|reflexivity|reflexivity|lia]. }
  split; [split; [reflexivity|]|].
  - intros b Hb. rewrite N by auto. apply repeat_length.
  - intros j Hj _. destruct (flat_lt j Hj) as [A B]. unfold cell. rewrite N by auto. cbn.
    apply nth_error_repeat. unfold cap. lia.
Qed.

(** Queues. *)
Definition lift (b : nat) (q : queue) : list (Z * nat) := map (fun e => (fst e, (b * bl + snd e)%nat)) q.
Definition flatq (Q : list queue) : list (Z * nat) :=
  lift 0 (nth 0 Q []) ++ lift 1 (nth 1 Q []) ++ lift 2 (nth 2 Q []).

Lemma flatq_cons (Q : list queue) b e q : length Q = 3%nat -> (b < 3)%nat -> nth b Q [] = q ->
  Permutation (flatq (upd Q b (e :: q))) ((fst e, (b * bl + snd e)%nat) :: flatq Q).
Proof.
  intros L Hb E. unfold flatq.
  destruct b as [|[|[|b]]]; [| | |lia]; subst q; rewrite nth_upd_eq by lia; rewrite !nth_upd_ne by lia; unfold lift; cbn [map].
  - reflexivity.
  - symmetry. apply (Permutation_middle (map _ _) (map _ _ ++ map _ _)).
  - rewrite !app_assoc. symmetry. apply Permutation_middle.
Qed.
Lemma flatq_pop (Q : list queue) b e q : length Q = 3%nat -> (b < 3)%nat -> nth b Q [] = e :: q ->
  Permutation (flatq Q) ((fst e, (b * bl + snd e)%nat) :: flatq (upd Q b q)).
Proof.
  intros L Hb E. rewrite <- (flatq_cons (upd Q b q) b e q); [|now rewrite length_upd|auto|apply nth_upd_eq; lia].
  rewrite upd_upd. rewrite <- E. rewrite upd_same. reflexivity.
Qed.
Lemma flatq_len (Q : list queue) : length Q = 3%nat -> length (flatq Q) = list_sum (map (@length _) Q).
Proof.
  intros L. destruct Q as [|a [|b [|c [|d Q]]]]; try discriminate. unfold flatq, lift. cbn.
  rewrite !app_length, !map_length. lia.
Qed.

Lemma blk_len (Q : list queue) b : length Q = 3%nat -> (b < 3)%nat -> (length (nth b Q []) <= length (flatq Q))%nat.
Proof.
  intros L Hb. unfold flatq, lift. rewrite !app_length, !map_length. destruct b as [|[|[|b]]]; lia.
Qed.

(** The initial queues. *)
Lemma xinit_block own H M b : (b < 3)%nat -> xrepr own H M -> (forall j, ~ own j) -> forall is (Q : list queue) (q : queue), length Q = 3%nat -> nth b Q [] = q ->
  NoDup is -> (forall i, In i is -> (i < bl)%nat) -> (length q + length is <= cap)%nat ->
  exists q', foldM (fun q i => try_enqueue cap (nth b H []) i q) is q = Ok q' /\
    Permutation (flatq (upd Q b q')) (pushes M (map (fun i => b * bl + i)%nat is) (flatq Q)) /\
    (length q' <= length q + length is)%nat.
Proof.
  intros Hb [SH RH] NO. induction is as [|i is IH]; intros Q q LQ EQ NI LI LL.
  - exists q. cbn [foldM map HSet_facts.pushes]. split; [reflexivity|]. split; [|cbn; lia]. rewrite <- EQ, upd_same. reflexivity.
  - apply NoDup_cons_iff in NI. cbn [foldM map HSet_facts.pushes]. cbn [length] in LL.
    set (j := (b * bl + i)%nat). assert (Hi : (i < bl)%nat) by (apply LI; now left).
    destruct (flat_div b i Hi) as [E1 E2]. fold j in E1, E2.
    assert (Ej : nth_error (nth b H []) i = Some (deg M j, hx M j)).
    { rewrite <- RH; [unfold cell; now rewrite E1, E2| |auto]. unfold j, cap.
      assert (b * bl <= 2 * bl)%nat by (apply Nat.mul_le_mono_r; lia). lia. }
    rewrite (try_enqueue_ok cap _ _ _ _ q Ej) by lia. cbn [bind].
    destruct (deg M j =? 1).
    + destruct (IH (upd Q b ((hx M j, i) :: q)) ((hx M j, i) :: q)) as (q' & E & P & L'); auto.
      { now rewrite length_upd. } { apply nth_upd_eq. lia. } { tauto. } { intros; apply LI; now right. } { cbn [length]; lia. }
      exists q'. split; [exact E|]. split; [|cbn [length] in *; lia]. rewrite upd_upd in P. rewrite P.
      apply pushes_perm. apply (flatq_cons Q b (hx M j, i) q); auto.
    + destruct (IH Q q) as (q' & E & P & L'); auto; [tauto|intros; apply LI; now right|lia|].
      exists q'. split; [exact E|]. split; [exact P|]. cbn [length]. lia.
Qed.

Definition qok (Q : list queue) : Prop :=
  length Q = 3%nat /\ forall b, (b < 3)%nat -> Forall (fun e => (snd e < bl)%nat) (nth b Q []).

Lemma pushes_app M js1 : forall js2 Q, pushes M (js1 ++ js2) Q = pushes M js2 (pushes M js1 Q).
Proof. induction js1 as [|j js1 IH]; intros js2 Q; cbn [app HSet_facts.pushes]; auto. Qed.

Lemma qok_upd Q b q : qok Q -> (b < 3)%nat -> Forall (fun e => (snd e < bl)%nat) q -> qok (upd Q b q).
Proof.
  intros [L F] Hb Hq. split; [now rewrite length_upd|]. intros b' Hb'. destruct (Nat.eq_dec b b') as [<-|N].
  - rewrite nth_upd_eq by lia. auto.
  - rewrite nth_upd_ne by auto. auto.
Qed.

Lemma xinit_qok cap' (H : list hset) : forall is (q q' : queue), (forall i, In i is -> (i < bl)%nat) ->
  Forall (fun e => (snd e < bl)%nat) q ->
  foldM (fun q i => try_enqueue cap' H i q) is q = Ok q' -> Forall (fun e => (snd e < bl)%nat) q'.
Proof.
  induction is as [|i is IH]; intros q q' LI F E; cbn [foldM] in E.
  - injection E as <-. auto.
  - apply bind_Ok in E. destruct E as (q1 & E1 & E2). apply (IH q1); auto; [intros; apply LI; now right|].
    unfold try_enqueue in E1. apply bind_Ok in E1. destruct E1 as ([c m] & _ & E1). destruct (c =? 1).
    + destruct (length q <? cap')%nat; [|discriminate]. injection E1 as <-. constructor; auto. apply LI. now left.
    + injection E1 as <-. auto.
Qed.

Lemma seq_shift_add a : forall k z, map (fun i => a + i)%nat (seq z k) = seq (a + z) k.
Proof.
  induction k as [|k IH]; intros z; cbn [seq map]; [reflexivity|]. f_equal. rewrite IH. f_equal. lia.
Qed.
Lemma seq_blocks : seq 0 cap = map (fun i => 0 * bl + i)%nat (seq 0 bl) ++ map (fun i => 1 * bl + i)%nat (seq 0 bl) ++
  map (fun i => 2 * bl + i)%nat (seq 0 bl).
Proof.
  unfold cap. replace (3 * bl)%nat with (bl + (bl + bl))%nat by lia. rewrite !seq_app.
  rewrite !seq_shift_add. f_equal. f_equal; f_equal; lia.
Qed.

Lemma xinit_queues H M : xrepr (fun _ => False) H M ->
  exists Q, xor_init_queues cap bl H = Ok Q /\ qok Q /\ Permutation (flatq Q) (pushes M (seq 0 cap) []).
Proof.
  intros R. unfold xor_init_queues. set (Q0 := [[]; []; []] : list queue).
  assert (K : forall b Q, (b < 3)%nat -> qok Q -> nth b Q [] = [] ->
     exists Q', (let* blk := idx H b in let* q := idx Q b in
                 let* q := foldM (fun q i => try_enqueue cap blk i q) (seq 0 bl) q in set Q b q) = Ok Q' /\ qok Q' /\
       (forall b', b' <> b -> nth b' Q' [] = nth b' Q []) /\
       Permutation (flatq Q') (pushes M (map (fun i => b * bl + i)%nat (seq 0 bl)) (flatq Q))).
  { intros b Q Hb [LQ FQ] EQ. rewrite (idx_nth H b []) by (rewrite (proj1 (proj1 R)); auto). cbn [bind].
    rewrite (idx_nth Q b []) by (rewrite LQ; auto). cbn [bind].
    destruct (xinit_block (fun _ => False) H M b Hb R (fun _ k => k) (seq 0 bl) Q (nth b Q []) LQ eq_refl) as (q' & E & P & LL).
    { apply seq_NoDup. } { intros i Hi. apply in_seq in Hi. lia. } { rewrite EQ, seq_length. cbn [length]. unfold cap. lia. }
    pose proof (xinit_qok cap (nth b H []) (seq 0 bl) (nth b Q []) q') as QK.
    rewrite E. cbn [bind]. rewrite set_lt by (rewrite LQ; auto). eexists. split; [reflexivity|]. split; [|split; [|exact P]].
    - apply qok_upd; [split; auto|auto|]. apply QK; auto. intros i Hi. apply in_seq in Hi. lia.
    - intros b' Nb'. apply nth_upd_ne. auto. }
  assert (QK0 : qok Q0). { split; [reflexivity|]. intros b Hb. destruct b as [|[|[|b]]]; [constructor|constructor|constructor|lia]. }
  destruct (K 0%nat Q0) as (Q1 & E1 & K1 & N1 & P1); auto.
  destruct (K 1%nat Q1) as (Q2 & E2 & K2 & N2 & P2); auto. { now rewrite N1 by lia. }
  destruct (K 2%nat Q2) as (Q3 & E3 & K3 & N3 & P3); auto. { now rewrite N2, N1 by lia. }
  exists Q3. split; [|split; [exact K3|]].
  - cbn [seq foldM]. rewrite E1. cbn [bind]. rewrite E2. cbn [bind]. rewrite E3. reflexivity.
  - rewrite seq_blocks, !pushes_app. rewrite P3. apply pushes_perm. rewrite P2. apply pushes_perm. exact P1.
Qed.

(** The slots of a removed hash in the other blocks. *)
Definition sub_body (h : Z) (s : xstate) (j : nat) : res xstate :=
  let* i := xor_h dbg j bl h in
  let* blk := idx (x_H s) j in
  let* blk := hs_sub dbg blk i h in
  let* H := set (x_H s) j blk in
  let* q := idx (x_Q s) j in
  let* q := try_enqueue cap blk i q in
  let* Q := set (x_Q s) j q in
  Ok {| x_H := H; x_Q := Q; x_stack := x_stack s |}.

Lemma xsub_blocks h M M' : Z.of_nat (length M) < two32 ->
  (forall j, inc h j = true -> deg M j = deg M' j + 1 /\ Z.lxor (hx M j) h = hx M' j) ->
  forall bs s, NoDup bs -> (forall b, In b bs -> (b < 3)%nat) -> shape (x_H s) -> qok (x_Q s) ->
  NoDup (map snd (flatq (x_Q s))) -> (forall j, In j (map snd (flatq (x_Q s))) -> (j < cap)%nat) ->
  (forall b, In b bs -> cell (x_H s) (xfl bl b h) = Some (deg M (xfl bl b h), hx M (xfl bl b h)) /\
     (deg M' (xfl bl b h) = 1 -> ~ In (xfl bl b h) (map snd (flatq (x_Q s))))) ->
  (exists i, (i < cap)%nat /\ ~ In i (map snd (flatq (x_Q s))) /\ deg M' i = 0) ->
  exists H' Q', foldM (sub_body h) bs s = Ok {| x_H := H'; x_Q := Q'; x_stack := x_stack s |} /\
    shape H' /\ qok Q' /\
    Permutation (flatq Q') (pushes M' (map (fun b => xfl bl b h) bs) (flatq (x_Q s))) /\
    (forall b, In b bs -> cell H' (xfl bl b h) = Some (deg M' (xfl bl b h), hx M' (xfl bl b h))) /\
    (forall j, (forall b, In b bs -> xfl bl b h <> j) -> cell H' j = cell (x_H s) j).
Proof.
  intros HM HD. induction bs as [|b bs IH]; intros s NB LB SH QK NQ LQ HB HI.
  - exists (x_H s), (x_Q s). cbn [foldM map HSet_facts.pushes]. split; [destruct s; reflexivity|]. split; [auto|]. split; [auto|].
    split; [reflexivity|]. split; [intros b []|auto].
  - apply NoDup_cons_iff in NB. destruct NB as [NB1 NB2]. pose proof (LB b (or_introl eq_refl)) as Hb.
    destruct (HB b (or_introl eq_refl)) as [Ec Nj]. set (j := xfl bl b h) in *.
    destruct (HD j (xinc_block h b Hb)) as [Dj Xj].
    pose proof (deg_nonneg (xfl bl 0) (xfl bl 1) (xfl bl 2) cap (fun _ => True) Hs M' j) as D0.
    pose proof (deg_le_length (xfl bl 0) (xfl bl 1) (xfl bl 2) cap (fun _ => True) Hs M j) as D1.
    destruct (xfl_div b h) as [E1 E2]. fold j in E1, E2.
    assert (Jeq : j = (b * bl + xpos bl b h)%nat) by reflexivity.
    assert (Jlt : (j < cap)%nat) by (apply xfl_lt; auto).
    assert (Ej : nth_error (nth b (x_H s) []) (xpos bl b h) = Some (deg M j, hx M j)) by (rewrite <- Ec; unfold cell; now rewrite E1, E2).
    assert (FL : (length (flatq (x_Q s)) < cap)%nat).
    { destruct HI as (i & Hi & Ni & _). rewrite <- (map_length snd).
      assert (K : incl (i :: map snd (flatq (x_Q s))) (seq 0 cap)).
      { intros x Hx. apply in_seq. destruct Hx as [<-|Hx]; [lia|]. specialize (LQ x Hx). lia. }
      assert (ND : NoDup (i :: map snd (flatq (x_Q s)))) by (constructor; auto).
      pose proof (NoDup_incl_length ND K) as LL. rewrite seq_length in LL. cbn [length] in LL. lia. }
    pose proof (blk_len (x_Q s) b (proj1 QK) Hb) as BL.
    set (q := nth b (x_Q s) []) in *.
    set (q' := if deg M' j =? 1 then (hx M' j, xpos bl b h) :: q else q).
    assert (STEP : sub_body h s b = Ok {| x_H := setcell (x_H s) j (deg M' j, hx M' j); x_Q := upd (x_Q s) b q'; x_stack := x_stack s |}).
    { unfold sub_body. rewrite xor_h_eq by auto. cbn [bind].
      rewrite (idx_nth (x_H s) b []) by (rewrite (proj1 SH); auto). cbn [bind].
      rewrite (hs_sub_ok dbg _ _ _ _ h Ej) by lia. cbn [bind]. rewrite set_lt by (rewrite (proj1 SH); auto). cbn [bind].
      rewrite (idx_nth (x_Q s) b []) by (rewrite (proj1 QK); auto). cbn [bind]. fold q.
      assert (EU : nth_error (upd (nth b (x_H s) []) (xpos bl b h) (deg M j - 1, Z.lxor (hx M j) h)) (xpos bl b h) = Some (deg M' j, hx M' j)).
      { rewrite nth_error_upd_eq by (apply nth_error_Some; congruence). rewrite Xj. f_equal. f_equal. lia. }
      rewrite (try_enqueue_ok cap _ _ _ _ q EU) by lia. cbn [bind]. fold q'.
      rewrite set_lt by (rewrite (proj1 QK); auto). cbn [bind]. unfold setcell. rewrite E1, E2, Xj.
      replace (deg M j - 1) with (deg M' j) by lia. reflexivity. }
    cbn [foldM]. rewrite STEP. cbn [bind]. clear STEP.
    assert (PQ : Permutation (flatq (upd (x_Q s) b q')) (if deg M' j =? 1 then (hx M' j, j) :: flatq (x_Q s) else flatq (x_Q s))).
    { unfold q'. destruct (deg M' j =? 1).
      - apply (flatq_cons (x_Q s) b (hx M' j, xpos bl b h) q); auto. apply QK.
      - unfold q. rewrite upd_same. reflexivity. }
    assert (PS : Permutation (map snd (flatq (upd (x_Q s) b q'))) (map snd (if deg M' j =? 1 then (hx M' j, j) :: flatq (x_Q s) else flatq (x_Q s))))
      by (apply Permutation_map; exact PQ).
    destruct (IH {| x_H := setcell (x_H s) j (deg M' j, hx M' j); x_Q := upd (x_Q s) b q'; x_stack := x_stack s |})
      as (H' & Q' & E & S' & QK' & P' & A & B); cbn [x_H x_Q x_stack]; auto.
    { intros b' Hb'. apply LB. now right. } { now apply setcell_shape. }
    { apply qok_upd; auto. unfold q'. pose proof (proj2 QK b Hb) as F. fold q in F. destruct (deg M' j =? 1); auto.
      constructor; [cbn; apply xpos_lt; auto|auto]. }
    { apply (Permutation_NoDup (Permutation_sym PS)). destruct (Z.eqb_spec (deg M' j) 1); auto. cbn [map snd]. constructor; auto. }
    { intros x Hx. apply (Permutation_in x PS) in Hx. destruct (deg M' j =? 1); auto.
      cbn [map snd] in Hx. destruct Hx as [<-|Hx]; auto. }
    { intros b' Hb'. destruct (HB b' (or_intror Hb')) as [Ec' Nj'].
      assert (NE : j <> xfl bl b' h) by (intros K; apply xfl_inj in K; apply NB1; rewrite K; auto).
      split; [now rewrite setcell_ne by auto|]. intros K Hin. apply (Permutation_in _ PS) in Hin.
      destruct (deg M' j =? 1); [|exact (Nj' K Hin)]. cbn [map snd] in Hin. destruct Hin as [Hin|Hin]; [contradiction|exact (Nj' K Hin)]. }
    { destruct HI as (i & Hi & Ni & Di). exists i. split; [auto|]. split; [|auto].
      intros Hin. apply (Permutation_in _ PS) in Hin. destruct (Z.eqb_spec (deg M' j) 1) as [K|K]; [|contradiction].
      cbn [map snd] in Hin. destruct Hin as [Hin|Hin]; [|contradiction]. rewrite Hin in K. lia. }
    cbn [x_H x_Q x_stack] in *.
    exists H', Q'. split; [exact E|]. split; [exact S'|]. split; [exact QK'|]. split; [|split].
    + cbn [map HSet_facts.pushes]. fold j. rewrite P'. apply pushes_perm. exact PQ.
    + intros b' [<-|Hb']; [|auto]. fold j. rewrite B by (intros b' Hb' K; apply xfl_inj in K; apply NB1; rewrite <- K; auto).
      apply setcell_eq; auto.
    + intros j' Hj'. rewrite B by (intros b' Hb'; apply Hj'; now right). apply setcell_ne; auto. apply (Hj' b). now left.
Qed.

Record xgood (M0 : list Z) (s : xstate) (M : list Z) : Prop := {
  xg_repr : xrepr (aown (x_stack s)) (x_H s) M;
  xg_qok : qok (x_Q s);
  xg_inv : ainv M0 (flatq (x_Q s)) (x_stack s) M }.

Definition others_ok (b : nat) (others : list nat) : Prop :=
  NoDup others /\ (forall b', In b' others <-> (b' < 3)%nat /\ b' <> b).

Lemma xpop M0 b others e q s M : (length M0 <= nk)%nat -> (b < 3)%nat -> others_ok b others ->
  xgood M0 s M -> nth b (x_Q s) [] = e :: q ->
  exists s' M', xor_pop dbg cap bl nk b others e {| x_H := x_H s; x_Q := upd (x_Q s) b q; x_stack := x_stack s |} = Ok s' /\
    xgood M0 s' M' /\ (length (flatq (x_Q s')) + 2 * length M' < length (flatq (x_Q s)) + 2 * length M)%nat.
Proof.
  intros HN Hb [NO OO] [[SH RH] QK A] EQ. destruct e as [h i].
  pose proof (flatq_pop (x_Q s) b (h, i) q (proj1 QK) Hb EQ) as PP. cbn [fst snd] in PP.
  apply (ainv_perm _ _ _ _ _ _ _ _ _ _ PP) in A.
  assert (Hi : (i < bl)%nat). { pose proof (proj2 QK b Hb) as F. rewrite EQ in F. now apply Forall_cons_iff in F. }
  assert (QK1 : qok (upd (x_Q s) b q)). { apply qok_upd; auto. pose proof (proj2 QK b Hb) as F. rewrite EQ in F. now apply Forall_cons_iff in F. }
  set (j := (b * bl + i)%nat) in *. destruct (flat_div b i Hi) as [E1 E2]. fold j in E1, E2.
  destruct (ainv_head_ne _ _ _ _ _ _ _ _ _ _ A) as (No & Lj & _). cbn [snd] in No, Lj.
  pose proof (Permutation_length PP) as PLQ. cbn [length] in PLQ.
  assert (Ej : nth_error (nth b (x_H s) []) i = Some (deg M j, hx M j)) by (rewrite <- (RH j Lj No); unfold cell; now rewrite E1, E2).
  unfold xor_pop. cbn [x_H x_Q x_stack].
  rewrite (idx_nth (x_H s) b []) by (rewrite (proj1 SH); auto). cbn [bind].
  rewrite (proj2 (idx_Ok (nth b (x_H s) []) i (deg M j, hx M j)) Ej). cbn [bind].
  destruct (Z.eqb_spec (deg M j) 0) as [D|D].
  - eexists _, M. split; [reflexivity|]. cbn [x_Q]. split; [|lia].
    split; cbn [x_H x_Q x_stack]; [split; auto|auto|]. apply (ainv_skip _ _ _ _ _ _ (h, j)); auto.
  - pose proof (ainv_lens _ _ _ _ _ _ _ _ _ A) as LL.
    pose proof (ai_lt _ _ _ _ _ _ _ _ _ A) as QLT. cbn [map snd] in QLT.
    pose proof (ai_nodup _ _ _ _ _ _ _ _ _ A) as QND. cbn [map snd] in QND. apply NoDup_cons_iff in QND. destruct QND as [QN1 QN2].
    destruct (ainv_take _ _ _ _ _ Hs _ _ _ _ _ _ A D) as (_ & _ & _ & Ij & _).
    assert (Jb : j = xfl bl b h).
    { apply xinc_iff in Ij. destruct Ij as (b' & Hb' & K). rewrite K in E1. rewrite (proj1 (xfl_div b' h)) in E1. now rewrite K, E1. }
    destruct (ainv_pop _ _ _ _ _ Hs M0 h j _ (x_stack s) M (map (fun b => xfl bl b h) others) A D)
      as (M' & P & _ & _ & Dj & HD & HE & HO & PL & PN & A').
    { clear - NO Hbl0 Hbl Hnk cap. induction others as [|b others IH]; cbn [map]; [constructor|]. apply NoDup_cons_iff in NO.
      constructor; [|tauto]. intros K. apply in_map_iff in K. destruct K as (b' & K & Hb'). apply xfl_inj in K. subst. tauto. }
    { intros x Hx. apply in_map_iff in Hx. destruct Hx as (b' & <- & Hb'). apply OO in Hb'. apply xinc_block. tauto. }
    { intros x Hx. apply xinc_iff in Hx. destruct Hx as (b' & Hb' & ->). destruct (Nat.eq_dec b' b) as [->|N]; [left; auto|].
      right. apply (in_map (fun b => xfl bl b h)). apply OO. auto. }
    pose proof (Permutation_length P) as PLen. cbn [length] in PLen.
    destruct (Nat.ltb_spec (length (x_stack s)) nk) as [_|K]; [|lia].
    replace (i + b * bl)%nat with j by (unfold j; lia).
    destruct (xsub_blocks h M M') with (bs := others)
      (s := {| x_H := x_H s; x_Q := upd (x_Q s) b q; x_stack := (h, j) :: x_stack s |}) as (H' & Q' & E & S' & QK' & P' & B1 & B2);
      cbn [x_H x_Q x_stack]; auto.
    { lia. } { intros b' Hb'. apply OO in Hb'. tauto. } { intros x Hx. apply QLT. now right. }
    { intros b' Hb'. pose proof (proj1 (OO b') Hb') as [Hb3 _]. split.
      - apply RH; [apply xfl_lt; auto|]. apply HO. apply xinc_block; auto.
      - intros K. apply PN; auto. apply (in_map (fun b => xfl bl b h)); auto. }
    { exists j. auto. }
    cbn [x_H x_Q x_stack] in *. unfold sub_body in E. eexists _, M'. split; [exact E|]. cbn [x_Q]. split.
    + split; cbn [x_H x_Q x_stack]; [split; [exact S'|]|exact QK'|].
      * intros x Hx Nx. destruct (inc h x) eqn:Ix.
        -- apply xinc_iff in Ix. destruct Ix as (b' & Hb' & ->). apply B1. apply OO. split; auto. intros ->.
           apply Nx. unfold aown. cbn [map snd]. left. auto.
        -- rewrite B2. 2:{ intros b' Hb' <-. apply OO in Hb'. rewrite xinc_block in Ix by tauto. discriminate. }
           destruct (HE x Ix) as [<- <-]. apply RH; auto. intros K. apply Nx. unfold aown in *. cbn [map snd]. now right.
      * apply (ainv_perm _ _ _ _ _ _ _ _ _ _ (Permutation_sym P')). exact A'.
    + rewrite (Permutation_length P'). lia.
Qed.

Lemma xdrain M0 b others : (length M0 <= nk)%nat -> (b < 3)%nat -> others_ok b others -> forall fuel s M, xgood M0 s M ->
  (length (flatq (x_Q s)) + 2 * length M <= fuel)%nat ->
  exists s' M', xor_drain fuel dbg cap bl nk b others s = Ok s' /\ xgood M0 s' M' /\
    (length (flatq (x_Q s')) + 2 * length M' <= length (flatq (x_Q s)) + 2 * length M)%nat /\
    (nth b (x_Q s) [] = [] -> s' = s) /\
    (nth b (x_Q s) [] <> [] -> length (flatq (x_Q s')) + 2 * length M' < length (flatq (x_Q s)) + 2 * length M)%nat.
Proof.
  intros HN Hb OO. induction fuel as [|fuel IH]; intros s M HG HF.
  - assert (E : nth b (x_Q s) [] = []).
    { pose proof (blk_len (x_Q s) b (proj1 (xg_qok _ _ _ HG)) Hb) as L. destruct (nth b (x_Q s) []); [reflexivity|cbn [length] in L; lia]. }
    exists s, M. cbn [xor_drain]. rewrite (idx_nth (x_Q s) b []) by (rewrite (proj1 (xg_qok _ _ _ HG)); auto). cbn [bind]. rewrite E.
    split; [reflexivity|]. split; [auto|]. split; [lia|]. split; [auto|]. intros K. contradiction.
  - cbn [xor_drain]. rewrite (idx_nth (x_Q s) b []) by (rewrite (proj1 (xg_qok _ _ _ HG)); auto). cbn [bind].
    destruct (nth b (x_Q s) []) as [|e q] eqn:EQ.
    + exists s, M. split; [reflexivity|]. split; [auto|]. split; [lia|]. split; [auto|]. intros K. contradiction.
    + rewrite set_lt by (rewrite (proj1 (xg_qok _ _ _ HG)); auto). cbn [bind].
      destruct (xpop M0 b others e q s M HN Hb OO HG EQ) as (s1 & M1 & E1 & HG1 & L1). rewrite E1. cbn [bind].
      destruct (IH s1 M1 HG1) as (s' & M' & E' & HG' & L' & _ & _); [lia|].
      exists s', M'. split; [exact E'|]. split; [exact HG'|]. split; [lia|]. split; [discriminate|]. intros _. lia.
Qed.

Lemma others0 : others_ok 0 [1; 2]%nat.
Proof. split; [repeat constructor; cbn; intuition discriminate|]. intros b'. cbn. lia. Qed.
Lemma others1 : others_ok 1 [0; 2]%nat.
Proof. split; [repeat constructor; cbn; intuition discriminate|]. intros b'. cbn. lia. Qed.
Lemma others2 : others_ok 2 [0; 1]%nat.
Proof. split; [repeat constructor; cbn; intuition discriminate|]. intros b'. cbn. lia. Qed.

Lemma flatq_nil (Q : list queue) : length Q = 3%nat -> (list_sum (map (@length _) Q) =? 0)%nat = true -> flatq Q = [].
Proof.
  intros L E. apply Nat.eqb_eq in E. rewrite <- flatq_len in E by auto. now apply length_zero_iff_nil.
Qed.

Lemma xpeel M0 inner : (length M0 <= nk)%nat -> forall fuel s M, xgood M0 s M ->
  (length (flatq (x_Q s)) + 2 * length M <= inner)%nat ->
  (length (flatq (x_Q s)) + 2 * length M <= fuel)%nat ->
  exists s' M', xor_peel fuel inner dbg cap bl nk s = Ok s' /\ xgood M0 s' M' /\ flatq (x_Q s') = [].
Proof.
  intros HN. induction fuel as [|fuel IH]; intros s M HG HI HF; cbn [xor_peel];
    pose proof (proj1 (xg_qok _ _ _ HG)) as LQ; pose proof (flatq_len (x_Q s) LQ) as LF.
  - destruct (list_sum (map (@length _) (x_Q s)) =? 0)%nat eqn:E.
    + exists s, M. split; [reflexivity|]. split; [auto|]. now apply flatq_nil.
    + apply Nat.eqb_neq in E. lia.
  - destruct (list_sum (map (@length _) (x_Q s)) =? 0)%nat eqn:E.
    + exists s, M. split; [reflexivity|]. split; [auto|]. now apply flatq_nil.
    + apply Nat.eqb_neq in E.
      destruct (xdrain M0 0 [1; 2]%nat HN ltac:(lia) others0 inner s M HG HI) as (s1 & M1 & E1 & G1 & L1 & K1 & T1).
      rewrite E1. cbn [bind].
      destruct (xdrain M0 1 [0; 2]%nat HN ltac:(lia) others1 inner s1 M1 G1 ltac:(lia)) as (s2 & M2 & E2 & G2 & L2 & K2 & T2).
      rewrite E2. cbn [bind].
      destruct (xdrain M0 2 [0; 1]%nat HN ltac:(lia) others2 inner s2 M2 G2 ltac:(lia)) as (s3 & M3 & E3 & G3 & L3 & K3 & T3).
      rewrite E3. cbn [bind].
      assert (LT : (length (flatq (x_Q s3)) + 2 * length M3 < length (flatq (x_Q s)) + 2 * length M)%nat).
      { destruct (nil_dec (nth 0 (x_Q s) [])) as [N0|N0]; [|specialize (T1 N0); lia].
        rewrite (K1 N0) in *.
        destruct (nil_dec (nth 1 (x_Q s) [])) as [N1|N1]; [|specialize (T2 N1); lia].
        rewrite (K2 N1) in *.
        destruct (nil_dec (nth 2 (x_Q s) [])) as [N2|N2]; [|specialize (T3 N2); lia].
        exfalso. apply E. rewrite <- LF. unfold flatq. rewrite N0, N1, N2. reflexivity. }
      destruct (IH s3 M3 G3) as (s' & M' & E' & G' & F'); [lia|lia|]. exists s', M'. auto.
Qed.
End XS.

Lemma xor_cap_eq k : xor_capacity k = (3 * xor_block_length k)%nat.
Proof. unfold xor_block_length, xor_capacity. rewrite Nat.div_mul by lia. apply Nat.mul_comm. Qed.
Lemma xor_bl_pos k : (10 <= xor_block_length k)%nat.
Proof.
  unfold xor_block_length, xor_capacity. rewrite Nat.div_mul by lia.
  generalize (f64_to_usize (f64_mul f_1_23 (f64_of_usize k))). intros x.
  apply Nat.div_le_lower_bound; lia.
Qed.

Lemma xor_bl_pos0 k : (0 < xor_block_length k)%nat.
Proof. pose proof (xor_bl_pos k). lia. Qed.

Section XA.
Variable dbg : bool.
Variable bl : nat.
Hypothesis Hbl0 : (0 < bl)%nat.
Hypothesis Hbl : Z.of_nat bl < two32.
Let cap := (3 * bl)%nat.
Let Hs := xor_slots bl Hbl0 Hbl.
Notation inc := (inc (xfl bl 0) (xfl bl 1) (xfl bl 2)).
Notation x3 := (x3 (xfl bl 0) (xfl bl 1) (xfl bl 2)).
Definition xgd (e : Z * nat) : Prop := True /\ inc (fst e) (snd e) = true.

Lemma lxor_solve' x y : (forall k, Z.testbit x k = Z.testbit y k) -> x = y.
Proof. intros H. apply Z.bits_inj. intros k. apply H. Qed.

Lemma xread B h : length B = cap ->
  idx B (xpos bl 0 h) = Ok (nth (xfl bl 0 h) B 0) /\ idx B (xpos bl 1 h + bl) = Ok (nth (xfl bl 1 h) B 0) /\
  idx B (xpos bl 2 h + 2 * bl) = Ok (nth (xfl bl 2 h) B 0).
Proof.
  intros LB. destruct (Hs h I) as (B1 & B2 & B3 & _).
  assert (E0 : xpos bl 0 h = xfl bl 0 h) by (unfold xfl; lia).
  assert (E1 : (xpos bl 1 h + bl)%nat = xfl bl 1 h) by (unfold xfl; lia).
  assert (E2 : (xpos bl 2 h + 2 * bl)%nat = xfl bl 2 h) by (unfold xfl; lia).
  rewrite E0, E1, E2. split; [|split]; apply idx_nth; rewrite LB; auto.
Qed.

Lemma xassign_step w B e : length B = cap -> xgd e -> nth (snd e) B 0 = 0 ->
  exists v, xor_assign_one w dbg bl B e = Ok (upd B (snd e) v) /\
    x3 (upd B (snd e) v) (fst e) = fingerprint w (fst e).
Proof.
  intros LB [_ Hi] Z0. destruct e as [h i]. cbn [fst snd] in *. unfold xor_assign_one. rewrite !xor_h_eq by auto. cbn [bind].
  destruct (xread B h LB) as (R0 & R1 & R2). rewrite R0. cbn [bind]. rewrite R1. cbn [bind]. rewrite R2. cbn [bind].
  destruct (Hs h I) as (B1 & B2 & B3 & N12 & N13 & N23).
  apply (inc_true (xfl bl 0) (xfl bl 1) (xfl bl 2)) in Hi. unfold KeyPeel_facts.x3.
  assert (LT : (i < length B)%nat) by (rewrite LB; destruct Hi as [->|[->| ->]]; auto).
  eexists. split; [apply set_lt; exact LT|].
  destruct Hi as [->|[->| ->]]; rewrite nth_upd_eq by auto; rewrite !nth_upd_ne by auto; rewrite Z0;
    apply lxor_solve'; intros k; rewrite !Z.lxor_spec, Z.bits_0;
    repeat match goal with |- context [Z.testbit ?x k] => destruct (Z.testbit x k) end; reflexivity.
Qed.

Lemma xassign_all w stack : Forall xgd stack -> aordered (xfl bl 0) (xfl bl 1) (xfl bl 2) stack ->
  exists fps', foldM (xor_assign_one w dbg bl) stack (repeat 0 cap) = Ok fps' /\ length fps' = cap /\
    forall e, In e stack -> x3 fps' (fst e) = fingerprint w (fst e).
Proof.
  intros HF HO.
  destruct (assign_gen (xfl bl 0) (xfl bl 1) (xfl bl 2) cap
     (Z * nat)%type fst snd (fingerprint w) (fun v => v = 0) xgd) with (step := xor_assign_one w dbg bl) (stack := stack) (B := repeat 0 cap)
    as (fps' & E & L & _ & Sat); auto.
  - intros e [_ H]. exact H.
  - intros B e LB G Z0. apply xassign_step; auto.
  - apply repeat_length.
  - intros e _. apply nth_repeat.
  - exists fps'. auto.
Qed.

Lemma xor_contains_x3 w seed fps key : length fps = cap ->
  xor_contains w dbg {| xf_seed := seed; xf_block_length := bl; xf_fingerprints := fps |} key =
  Ok (fingerprint w (mix key seed) =? x3 fps (mix key seed)).
Proof.
  intros HL. unfold xor_contains. cbn [xf_seed xf_block_length xf_fingerprints].
  unfold xor_hset. cbn [seq mapM]. rewrite !xor_h_eq by auto. cbn [bind idx nth_error].
  destruct (xread fps (mix key seed) HL) as (R0 & R1 & R2). rewrite R0. cbn [bind]. rewrite R1. cbn [bind]. rewrite R2. reflexivity.
Qed.
End XA.

Section Top.
Variable dbg : bool.
Variable keys : list Z.
Let nk := length keys.
Let bl := xor_block_length nk.
Hypothesis Hbl : Z.of_nat bl < two32.
Hypothesis Hnk : Z.of_nat nk < two32.
Let Hbl0 : (0 < bl)%nat := xor_bl_pos0 nk.
Notation xpeels := (peels (xfl bl 0) (xfl bl 1) (xfl bl 2)).
Definition xhs (seed : Z) : list Z := map (fun key => mix key seed) keys.

Lemma xor_attempt_ok seed : exists stack M,
  xor_attempt dbg keys seed = Ok stack /\
  ainv (xfl bl 0) (xfl bl 1) (xfl bl 2) (3 * bl) (fun _ => True) (xhs seed) [] stack M /\
  ((length stack =? nk)%nat = true <-> xpeels (xhs seed)).
Proof.
  unfold xor_attempt. fold nk. rewrite xor_cap_eq. fold bl.
  destruct (xadd_all dbg bl nk Hbl0 Hbl seed keys [] (repeat (repeat (0, 0) (3 * bl)) 3)) as (H & E & R).
  { rewrite Nat.add_0_r. exact Hnk. } { apply xrepr_nil; auto. }
  rewrite E. cbn [bind]. rewrite app_nil_r in R.
  apply (xrepr_perm bl Hbl0 Hbl _ _ _ (xhs seed) (Permutation_sym (Permutation_rev _))) in R.
  destruct (xinit_queues bl nk Hbl0 Hbl H (xhs seed) R) as (Q & EQ & QK & PQ). rewrite EQ. cbn [bind].
  assert (LM : length (xhs seed) = nk) by (unfold xhs; apply map_length).
  assert (G : xgood bl (xhs seed) {| x_H := H; x_Q := Q; x_stack := [] |} (xhs seed)).
  { split; cbn [x_H x_Q x_stack]; [|exact QK|].
    - destruct R as [R1 R2]. split; [exact R1|]. intros j Hj _. apply R2; auto.
    - apply (ainv_perm _ _ _ _ _ _ _ _ _ _ (Permutation_sym PQ)). apply pushes_init. apply xor_slots; auto. apply Forall_forall; auto. }
  pose proof (ainv_qlen _ _ _ _ _ _ _ _ _ (xg_inv _ _ _ _ G)) as QL. cbn [x_Q] in QL.
  destruct (xpeel dbg bl nk Hbl0 Hbl Hnk (xhs seed) (3 * bl + 2 * nk + 1)%nat) with (fuel := (3 * bl + 2 * nk + 1)%nat)
    (s := {| x_H := H; x_Q := Q; x_stack := [] |}) (M := xhs seed) as (s' & M' & E' & G' & Q0); auto.
  { lia. } { cbn [x_Q]. lia. } { cbn [x_Q]. lia. }
  rewrite E'. cbn [bind]. destruct G' as [_ _ A]. rewrite Q0 in A. exists (x_stack s'), M'. split; [reflexivity|]. split; [exact A|].
  rewrite <- (ainv_final _ _ _ _ _ (xor_slots bl Hbl0 Hbl) _ _ _ A).
  pose proof (ainv_lens _ _ _ _ _ _ _ _ _ A) as L. rewrite LM in L. rewrite Nat.eqb_eq.
  split; [intros K; destruct M'; [reflexivity|cbn [length] in L; lia]|intros ->; cbn [length] in L; lia].
Qed.

Lemma xor_loop_cases mi : forall rng seed,
  (exists i stack, (i < mi)%nat /\ xor_loop mi dbg keys rng seed = Ok (sq rng seed i, stack) /\
     xpeels (xhs (sq rng seed i)) /\
     ainv (xfl bl 0) (xfl bl 1) (xfl bl 2) (3 * bl) (fun _ => True) (xhs (sq rng seed i)) [] stack [] /\
     (forall j, (j < i)%nat -> ~ xpeels (xhs (sq rng seed j)))) \/
  (xor_loop mi dbg keys rng seed = Hang /\ forall j, (j < mi)%nat -> ~ xpeels (xhs (sq rng seed j))).
Proof.
  induction mi as [|mi IH]; intros rng seed.
  - right. split; [reflexivity|]. intros j Hj. lia.
  - cbn [xor_loop]. destruct (xor_attempt_ok seed) as (stack & M & E & A & P). rewrite E. cbn [bind]. fold nk.
    destruct (length stack =? nk)%nat eqn:EL.
    + left. exists 0%nat, stack. split; [lia|]. split; [reflexivity|]. assert (PP : xpeels (xhs seed)) by (apply P; reflexivity).
      split; [exact PP|]. split; [|intros j Hj; lia]. cbn [sq].
      assert (M = []) as -> by (apply (ainv_final _ _ _ _ _ (xor_slots bl Hbl0 Hbl) _ _ _ A); exact PP). exact A.
    + assert (NP : ~ xpeels (xhs seed)) by (intros K; apply P in K; discriminate).
      rewrite (surjective_pairing (splitmix64 rng)).
      destruct (IH (fst (splitmix64 rng)) (snd (splitmix64 rng))) as [(i & st & Hi & E' & PP & A' & NJ)|[E' NJ]].
      * left. exists (S i), st. rewrite (sq_step rng seed i) in *. split; [lia|]. split; [exact E'|]. split; [exact PP|].
        split; [exact A'|]. intros [|j] Hj; [exact NP|]. rewrite <- (sq_step rng seed j). apply NJ. lia.
      * right. split; [exact E'|]. intros [|j] Hj; [exact NP|]. rewrite <- (sq_step rng seed j). apply NJ. lia.
Qed.

Lemma xor_construct mi w : (dbg = true -> NoDup keys) ->
  (exists i fps, (i < mi)%nat /\ length fps = (3 * bl)%nat /\ xpeels (xhs (retry_seed i)) /\
     (forall key, In key keys -> x3 (xfl bl 0) (xfl bl 1) (xfl bl 2) fps (mix key (retry_seed i)) = fingerprint w (mix key (retry_seed i))) /\
     (forall j, (j < i)%nat -> ~ xpeels (xhs (retry_seed j))) /\
     xor_from mi w dbg keys =
       Ok {| xf_seed := retry_seed i; xf_block_length := bl; xf_fingerprints := fps |}) \/
  (xor_from mi w dbg keys = Hang /\ forall j, (j < mi)%nat -> ~ xpeels (xhs (retry_seed j))).
Proof.
  intros HD. unfold xor_from.
  assert (E0 : dbg && negb (all_distinct64 keys) = false).
  { destruct dbg; [|reflexivity]. cbn [andb]. rewrite (proj2 (all_distinct64_nodup keys) (HD eq_refl)). reflexivity. }
  rewrite E0. fold nk. rewrite xor_cap_eq. fold bl. rewrite (surjective_pairing (splitmix64 1)).
  destruct (xor_loop_cases mi (fst (splitmix64 1)) (snd (splitmix64 1))) as [(i & st & Hi & E & PP & A & NJ)|[E NJ]];
    rewrite E; cbn [bind].
  - left. rewrite sq_retry in *.
    destruct (xassign_all dbg bl Hbl0 Hbl w st) as (fps & Ef & Lf & Sat).
    { apply (ai_stack _ _ _ _ _ _ _ _ _ A). } { apply (ai_ord _ _ _ _ _ _ _ _ _ A). }
    exists i, fps. split; [exact Hi|]. split; [exact Lf|]. split; [exact PP|]. split; [|split].
    + intros key Hk.
      assert (K : In (mix key (retry_seed i)) (map fst st)).
      { pose proof (ai_perm _ _ _ _ _ _ _ _ _ A) as Pm. rewrite app_nil_r in Pm.
        apply (Permutation_in _ (Permutation_sym Pm)). unfold xhs. apply (in_map (fun key => mix key (retry_seed i))), Hk. }
      apply in_map_iff in K. destruct K as (e & <- & He). apply Sat, He.
    + intros j Hj. specialize (NJ j Hj). now rewrite sq_retry in NJ.
    + rewrite Ef. reflexivity.
  - right. split; [reflexivity|]. intros j Hj. specialize (NJ j Hj). now rewrite sq_retry in NJ.
Qed.
End Top.
