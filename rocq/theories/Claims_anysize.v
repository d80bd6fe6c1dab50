(** C78: for which numbers of keys a filter can be built at all. *)
From Coq Require Import Permutation.
From Verif Require Import Base Hash Xorf Float64 Estimate Fuse3 Bfuse Xor Fuse SpecFilter SpecXorf SpecXor SpecEst Claims_estimate Tests XorfTests Claims_xorftests Base_facts HashInj_facts Window_facts Peel_facts KeyPeel_facts Xor_facts Fuse_facts Bfuse_facts Geom_facts FilterTop_facts Claims_xor Claims_xorf Claims_fuse Claims_fusebig Claims_filter Claims_sizes.
Local Open Scope Z_scope.

(** ** Fuse *)
Definition fuse_hash (sl i : Z) : Z :=
  let q := i / sl * 20972 + 1 in let r := word_for sl (i mod sl) in
  fields (q / 2 ^ 11) (q mod 2 ^ 11) (r / 2 ^ 21) (r / 2 ^ 11 mod 2 ^ 10) (r mod 2 ^ 11) 0.

Lemma fuse_hash_ok sl i : 0 < sl < 2 ^ 32 -> 0 <= i < 100 * sl ->
  is_u64 (fuse_hash sl i) /\ fs1z sl (fuse_hash sl i) = i.
Proof.
  intros Hsl Hi. unfold fuse_hash. cbv zeta.
  pose proof (Z.div_mod i sl ltac:(lia)) as D. pose proof (Z.mod_pos_bound i sl ltac:(lia)) as M.
  set (s := i / sl) in *. set (o := i mod sl) in *. clearbody s o.
  destruct (word_for_ok sl o Hsl M) as [R W]. set (r := word_for sl o) in *. clearbody r.
  assert (Hs : 0 <= s < 100) by nia.
  set (q := s * 20972 + 1). assert (Hq : 0 <= q < 2 ^ 21) by (unfold q; lia).
  assert (RG : in_range (q / 2 ^ 11) (q mod 2 ^ 11) (r / 2 ^ 21) (r / 2 ^ 11 mod 2 ^ 10) (r mod 2 ^ 11) 0).
  { clear - R Hq. unfold in_range. change (2 ^ 32) with 4294967296 in *. change (2 ^ 21) with 2097152 in *. change (2 ^ 11) with 2048. change (2 ^ 10) with 1024.
    Z.to_euclidean_division_equations. lia. }
  split; [apply fields_u64; exact RG|]. unfold fs1z. rewrite window21 by exact RG.
  rewrite <- (rotl_0 (fields _ _ _ _ _ _)) at 1 by (apply fields_u64; exact RG). rewrite window0 by exact RG.
  assert (ER : r / 2 ^ 21 * 2 ^ 21 + r / 2 ^ 11 mod 2 ^ 10 * 2 ^ 11 + r mod 2 ^ 11 = r).
  { clear - R. change (2 ^ 21) with (2 ^ 11 * 2 ^ 10). rewrite <- Z.div_div by lia.
    pose proof (Z.div_mod r (2 ^ 11) ltac:(lia)). pose proof (Z.div_mod (r / 2 ^ 11) (2 ^ 10) ltac:(lia)). lia. }
  rewrite ER. rewrite !Z.shiftr_div_pow2 by lia. rewrite W.
  assert (EQ : (q / 2 ^ 11 * 2 ^ 22 + q mod 2 ^ 11 * 2 ^ 11 + r / 2 ^ 21) * 100 / 2 ^ 32 = s).
  { assert (E : q / 2 ^ 11 * 2 ^ 22 + q mod 2 ^ 11 * 2 ^ 11 = q * 2 ^ 11).
    { pose proof (Z.div_mod q (2 ^ 11) ltac:(lia)). lia. }
    rewrite E. destruct RG as (_ & _ & Z1 & _). set (z := r / 2 ^ 21) in *. clearbody z.
    symmetry. apply (Z.div_unique_pos _ _ _ ((q * 2 ^ 11 + z) * 100 - 2 ^ 32 * s)); unfold q; lia. }
  rewrite EQ. clear - D. lia.
Qed.

(** Keys each of which has a slot that no later key uses are peelable. *)
Lemma ordered_peels s1 s2 s3 (hash : nat -> Z) (pk : nat -> nat) : forall n k,
  (forall i, (k <= i < k + n)%nat -> inc s1 s2 s3 (hash i) (pk i) = true) ->
  (forall i j, (k <= i < j)%nat -> (j < k + n)%nat -> inc s1 s2 s3 (hash j) (pk i) = false) ->
  peels s1 s2 s3 (map hash (seq k n)).
Proof.
  induction n as [|n IH]; intros k H1 H2; [constructor|]. cbn [seq map].
  apply (peels_take _ _ _ (hash k) _ (map hash (seq (S k) n)) (pk k)).
  - apply Permutation_refl.
  - apply H1. lia.
  - intros h' Hh. apply in_map_iff in Hh. destruct Hh as (i & <- & Hi). apply in_seq in Hi. apply H2; lia.
  - apply IH; intros; [apply H1|apply H2]; lia.
Qed.

(** Peelable keys have at least two slots more than there are keys. *)
Lemma peels_room s1 s2 s3 M : (forall h, s1 h <> s2 h /\ s1 h <> s3 h /\ s2 h <> s3 h) -> peels s1 s2 s3 M -> M <> [] ->
  exists L, NoDup L /\ length L = (length M + 2)%nat /\ forall j, In j L -> exists h, In h M /\ inc s1 s2 s3 h j = true.
Proof.
  intros D H. induction H as [|h M M' j P I A HP IH]; intros N; [congruence|].
  assert (LM : length M = S (length M')) by (rewrite (Permutation_length P); reflexivity).
  assert (IM : forall x, In x (h :: M') -> In x M) by (intros x Hx; apply (Permutation_in _ (Permutation_sym P)); exact Hx).
  destruct M' as [|h2 M2].
  - exists [s1 h; s2 h; s3 h]. destruct (D h) as (D1 & D2 & D3). split; [|split].
    + repeat constructor; cbn [In]; intuition congruence.
    + rewrite LM. reflexivity.
    + intros j' Hj. exists h. split; [apply IM; now left|]. unfold inc. cbn [In] in Hj.
      destruct Hj as [<-|[<-|[<-|[]]]]; rewrite ?Nat.eqb_refl, ?Bool.orb_true_r; reflexivity.
  - destruct IH as (L & NL & LL & IL); [discriminate|]. exists (j :: L). split; [|split].
    + constructor; [|exact NL]. intros Hj. destruct (IL j Hj) as (h' & Hh & E). rewrite (A h' Hh) in E. discriminate.
    + cbn [length] in *. lia.
    + intros j' [<-|Hj]; [exists h; split; [apply IM; now left|exact I]|].
      destruct (IL j' Hj) as (h' & Hh & E). exists h'. split; [apply IM; now right|exact E].
Qed.

Lemma map_cons_neq (f : Z -> Z) k ks : map f (k :: ks) <> [].
Proof. discriminate. Qed.

(** A Fuse filter of [n] keys: the sizes that can be built. *)
Definition fuse_size_possible (n : Z) : Prop :=
  n = 0 \/ 90 <= n <= 100 \/ 180 <= n <= 202 \/ 269 <= n <= 304 \/ 359 <= n <= 406 \/ 449 <= n <= 508 \/
  538 <= n <= 610 \/ 628 <= n <= 712 \/ 718 <= n.

(** @C78 no Fuse filter is ever built for the other numbers of keys: 1 to 89, 101 to 179, 203 to
    268, 305 to 358, 407 to 448, 509 to 537, 611 to 627 and 713 to 717. The table is too small for
    them, whatever the keys are. *)
Lemma fuse_size_refuted : forall max_iter w dbg rnd keys f, Z.of_nat (length keys) < 2 ^ 32 ->
  fuse_from_impl max_iter w dbg rnd keys = Ok f ->
  fuse_size_possible (Z.of_nat (length keys)).
Proof.
  intros mi w dbg rnd keys f Hn E.
  assert (Hmi : (0 < mi)%nat).
  { destruct mi; [exfalso|lia]. assert (HD : dbg = true -> NoDup keys) by (intros ->; eapply fuse_dbg_distinct; eauto).
    rewrite (fuse_mi0 w dbg rnd keys HD) in E. discriminate E. } pose proof (fuse_sl_bounds _ Hn) as B. pose proof (fuse_sl_small _ Hn) as Hsl.
  unfold fuse_size_possible.
  destruct (Nat.eq_dec (fuse_segment_length (length keys)) 0) as [Z0|Hsl0].
  - destruct keys as [|k0 ks]; [left; reflexivity|]. exfalso.
    rewrite (fuse_zero mi w dbg rnd (k0 :: ks) ltac:(lia) ltac:(discriminate) (fuse_sl_zero _ Z0)) in E. discriminate E.
  - assert (HD : dbg = true -> NoDup keys) by (intros ->; eapply fuse_dbg_distinct; eauto).
    destruct (fuse_construct dbg keys ltac:(lia) Hsl Hn mi w rnd HD) as [(i & fps & Hi & L & P & _)|[EE _]]; [|rewrite EE in E; discriminate].
    destruct keys as [|k0 ks]; [left; reflexivity|]. right.
    set (sl := fuse_segment_length (length (k0 :: ks))) in *.
    pose proof (fuse_slots sl ltac:(lia) Hsl) as FS.
    destruct (peels_room _ _ _ _ (fun h => proj2 (proj2 (proj2 (FS h I)))) P) as (S & ND & LS & IS).
    { apply map_cons_neq. }
    assert (LE : (length S <= length (seq 0 (102 * sl)))%nat).
    { apply NoDup_incl_length; [exact ND|]. intros j Hj. destruct (IS j Hj) as (h & _ & Hh).
      apply in_seq. destruct (FS h I) as (F1 & F2 & F3 & _). unfold inc in Hh. rewrite !Bool.orb_true_iff, !Nat.eqb_eq in Hh. lia. }
    rewrite seq_length, LS in LE. unfold fhs in LE. rewrite map_length in LE.
    set (n := length (k0 :: ks)) in *. clearbody n sl. clear - LE B Hsl0. lia.
Qed.

(** Hashes whose three positions are consecutive in the last three segments (taken in turn), for
    segments of length 2 to 8. *)
Definition fuse_chains : list (list Z) :=
  [[4599339988864078246; 3358703123110521983; 2337188329045888509; 32740368151090342];
   [17711218898329303581; 9946917307168154434; 12653836190801529615; 9841905051823523060; 4531630469424776588; 16245305878271076290; 7850210282957213054];
   [3711209024872706276; 9245248384046476100; 9140549682797664799; 2545743273717385889; 1627060356176835662; 9558465655855172647; 7020436130507038117; 1813349043631101671; 8753094322174811755; 2718262433413836580];
   [16772614213124467071; 9601837236316076508; 7625505342112865034; 15571459933717156538; 18237285519461465145; 2099972689666622431; 11916792740216492996; 14420459787033752905; 6820387694976185956; 5307904430465105187; 17433916860317290263; 2052026870229127052; 5725971925644709726];
   [866523245519188265; 8216955165248758180; 9911160957080553958; 9426536385202688638; 11568418811727936284; 492801738597184436; 12059833555128503129; 14940523186334749707; 14062758216054979911; 551949554326252782; 1865323434984629876; 2643910661141292642; 2337740786423170486; 16010487839967983485; 14607396709578882998; 7781817365440004047];
   [13783225917470478531; 12935900772024967730; 15010655419545594325; 2579654879503467056; 4670260550468516515; 1411813569015601886; 4455068932165171932; 18056607571159993224; 16058924050188577936; 5485012251644441572; 4043710545209578690; 1993830784952911147; 7074390544759817524; 5993026403635031527; 8499279145324826196; 17560526225557741258; 5382014146958276392; 5205479446239581945; 18158067635115827009];
   [8953478903290761317; 3278765380768625106; 11623437321337528681; 3517298930879877517; 3749468456122952221; 13210252373669397174; 5716360652139254392; 8671077725459452759; 13788293351809030986; 3989698002890978144; 5413183089725899934; 17088052846317188190; 15305224634811362329; 13503134156484699475; 14388829410166935018; 18422763050765002112; 1219941299534036609; 17939182877502226083; 18173573171442220771; 8606930692401368969; 4178147260717342497; 10736145671234692913]].

Definition fuse_chain_hash (sl i : nat) : Z :=
  if (i <? 99 * sl)%nat then fuse_hash (Z.of_nat sl) (Z.of_nat i)
  else nth (i - 99 * sl) (nth (sl - 2) fuse_chains []) 0.
Definition fuse_chain_slot (sl i : nat) : nat :=
  if (i <? 99 * sl)%nat then i
  else (let t := i - 99 * sl in (99 + t mod 3) * sl + t / 3)%nat.

Definition chain_check (sl : nat) : bool :=
  forallb (fun t => let h := nth t (nth (sl - 2) fuse_chains []) 0 in
    (0 <=? h) && (h <? two64) && (fseg h =? 99)%nat && (foff sl (rotl64 h 21 mod two32) =? (t + 2) / 3)%nat &&
    (foff sl (rotl64 h 42 mod two32) =? (t + 1) / 3)%nat &&
    (foff sl (Z.shiftr (wmul64 H3 h) 32 mod two32) =? t / 3)%nat) (seq 0 (3 * sl - 2)).
Lemma chains_checked : forallb chain_check (seq 2 7) = true.
Proof. vm_compute. reflexivity. Qed.

Lemma chain_ok sl i : (2 <= sl <= 8)%nat -> (99 * sl <= i < 102 * sl - 2)%nat ->
  let h := fuse_chain_hash sl i in let t := (i - 99 * sl)%nat in
  is_u64 h /\ (fs1 sl h = 99 * sl + (t + 2) / 3 /\ fs2 sl h = 100 * sl + (t + 1) / 3 /\ fs3 sl h = 101 * sl + t / 3)%nat.
Proof.
  intros Hsl Hi. cbv zeta. unfold fuse_chain_hash. rewrite (proj2 (Nat.ltb_ge _ _)) by lia.
  pose proof chains_checked as K. rewrite forallb_forall in K. specialize (K sl ltac:(apply in_seq; lia)).
  unfold chain_check in K. rewrite forallb_forall in K. specialize (K (i - 99 * sl)%nat ltac:(apply in_seq; lia)). cbv zeta in K.
  set (t := (i - 99 * sl)%nat) in *. set (h := nth t (nth (sl - 2) fuse_chains []) 0) in *. clearbody h t.
  rewrite !Bool.andb_true_iff, !Nat.eqb_eq, Z.leb_le, Z.ltb_lt in K.
  destruct K as (((((U1 & U2) & K1) & K2) & K3) & K4). unfold fs1, fs2, fs3. rewrite K1, K2, K3, K4.
  split; [split; assumption|]. split; [|split]; ring.
Qed.

Lemma chain_row sl i : (2 <= sl <= 8)%nat -> (i < 99 * sl)%nat ->
  is_u64 (fuse_chain_hash sl i) /\ fs1 sl (fuse_chain_hash sl i) = i.
Proof.
  intros Hsl Hi. unfold fuse_chain_hash. rewrite (proj2 (Nat.ltb_lt _ _)) by lia.
  destruct (fuse_hash_ok (Z.of_nat sl) (Z.of_nat i) ltac:(lia) ltac:(lia)) as [U E]. split; [exact U|].
  rewrite fs1_z, E. apply Nat2Z.id.
Qed.

Lemma inc_iff s1 s2 s3 h j : inc s1 s2 s3 h j = true <-> j = s1 h \/ j = s2 h \/ j = s3 h.
Proof. unfold inc. rewrite !Bool.orb_true_iff, !Nat.eqb_eq. tauto. Qed.
Lemma inc_not s1 s2 s3 h j : j <> s1 h -> j <> s2 h -> j <> s3 h -> inc s1 s2 s3 h j = false.
Proof. intros A B C. unfold inc. rewrite !(proj2 (Nat.eqb_neq _ _)) by assumption. reflexivity. Qed.

Lemma thirds t : exists q r, (t / 3 = q /\ t mod 3 = r /\
  (r = 0 /\ t = 3 * q \/ r = 1 /\ t = 3 * q + 1 \/ r = 2 /\ t = 3 * q + 2) /\
  (t + 1) / 3 = q + (if r =? 2 then 1 else 0) /\ (t + 2) / 3 = q + (if r =? 0 then 0 else 1))%nat.
Proof.
  exists (t / 3)%nat, (t mod 3)%nat. pose proof (Nat.div_mod_eq t 3) as D. pose proof (Nat.mod_upper_bound t 3 ltac:(lia)) as M.
  set (q := (t / 3)%nat) in *. set (r := (t mod 3)%nat) in *. clearbody q r.
  split; [reflexivity|]. split; [reflexivity|]. split; [lia|].
  destruct (Nat.eq_dec r 0) as [->|N0]; [|destruct (Nat.eq_dec r 1) as [->|N1]; [|assert (r = 2%nat) by lia; subst r]]; cbn [Nat.eqb]; split; symmetry.
  - apply (Nat.div_unique _ _ _ 1); lia.
  - apply (Nat.div_unique _ _ _ 2); lia.
  - apply (Nat.div_unique _ _ _ 2); lia.
  - apply (Nat.div_unique _ _ _ 0); lia.
  - apply (Nat.div_unique _ _ _ 0); lia.
  - apply (Nat.div_unique _ _ _ 1); lia.
Qed.

Lemma chain_peels sl n : (2 <= sl <= 8)%nat -> (n <= 102 * sl - 2)%nat ->
  peels (fs1 sl) (fs2 sl) (fs3 sl) (map (fuse_chain_hash sl) (seq 0 n)).
Proof.
  intros Hsl Hn. apply (ordered_peels _ _ _ _ (fuse_chain_slot sl)).
  - intros i Hi. apply inc_iff. unfold fuse_chain_slot. destruct (Nat.ltb_spec i (99 * sl)) as [L|L].
    + left. symmetry. apply chain_row; assumption.
    + destruct (chain_ok sl i Hsl ltac:(lia)) as (_ & E1 & E2 & E3). cbv zeta in *. rewrite E1, E2, E3. clear.
      set (t := (i - 99 * sl)%nat). clearbody t.
      pose proof (Nat.div_mod_eq t 3) as D. pose proof (Nat.mod_upper_bound t 3 ltac:(lia)) as M.
      set (q := (t / 3)%nat) in *. set (r := (t mod 3)%nat) in *. clearbody q r.
      assert (C : r = 0%nat \/ r = 1%nat \/ r = 2%nat) by lia.
      destruct C as [->|[->| ->]].
      * left. replace ((t + 2) / 3)%nat with q by (apply (Nat.div_unique _ _ _ 2); lia). lia.
      * right. left. replace ((t + 1) / 3)%nat with q by (apply (Nat.div_unique _ _ _ 2); lia). lia.
      * right. right. lia.
  - intros i j Hij Hj.
    assert (G : fuse_chain_slot sl i = i /\ (i < 99 * sl)%nat \/ (99 * sl <= i)%nat /\ fuse_chain_slot sl i = ((99 + (i - 99 * sl) mod 3) * sl + (i - 99 * sl) / 3)%nat).
    { unfold fuse_chain_slot. destruct (Nat.ltb_spec i (99 * sl)); [left|right]; split; auto. }
    destruct (Nat.lt_ge_cases j (99 * sl)) as [L|L].
    + destruct (chain_row sl j Hsl L) as [_ E1]. pose proof (fs_increasing sl (fuse_chain_hash sl j) ltac:(lia)) as F. rewrite E1 in F.
      destruct G as [[-> G]|[G _]]; [|lia]. apply inc_not; lia.
    + destruct (chain_ok sl j Hsl ltac:(lia)) as (_ & E1 & E2 & E3). cbv zeta in *.
      destruct G as [[-> G]|[G ->]]; [apply inc_not; lia|].
      set (t := (i - 99 * sl)%nat) in *. set (t' := (j - 99 * sl)%nat) in *.
      assert (T : (t < t' < 3 * sl - 2)%nat) by lia. clearbody t t'.
      destruct (thirds t) as (q & r & -> & -> & D & _ & _). destruct (thirds t') as (q' & r' & T0 & _ & D' & T1 & T2).
      rewrite T1 in E2. rewrite T2 in E1. rewrite T0 in E3. clear T0 T1 T2.
      apply inc_not; rewrite ?E1, ?E2, ?E3; clear E1 E2 E3; clear - T Hsl D D';
        destruct D as [[-> ->]|[[-> ->]|[-> ->]]], D' as [[-> ->]|[[-> ->]|[-> ->]]]; cbn [Nat.eqb]; lia.
Qed.

(** From hashes that are peelable under the first seed, a key set for which every Fuse
    construction succeeds. *)
Lemma fuse_build n (hash : nat -> Z) : Z.of_nat n < 2 ^ 32 -> (0 < fuse_segment_length n)%nat ->
  (forall i, (i < n)%nat -> is_u64 (hash i)) ->
  peels (fs1 (fuse_segment_length n)) (fs2 (fuse_segment_length n)) (fs3 (fuse_segment_length n)) (map hash (seq 0 n)) ->
  exists keys, length keys = n /\ NoDup keys /\ Forall is_u64 keys /\
    forall w dbg rnd, exists f, fuse_try_from w dbg rnd keys = Ok f.
Proof.
  intros Hn Hsl0 HU P. set (keys := map (fun i => unmix (hash i) (retry_seed 0)) (seq 0 n)). exists keys.
  assert (L : length keys = n) by (unfold keys; now rewrite map_length, seq_length).
  assert (E : fhs keys (retry_seed 0) = map hash (seq 0 n)).
  { unfold fhs, keys. rewrite map_map. apply map_ext_in. intros i Hi. apply in_seq in Hi. apply mix_unmix. apply HU. lia. }
  assert (ND : NoDup keys).
  { pose proof (apeels_nodup _ _ _ _ P) as Q. rewrite <- E in Q. unfold fhs in Q. now apply NoDup_map_inv in Q. }
  split; [exact L|]. split; [exact ND|]. split.
  - apply Forall_forall. intros k Hk. unfold keys in Hk. apply in_map_iff in Hk as (i & <- & _). unfold unmix. apply Z.mod_pos_bound. reflexivity.
  - intros w dbg rnd. unfold fuse_try_from. clearbody keys. subst n.
    destruct (fuse_construct dbg keys Hsl0 (fuse_sl_small _ Hn) Hn (Z.to_nat 1000) w rnd (fun _ => ND)) as [(i & fps & _ & _ & _ & _ & _ & EE)|[_ N]].
    + eexists. exact EE.
    + exfalso. apply (N 0%nat); [lia|]. rewrite E. exact P.
Qed.

(** @C78 for all the other numbers of keys there are distinct keys for which a Fuse filter is
    built, in both profiles, with every fingerprint width and random fill. *)
Lemma fuse_size_built : forall n, Z.of_nat n < 2 ^ 32 -> fuse_size_possible (Z.of_nat n) ->
  exists keys, length keys = n /\ NoDup keys /\ Forall is_u64 keys /\
    forall w dbg rnd, exists f, fuse_try_from w dbg rnd keys = Ok f.
Proof.
  intros n Hn HP. destruct (Nat.eq_dec n 0) as [->|N0].
  { exists []. split; [reflexivity|]. split; [constructor|]. split; [constructor|]. intros w dbg rnd.
    destruct (fuse_empty w dbg rnd) as (f & E & _). exists f. exact E. }
  pose proof (fuse_sl_bounds n Hn) as B. pose proof (fuse_sl_small n Hn) as Hsl.
  set (sl := fuse_segment_length n) in *.
  assert (Hsl0 : (0 < sl)%nat) by (unfold fuse_size_possible in HP; lia).
  destruct (Nat.le_gt_cases n (100 * sl)) as [L|L].
  - apply (fuse_build n (fun i => fuse_hash (Z.of_nat sl) (Z.of_nat i)) Hn Hsl0).
    + intros i Hi. apply (fuse_hash_ok (Z.of_nat sl)); unfold two32 in Hsl; lia.
    + fold sl. apply (ascending_peels sl (fun i => fuse_hash (Z.of_nat sl) (Z.of_nat i)) Hsl0).
      intros i Hi. rewrite fs1_z. rewrite (proj2 (fuse_hash_ok (Z.of_nat sl) (Z.of_nat i) ltac:(unfold two32 in Hsl; lia) ltac:(lia))). apply Nat2Z.id.
  - assert (S : (2 <= sl <= 8)%nat /\ (n <= 102 * sl - 2)%nat) by (unfold fuse_size_possible in HP; lia).
    destruct S as [S1 S2]. apply (fuse_build n (fuse_chain_hash sl) Hn Hsl0).
    + intros i Hi. destruct (Nat.lt_ge_cases i (99 * sl)) as [Q|Q]; [apply chain_row; assumption|].
      apply (chain_ok sl i S1). lia.
    + apply chain_peels; assumption.
Qed.

(** ** BinaryFuse *)
Lemma deg_le s1 s2 s3 (hash : nat -> Z) j C : forall n k,
  (forall i, (k <= i < k + n)%nat -> inc s1 s2 s3 (hash i) j = true -> In i C) ->
  deg s1 s2 s3 (map hash (seq k n)) j <= Z.of_nat (length C).
Proof.
  intros n k H.
  assert (E : forall n k, deg s1 s2 s3 (map hash (seq k n)) j = Z.of_nat (length (filter (fun i => inc s1 s2 s3 (hash i) j) (seq k n)))).
  { clear. induction n as [|n IH]; intros k; [reflexivity|]. cbn [seq map deg filter]. rewrite IH.
    destruct (inc s1 s2 s3 (hash k) j); cbn [length]; lia. }
  rewrite E. apply inj_le. apply NoDup_incl_length.
  - apply NoDup_filter, seq_NoDup.
  - intros i Hi. apply filter_In in Hi. destruct Hi as [Hi I]. apply in_seq in Hi. apply H; assumption.
Qed.

(** The hash whose first position is [p], with offsets [b] and [c] for the other two. *)
Definition bf_hash (g : geom) (p b c : Z) : Z :=
  (p * 2 ^ 28 / g_scl g + 1) * 2 ^ 36 + Z.lxor (p mod g_seglen g) b * 2 ^ 18 + Z.lxor (p mod g_seglen g) c.

Lemma bf_hash_ok g p b c : valid_geom g -> g_scl g <= 2 ^ 27 -> 0 <= p < g_scl g ->
  0 <= b < g_seglen g -> 0 <= c < g_seglen g ->
  is_u64 (bf_hash g p b c) /\ pos1 g (bf_hash g p b c) = p /\
  pos2 g (bf_hash g p b c) = (p / g_seglen g + 1) * g_seglen g + b /\
  pos3 g (bf_hash g p b c) = (p / g_seglen g + 2) * g_seglen g + c.
Proof.
  intros (k & Hk & EL & EM & Hc & Es & _ & _) HS Hp Hb Hcc. unfold bf_hash. rewrite EL in *.
  pose proof (Z.div_mod p (2 ^ k) ltac:(lia)) as DP. pose proof (Z.mod_pos_bound p (2 ^ k) ltac:(lia)) as MP.
  assert (K18 : 2 ^ k <= 2 ^ 18) by (apply Z.pow_le_mono_r; lia).
  pose proof (lxor_lt (p mod 2 ^ k) b k ltac:(lia) MP Hb) as XB. pose proof (lxor_lt (p mod 2 ^ k) c k ltac:(lia) MP Hcc) as XC.
  pose proof (lxor_change (p / 2 ^ k + 1) (p mod 2 ^ k) b k ltac:(lia) MP Hb) as CB.
  pose proof (lxor_change (p / 2 ^ k + 2) (p mod 2 ^ k) c k ltac:(lia) MP Hcc) as CC.
  set (xb := Z.lxor (p mod 2 ^ k) b) in *. set (xc := Z.lxor (p mod 2 ^ k) c) in *. clearbody xb xc.
  pose proof (Z.div_mod (p * 2 ^ 28) (g_scl g) ltac:(lia)) as DX. pose proof (Z.mod_pos_bound (p * 2 ^ 28) (g_scl g) ltac:(lia)) as MX.
  set (X := p * 2 ^ 28 / g_scl g) in *. set (rx := p * 2 ^ 28 mod g_scl g) in *. clearbody X rx.
  set (L := 2 ^ k) in *.
  assert (X0 : 0 <= X < 2 ^ 28) by (clear - DX MX Hp; change (2 ^ 28) with 268435456 in *; nia).
  set (h := (X + 1) * 2 ^ 36 + xb * 2 ^ 18 + xc).
  assert (LOW : 0 <= xb * 2 ^ 18 + xc < 2 ^ 36) by (clear - XB XC K18; change (2 ^ 18) with 262144 in *; change (2 ^ 36) with 68719476736; lia).
  assert (XS : (X + 2) * g_scl g <= (p + 1) * 2 ^ 28) by (clear - DX MX HS; change (2 ^ 27) with 134217728 in *; change (2 ^ 28) with 268435456 in *; nia).
  assert (X1 : X + 2 <= 2 ^ 28).
  { clear - XS Hp. change (2 ^ 28) with 268435456 in *. nia. }
  assert (U : is_u64 h).
  { unfold is_u64, two64, h. clear - X0 X1 LOW. change (2 ^ 28) with 268435456 in *. change (2 ^ 36) with 68719476736 in *. change (2 ^ 18) with 262144 in *. lia. }
  assert (P1 : seg0 g h = p).
  { unfold seg0, two64. symmetry. apply (Z.div_unique_pos _ _ _ (h * g_scl g - 18446744073709551616 * p)); [|lia].
    unfold h. clear - XS DX MX LOW Hp. change (2 ^ 28) with 268435456 in *. change (2 ^ 36) with 68719476736 in *.
    set (low := xb * 2 ^ 18 + xc) in *. replace ((X + 1) * 68719476736 + xb * 2 ^ 18 + xc) with ((X + 1) * 68719476736 + low) by (unfold low; ring).
    clearbody low. nia. }
  split; [exact U|]. unfold pos1, pos2, pos3. rewrite P1. split; [reflexivity|].
  rewrite EL, EM. fold L.
  assert (A1 : Z.land (Z.shiftr h 18 mod two32) (L - 1) = xb).
  { unfold L. replace (2 ^ k - 1) with (Z.ones k) by (rewrite Z.ones_equiv; lia). rewrite Z.land_ones by lia. fold L.
    rewrite Z.shiftr_div_pow2 by lia.
    assert (E : h / 2 ^ 18 = (X + 1) * 2 ^ 18 + xb).
    { symmetry. apply (Z.div_unique_pos _ _ _ xc); [lia|]. unfold h. change (2 ^ 36) with (2 ^ 18 * 2 ^ 18). ring. }
    rewrite E. change two32 with (2 ^ 32). apply mod_mod_low; [lia|lia|exact XB|]. exists (X + 1). reflexivity. }
  assert (A2 : Z.land (h mod two32) (L - 1) = xc).
  { unfold L. replace (2 ^ k - 1) with (Z.ones k) by (rewrite Z.ones_equiv; lia). rewrite Z.land_ones by lia. fold L.
    change two32 with (2 ^ 32). apply mod_mod_low; [lia|lia|exact XC|].
    exists ((X + 1) * 2 ^ 18 + xb). unfold h. change (2 ^ 36) with (2 ^ 18 * 2 ^ 18). ring. }
  rewrite A1, A2. split.
  - rewrite <- CB. f_equal. lia.
  - rewrite <- CC. f_equal. lia.
Qed.

(** The three slots of the [i]-th key: first slots in order, and in the last three segments
    consecutive slots taken in turn. *)
Definition bf_chain_hash (g : geom) (i : nat) : Z :=
  let L := g_seglen g in let base := g_scl g - L in
  if Z.of_nat i <? base then bf_hash g (Z.of_nat i) (Z.of_nat i mod L) (Z.of_nat i mod L)
  else let t := Z.of_nat i - base in bf_hash g (base + (t + 2) / 3) ((t + 1) / 3) (t / 3).
Definition bf_chain_slot (g : geom) (i : nat) : nat :=
  let L := g_seglen g in let base := g_scl g - L in
  if Z.of_nat i <? base then i
  else let t := Z.of_nat i - base in Z.to_nat (base + t mod 3 * L + t / 3).

Lemma zthirds t : 0 <= t -> exists q r, t / 3 = q /\ t mod 3 = r /\ 0 <= q /\
  (r = 0 /\ t = 3 * q \/ r = 1 /\ t = 3 * q + 1 \/ r = 2 /\ t = 3 * q + 2) /\
  (t + 1) / 3 = q + (if r =? 2 then 1 else 0) /\ (t + 2) / 3 = q + (if r =? 0 then 0 else 1).
Proof.
  intros Ht. exists (t / 3), (t mod 3). pose proof (Z.div_mod t 3 ltac:(lia)) as D. pose proof (Z.mod_pos_bound t 3 ltac:(lia)) as M.
  set (q := t / 3) in *. set (r := t mod 3) in *. clearbody q r.
  split; [reflexivity|]. split; [reflexivity|]. split; [lia|]. split; [lia|].
  destruct (Z.eq_dec r 0) as [->|N0]; [|destruct (Z.eq_dec r 1) as [->|N1]; [|assert (r = 2) by lia; subst r]]; cbn [Z.eqb Pos.eqb]; split; symmetry.
  - apply (Z.div_unique_pos _ _ _ 1); lia.
  - apply (Z.div_unique_pos _ _ _ 2); lia.
  - apply (Z.div_unique_pos _ _ _ 2); lia.
  - apply (Z.div_unique_pos _ _ _ 0); lia.
  - apply (Z.div_unique_pos _ _ _ 0); lia.
  - apply (Z.div_unique_pos _ _ _ 1); lia.
Qed.

Lemma bf_row g i : valid_geom g -> g_scl g <= 2 ^ 27 -> Z.of_nat i < g_scl g - g_seglen g ->
  let h := bf_chain_hash g i in let L := Z.to_nat (g_seglen g) in
  is_u64 h /\ sl1 g h = i /\ sl2 g h = (i + L)%nat /\ sl3 g h = (i + 2 * L)%nat.
Proof.
  intros Hg HS Hi. cbv zeta. unfold bf_chain_hash. cbv zeta. rewrite (proj2 (Z.ltb_lt _ _)) by lia.
  assert (HL : 0 < g_seglen g) by (destruct Hg as (k & Hk & -> & _); apply Z.pow_pos_nonneg; lia).
  pose proof (Z.mod_pos_bound (Z.of_nat i) (g_seglen g) HL) as M. pose proof (Z.div_mod (Z.of_nat i) (g_seglen g) ltac:(lia)) as D.
  destruct (bf_hash_ok g (Z.of_nat i) (Z.of_nat i mod g_seglen g) (Z.of_nat i mod g_seglen g) Hg HS ltac:(lia) M M) as (U & P1 & P2 & P3).
  split; [exact U|]. unfold sl1, sl2, sl3. rewrite P1, P2, P3. set (L := g_seglen g) in *. clearbody L.
  set (q := Z.of_nat i / L) in *. set (r := Z.of_nat i mod L) in *. clearbody q r. clear - D HL M.
  split; [lia|]. split.
  - replace ((q + 1) * L + r) with (Z.of_nat i + L) by lia. lia.
  - replace ((q + 2) * L + r) with (Z.of_nat i + 2 * L) by lia. lia.
Qed.

Lemma bf_tail g i : valid_geom g -> g_scl g <= 2 ^ 27 -> g_scl g - g_seglen g <= Z.of_nat i < g_scl g + 2 * g_seglen g - 2 ->
  let h := bf_chain_hash g i in let L := g_seglen g in let base := g_scl g - L in let t := Z.of_nat i - base in
  is_u64 h /\ Z.of_nat (sl1 g h) = base + (t + 2) / 3 /\ Z.of_nat (sl2 g h) = base + L + (t + 1) / 3 /\ Z.of_nat (sl3 g h) = base + 2 * L + t / 3.
Proof.
  intros Hg HS Hi. cbv zeta. unfold bf_chain_hash. cbv zeta. rewrite (proj2 (Z.ltb_ge _ _)) by lia.
  assert (HB : exists c, 0 <= c /\ g_scl g - g_seglen g = c * g_seglen g).
  { destruct Hg as (k & Hk & -> & _ & Hc & -> & _). exists (g_segcount g - 1). split; [lia|ring]. }
  assert (HL : 0 < g_seglen g) by (destruct Hg as (k & Hk & -> & _); apply Z.pow_pos_nonneg; lia).
  set (t := Z.of_nat i - (g_scl g - g_seglen g)) in *.
  assert (Ht : 0 <= t < 3 * g_seglen g - 2) by (unfold t; lia). clearbody t. clear Hi.
  destruct HB as (c & Hc & EB).
  assert (R : 0 <= (t + 2) / 3 < g_seglen g /\ 0 <= (t + 1) / 3 < g_seglen g /\ 0 <= t / 3 < g_seglen g).
  { clear - Ht. repeat split; try (apply Z.div_pos; lia); apply Z.div_lt_upper_bound; lia. }
  destruct R as (R1 & R2 & R3).
  destruct (bf_hash_ok g (g_scl g - g_seglen g + (t + 2) / 3) ((t + 1) / 3) (t / 3) Hg HS ltac:(lia) R2 R3) as (U & P1 & P2 & P3).
  split; [exact U|]. unfold sl1, sl2, sl3. rewrite P1, P2, P3.
  assert (E : (g_scl g - g_seglen g + (t + 2) / 3) / g_seglen g = c).
  { symmetry. apply (Z.div_unique_pos _ _ _ ((t + 2) / 3)); [lia|]. rewrite EB. ring. }
  rewrite E. rewrite EB. set (L := g_seglen g) in *. clearbody L. clear - R1 R2 R3 HL Hc.
  split; [apply Z2Nat.id; nia|]. split; (rewrite Z2Nat.id by nia); ring.
Qed.

Lemma bf_chain_peels g n : valid_geom g -> g_scl g <= 2 ^ 27 -> (n + 2 <= g_arrlen g)%nat ->
  peels (sl1 g) (sl2 g) (sl3 g) (map (bf_chain_hash g) (seq 0 n)).
Proof.
  intros Hg HS Hn.
  assert (HL : 0 < g_seglen g) by (destruct Hg as (k & Hk & -> & _); apply Z.pow_pos_nonneg; lia).
  assert (HA : Z.of_nat (g_arrlen g) = g_scl g + 2 * g_seglen g).
  { pose proof Hg as (k & Hk & EL & _ & Hc & -> & -> & _). rewrite EL in *. rewrite Z2Nat.id by nia. ring. }
  assert (HB : 0 <= g_scl g - g_seglen g).
  { destruct Hg as (k & Hk & -> & _ & Hc & -> & _). nia. }
  apply (ordered_peels _ _ _ _ (bf_chain_slot g)).
  - intros i Hi. apply inc_iff. unfold bf_chain_slot. cbv zeta. destruct (Z.ltb_spec (Z.of_nat i) (g_scl g - g_seglen g)) as [Q|Q].
    + left. symmetry. apply bf_row; assumption.
    + destruct (bf_tail g i Hg HS ltac:(lia)) as (_ & E1 & E2 & E3). cbv zeta in *.
      set (t := Z.of_nat i - (g_scl g - g_seglen g)) in *. assert (Ht : 0 <= t) by (unfold t; lia). clearbody t.
      destruct (zthirds t Ht) as (q & r & T0 & Tr & Tq & TD & T1 & T2). rewrite T1 in E2. rewrite T2 in E1. rewrite T0 in *. rewrite Tr.
      clear T0 T1 T2 Tr. destruct TD as [[-> _]|[[-> _]|[-> _]]]; cbn [Z.eqb Pos.eqb] in *; [left|right; left|right; right]; apply Nat2Z.inj; rewrite ?E1, ?E2, ?E3; rewrite Z2Nat.id by lia; lia.
  - intros i j Hij Hj.
    assert (G : bf_chain_slot g i = i /\ Z.of_nat i < g_scl g - g_seglen g \/
      0 <= Z.of_nat i - (g_scl g - g_seglen g) /\ Z.of_nat (bf_chain_slot g i) = g_scl g - g_seglen g + (Z.of_nat i - (g_scl g - g_seglen g)) mod 3 * g_seglen g + (Z.of_nat i - (g_scl g - g_seglen g)) / 3).
    { unfold bf_chain_slot. cbv zeta. destruct (Z.ltb_spec (Z.of_nat i) (g_scl g - g_seglen g)) as [Q|Q]; [left; split; auto|right].
      split; [lia|]. set (t := Z.of_nat i - (g_scl g - g_seglen g)) in *. assert (Ht : 0 <= t) by (unfold t; lia). clearbody t.
      pose proof (Z.mod_pos_bound t 3 ltac:(lia)). assert (0 <= t / 3) by (apply Z.div_pos; lia). apply Z2Nat.id. nia. }
    destruct (Z.lt_ge_cases (Z.of_nat j) (g_scl g - g_seglen g)) as [Q|Q].
    + destruct (bf_row g j Hg HS Q) as (_ & E1 & E2 & E3). cbv zeta in *.
      destruct G as [[-> G]|[G _]]; [|lia]. apply inc_not; rewrite ?E1, ?E2, ?E3; lia.
    + destruct (bf_tail g j Hg HS ltac:(lia)) as (_ & E1 & E2 & E3). cbv zeta in *.
      set (t' := Z.of_nat j - (g_scl g - g_seglen g)) in *. assert (Ht : 0 <= t') by (unfold t'; lia).
      destruct (zthirds t' Ht) as (q' & r' & T0 & Tr & Tq & TD & T1 & T2). rewrite T1 in E2. rewrite T2 in E1. rewrite T0 in E3. clear T0 T1 T2 Tr.
      destruct G as [[-> G]|[G G2]].
      * apply inc_not; intros EE; apply (f_equal Z.of_nat) in EE; rewrite ?E1, ?E2, ?E3 in EE; clear E1 E2 E3;
          destruct (r' =? 0), (r' =? 2); lia.
      * set (t := Z.of_nat i - (g_scl g - g_seglen g)) in *.
        assert (T : t < t' < 3 * g_seglen g - 2) by (unfold t, t'; lia). clearbody t t'.
        destruct (zthirds t G) as (q & r & T0 & Tr & Tq2 & TD2 & _ & _). rewrite T0, Tr in G2. clear T0 Tr.
        apply inc_not; intros EE; apply (f_equal Z.of_nat) in EE; rewrite ?E1, ?E2, ?E3, G2 in EE; clear E1 E2 E3 G2;
          clear - EE T TD TD2 Tq Tq2 HL; destruct TD as [[-> ->]|[[-> ->]|[-> ->]]], TD2 as [[-> ->]|[[-> ->]|[-> ->]]]; cbn [Z.eqb Pos.eqb] in EE; lia.
Qed.

Lemma in3 (f : nat -> nat) d i : (d < 3)%nat -> i = f d -> In i (map f [0; 1; 2]%nat).
Proof. intros Hd ->. cbn [map In]. destruct d as [|[|[|d]]]; auto. lia. Qed.

Lemma bf_chain_load g n j : valid_geom g -> g_scl g <= 2 ^ 27 -> (n + 2 <= g_arrlen g)%nat ->
  deg (sl1 g) (sl2 g) (sl3 g) (map (bf_chain_hash g) (seq 0 n)) j <= 63.
Proof.
  intros Hg HS Hn.
  assert (HL : 0 < g_seglen g) by (destruct Hg as (k & Hk & -> & _); apply Z.pow_pos_nonneg; lia).
  assert (HA : Z.of_nat (g_arrlen g) = g_scl g + 2 * g_seglen g).
  { pose proof Hg as (k & Hk & EL & _ & Hc & -> & -> & _). rewrite EL in *. rewrite Z2Nat.id by nia. ring. }
  set (L := Z.to_nat (g_seglen g)). set (B := Z.to_nat (g_scl g - g_seglen g)).
  assert (HB : 0 <= g_scl g - g_seglen g).
  { destruct Hg as (k & Hk & -> & _ & Hc & -> & _). nia. }
  assert (ZL : g_seglen g = Z.of_nat L) by lia. assert (ZB : g_scl g - g_seglen g = Z.of_nat B) by lia.
  set (C := [j; j - L; j - 2 * L]%nat ++ map (fun d => B + (3 * (j - B) + d) - 2)%nat [0; 1; 2]%nat ++
            map (fun d => B + (3 * (j - B - L) + d) - 1)%nat [0; 1; 2]%nat ++ map (fun d => B + (3 * (j - B - 2 * L) + d))%nat [0; 1; 2]%nat).
  apply Z.le_trans with (Z.of_nat (length C)); [|cbv; congruence].
  apply deg_le. intros i Hi I. apply inc_iff in I. unfold C. clear C. rewrite !in_app_iff.
  destruct (Z.lt_ge_cases (Z.of_nat i) (g_scl g - g_seglen g)) as [Q|Q].
  - destruct (bf_row g i Hg HS Q) as (_ & E1 & E2 & E3). cbv zeta in *. fold L in E2, E3. rewrite E1, E2, E3 in I. clear - I. left. cbn [In].
    destruct I as [I|[I|I]]; [left|right; left|right; right; left]; lia.
  - destruct (bf_tail g i Hg HS ltac:(lia)) as (_ & E1 & E2 & E3). cbv zeta in *. rewrite ZB, ZL in *.
    set (t := Z.of_nat i - Z.of_nat B) in *. assert (Ht : 0 <= t) by (unfold t; lia).
    destruct (zthirds t Ht) as (q & r & T0 & Tr & Tq & TD & T1 & T2). rewrite T1 in E2. rewrite T2 in E1. rewrite T0 in E3. clear T0 T1 T2 Tr.
    assert (J : Z.of_nat j = Z.of_nat (sl1 g (bf_chain_hash g i)) \/ Z.of_nat j = Z.of_nat (sl2 g (bf_chain_hash g i)) \/ Z.of_nat j = Z.of_nat (sl3 g (bf_chain_hash g i))) by lia.
    rewrite E1, E2, E3 in J. clear I E1 E2 E3. unfold t in *. clear - J TD Q Tq.
    right. destruct J as [J|[J|J]]; [left|right; left|right; right].
    + destruct TD as [[-> E]|[[-> E]|[-> E]]]; cbn [Z.eqb Pos.eqb] in J; [apply (in3 _ 2)|apply (in3 _ 0)|apply (in3 _ 1)]; lia.
    + destruct TD as [[-> E]|[[-> E]|[-> E]]]; cbn [Z.eqb Pos.eqb] in J; [apply (in3 _ 1)|apply (in3 _ 2)|apply (in3 _ 0)]; lia.
    + destruct TD as [[-> E]|[[-> E]|[-> E]]]; cbn [Z.eqb Pos.eqb] in J; [apply (in3 _ 0)|apply (in3 _ 1)|apply (in3 _ 2)]; lia.
Qed.

(** From hashes that are peelable and light under the first seed, a key set for which every
    BinaryFuse construction succeeds. *)
Lemma bfuse_build fe n (hash : nat -> Z) : sane_estimates fe n ->
  (forall i, (i < n)%nat -> is_u64 (hash i)) ->
  (forall dbg g, geometry dbg fe n = Ok g ->
     peels (sl1 g) (sl2 g) (sl3 g) (map hash (seq 0 n)) /\
     forall j, deg (sl1 g) (sl2 g) (sl3 g) (map hash (seq 0 n)) j <= 63) ->
  exists keys, length keys = n /\ NoDup keys /\ Forall is_u64 keys /\
    forall max_iter w dbg rnd, (0 < max_iter)%nat -> exists f, bfuse_from_impl max_iter w dbg fe rnd keys = Ok f.
Proof.
  intros HS HU P. set (keys := map (fun i => unmix (hash i) (retry_seed 0)) (seq 0 n)). exists keys.
  assert (L : length keys = n) by (unfold keys; now rewrite map_length, seq_length).
  assert (E : map (fun key => mix key (retry_seed 0)) keys = map hash (seq 0 n)).
  { unfold keys. rewrite map_map. apply map_ext_in. intros i Hi. apply in_seq in Hi. apply mix_unmix. apply HU. lia. }
  assert (NH : NoDup (map (fun key => mix key (retry_seed 0)) keys)).
  { destruct (geometry_shape true _ _ HS) as (g & _ & Eg & _). destruct (P true g Eg) as [PP _].
    rewrite E. exact (apeels_nodup _ _ _ _ PP). }
  assert (ND : NoDup keys) by (now apply NoDup_map_inv in NH).
  split; [exact L|]. split; [exact ND|]. split.
  - apply Forall_forall. intros k Hk. unfold keys in Hk. apply in_map_iff in Hk as (i & <- & _). unfold unmix. apply Z.mod_pos_bound. reflexivity.
  - intros mi w dbg rnd Hmi. clearbody keys. subst n.
    destruct (geometry_shape dbg _ _ HS) as (g & _ & Eg & _). destruct (P dbg g Eg) as [PP PL]. rewrite <- E in PP, PL.
    destruct (bfuse_construct mi w dbg fe rnd keys g Eg HS (fun _ => ND)) as [(i & fps & _ & _ & _ & _ & _ & _ & EE)|[[_ N]|(i & Hi & Hv & N & _)]].
    + eexists. exact EE.
    + exfalso. apply (proj1 (N 0%nat Hmi NH)). exact PP.
    + exfalso. destruct i as [|i].
      * destruct Hv as (j & _ & Hj). specialize (PL j). lia.
      * apply (N 0%nat); [lia|exact NH|exact PP].
Qed.

(** The hash whose first position is [i], for large filters: the low 31 bits are zero. *)
Definition bf_far_hash (g : geom) (i : nat) : Z := (Z.of_nat i * 2 ^ 33 + g_scl g - 1) / g_scl g * 2 ^ 31.

Lemma bf_far_ok g i : valid_geom g -> Z.of_nat i < g_scl g ->
  is_u64 (bf_far_hash g i) /\ pos1 g (bf_far_hash g i) = Z.of_nat i /\
  (exists v, 0 <= v < 32 /\ pos2 g (bf_far_hash g i) = Z.lxor (Z.of_nat i + g_seglen g) (v * 2 ^ 13)) /\
  pos3 g (bf_far_hash g i) = Z.of_nat i + 2 * g_seglen g.
Proof.
  intros (k & Hk & EL & EM & Hc & Es & _ & Hb) Hi.
  assert (HL : 1 <= 2 ^ k <= 262144).
  { split; [apply (Z.pow_le_mono_r 2 0 k); lia|apply (Z.pow_le_mono_r 2 k 18); lia]. }
  assert (HS : 0 < g_scl g < 2 ^ 32) by (rewrite Es; unfold two32 in Hb; nia).
  unfold bf_far_hash.
  pose proof (Z.div_mod (Z.of_nat i * 2 ^ 33 + g_scl g - 1) (g_scl g) ltac:(lia)) as D.
  pose proof (Z.mod_pos_bound (Z.of_nat i * 2 ^ 33 + g_scl g - 1) (g_scl g) ltac:(lia)) as M.
  set (Y := (Z.of_nat i * 2 ^ 33 + g_scl g - 1) / g_scl g) in *. set (r := (Z.of_nat i * 2 ^ 33 + g_scl g - 1) mod g_scl g) in *. clearbody Y r.
  assert (Y0 : 0 <= Y < 2 ^ 33).
  { clear - D M Hi HS. change (2 ^ 33) with 8589934592 in *. change (2 ^ 32) with 4294967296 in *. nia. }
  split; [unfold is_u64, two64; clear - Y0; lia|].
  assert (P1 : seg0 g (Y * 2 ^ 31) = Z.of_nat i).
  { unfold seg0, two64. symmetry. apply (Z.div_unique_pos _ _ _ ((g_scl g - 1 - r) * 2 ^ 31)).
    - clear - M HS. change (2 ^ 32) with 4294967296 in *. change (2 ^ 31) with 2147483648. lia.
    - clear - D. change (2 ^ 33) with 8589934592 in *. change (2 ^ 31) with 2147483648. nia. }
  unfold pos1, pos2, pos3. rewrite P1, EL, EM. split; [reflexivity|].
  replace (2 ^ k - 1) with (Z.ones k) by (rewrite Z.ones_equiv; lia). rewrite !Z.land_ones by lia.
  split.
  - exists ((Y * 2 ^ 31 / 2 ^ 18) mod 2 ^ 32 mod 2 ^ k / 2 ^ 13).
    assert (E : Y * 2 ^ 31 / 2 ^ 18 = Y * 2 ^ 13).
    { change (2 ^ 31) with (2 ^ 13 * 2 ^ 18). rewrite Z.mul_assoc. apply Z.div_mul. lia. }
    rewrite Z.shiftr_div_pow2 by lia. change two32 with (2 ^ 32). rewrite E.
    assert (W : exists v, Y * 2 ^ 13 mod 2 ^ 32 mod 2 ^ k = v * 2 ^ 13 /\ 0 <= v < 32).
    { destruct (Z.le_gt_cases k 13) as [K|K].
      - exists 0. split; [|lia].
        apply mod_zero; [lia|]. exists (Y * 2 ^ (13 - k)). replace (2 ^ 13) with (2 ^ (13 - k) * 2 ^ k) by (rewrite <- Z.pow_add_r by lia; f_equal; lia). ring.
      - exists ((Y mod 2 ^ 19) mod 2 ^ (k - 13)). split.
        + change (2 ^ 32) with (2 ^ 19 * 2 ^ 13). rewrite Z.mul_mod_distr_r by lia.
          replace (2 ^ k) with (2 ^ (k - 13) * 2 ^ 13) by (rewrite <- Z.pow_add_r by lia; f_equal; lia).
          rewrite Z.mul_mod_distr_r by lia. reflexivity.
        + assert (2 ^ (k - 13) <= 32) by (change 32 with (2 ^ 5); apply Z.pow_le_mono_r; lia).
          pose proof (Z.mod_pos_bound (Y mod 2 ^ 19) (2 ^ (k - 13)) ltac:(lia)). lia. }
    destruct W as (v & -> & Hv). rewrite Z.div_mul by lia. split; [exact Hv|reflexivity].
  - change two32 with (2 ^ 32). replace ((Y * 2 ^ 31) mod 2 ^ 32 mod 2 ^ k) with 0.
    + rewrite Z.lxor_0_r. ring.
    + symmetry. apply mod_zero; [lia|]. exists (Y * 2 ^ (31 - k)). replace (2 ^ 31) with (2 ^ (31 - k) * 2 ^ k) by (rewrite <- Z.pow_add_r by lia; f_equal; lia). ring.
Qed.

Lemma bf_far_peels g n : valid_geom g -> Z.of_nat n <= g_scl g ->
  peels (sl1 g) (sl2 g) (sl3 g) (map (bf_far_hash g) (seq 0 n)).
Proof.
  intros Hg Hn. apply (ordered_peels _ _ _ _ (fun i => i)).
  - intros i Hi. apply inc_iff. left. destruct (bf_far_ok g i Hg ltac:(lia)) as (_ & E & _). unfold sl1. rewrite E. symmetry. apply Nat2Z.id.
  - intros i j Hij Hj. destruct (bf_far_ok g j Hg ltac:(lia)) as (U & E & _).
    destruct (positions true g (bf_far_hash g j) Hg U) as (_ & s & Hs & N1 & N2 & N3 & Q1 & Q2 & Q3).
    assert (HL : 0 < g_seglen g) by (destruct Hg as (k & Hk & -> & _); apply Z.pow_pos_nonneg; lia).
    assert (G : forall p, p / g_seglen g > Z.of_nat j / g_seglen g -> Z.of_nat j < p).
    { intros p Hp. destruct (Z.lt_ge_cases (Z.of_nat j) p) as [|K]; [assumption|].
      pose proof (Z.div_le_mono p (Z.of_nat j) (g_seglen g) HL K). lia. }
    assert (G2 : Z.of_nat j < pos2 g (bf_far_hash g j)) by (apply G; rewrite <- E; lia).
    assert (G3 : Z.of_nat j < pos3 g (bf_far_hash g j)) by (apply G; rewrite <- E; lia).
    unfold sl1, sl2, sl3 in *. apply inc_not; lia.
Qed.

Lemma bf_far_load g n j : valid_geom g -> Z.of_nat n <= g_scl g ->
  deg (sl1 g) (sl2 g) (sl3 g) (map (bf_far_hash g) (seq 0 n)) j <= 63.
Proof.
  intros Hg Hn.
  set (C := [j; j - 2 * Z.to_nat (g_seglen g)]%nat ++
            map (fun v => Z.to_nat (Z.lxor (Z.of_nat j) (Z.of_nat v * 2 ^ 13) - g_seglen g)) (seq 0 32)).
  assert (LC : length C = 34%nat) by (unfold C; rewrite app_length, map_length, seq_length; reflexivity).
  apply Z.le_trans with (Z.of_nat (length C)); [|rewrite LC; lia].
  apply deg_le. intros i Hi I. apply inc_iff in I. unfold C. clear C LC. apply in_app_iff.
  destruct (bf_far_ok g i Hg ltac:(lia)) as (U & E1 & (v & Hv & E2) & E3).
  destruct (positions true g (bf_far_hash g i) Hg U) as (_ & _ & _ & N1 & N2 & N3 & _).
  unfold sl1, sl2, sl3 in I. rewrite E1, E3 in *.
  assert (HL : 0 < g_seglen g) by (destruct Hg as (k & Hk & -> & _); apply Z.pow_pos_nonneg; lia).
  destruct I as [I|[I|I]].
  - left. left. clear - I. lia.
  - right. apply in_map_iff. exists (Z.to_nat v). split; [|apply in_seq; clear - Hv; lia].
    assert (J : Z.of_nat j = Z.lxor (Z.of_nat i + g_seglen g) (v * 2 ^ 13)).
    { rewrite <- E2. rewrite I. apply Z2Nat.id. exact N2. }
    rewrite J. rewrite (Z2Nat.id v) by (clear - Hv; lia). rewrite Z.lxor_assoc, Z.lxor_nilpotent, Z.lxor_0_r. clear. lia.
  - left. right. left. clear - I HL. lia.
Qed.

(** @C78 for every number of keys (up to 3817000000, where the 32-bit sizes stay exact) there are
    distinct keys for which a BinaryFuse filter is built on the first attempt, in both profiles,
    with every fingerprint width, random fill and reasonable logarithm. *)
Lemma bfuse_size_built : forall log n, reasonable_log log -> Z.of_nat n <= max_keys ->
  exists keys, length keys = n /\ NoDup keys /\ Forall is_u64 keys /\
    forall max_iter w dbg rnd, (0 < max_iter)%nat ->
      exists f, bfuse_from_impl max_iter w dbg (f64_estimates log) rnd keys = Ok f.
Proof.
  intros log n HL Hn. pose proof (estimates_sane log n HL Hn) as HS.
  destruct (geometry_shape true _ _ HS) as (g & e & Eg & He & EL & EM & (c & Hc & Escl) & EA & Hb & B).
  destruct (geometry_valid _ _ _ _ HS Eg) as [Hg _].
  assert (GD : forall dbg g', geometry dbg (f64_estimates log) n = Ok g' -> g' = g).
  { intros dbg g' E. pose proof (geometry_profile _ n dbg true HS) as K. congruence. }
  destruct (documented_size log true n HL Hn) as (g1 & G1 & D1 & _). assert (g1 = g) by congruence. subst g1. clear G1.
  assert (L18 : 4 <= g_seglen g <= 262144).
  { rewrite EL. split; [apply (Z.pow_le_mono_r 2 2 e); lia|apply (Z.pow_le_mono_r 2 e 18); lia]. }
  destruct (Z.le_gt_cases (g_scl g) (2 ^ 27)) as [S|S].
  - assert (R : (n + 2 <= g_arrlen g)%nat).
    { assert (A12 : 12 <= Z.of_nat (g_arrlen g)) by (rewrite EA, Escl; nia).
      destruct (Nat.le_gt_cases n 10) as [N10|N10]; [lia|].
      destruct (Nat.le_gt_cases 18 n) as [N18|N18]; [specialize (D1 ltac:(lia)); lia|].
      cbv zeta in B. destruct (Nat.leb_spec n 1) as [Q|Q]; [lia|]. cbn [f64_estimates fe_cap] in B.
      assert (K : 3 <= Z.log2 (Z.of_nat n) < 5) by (apply log2_cases; lia).
      pose proof (cap_low log n _ 1700 HL eq_refl ltac:(lia) ltac:(lia) ltac:(lia)) as CL.
      assert (A : (1700 - 874) * (6932 * (Z.log2 (Z.of_nat n) + 1)) <= 34538700) by (clear - K; lia).
      specialize (CL A). clear - CL B N10. lia. }
    apply (bfuse_build _ n (bf_chain_hash g) HS).
    + intros i Hi. destruct (Z.lt_ge_cases (Z.of_nat i) (g_scl g - g_seglen g)) as [Q|Q]; [apply bf_row; assumption|].
      apply (bf_tail g i Hg S). lia.
    + intros dbg g' E. rewrite (GD dbg g' E). split; [apply bf_chain_peels; assumption|].
      intros j. apply bf_chain_load; assumption.
  - assert (R : Z.of_nat n <= g_scl g).
    { destruct (Nat.le_gt_cases n 1) as [Q|Q]; [lia|]. specialize (D1 ltac:(lia)). lia. }
    apply (bfuse_build _ n (bf_far_hash g) HS).
    + intros i Hi. apply bf_far_ok; [exact Hg|lia].
    + intros dbg g' E. rewrite (GD dbg g' E). split; [apply bf_far_peels; assumption|].
      intros j. apply bf_far_load; assumption.
Qed.

(** ** Xor *)
Lemma private_peels {A} s1 s2 s3 (hash : A -> Z) (slot : A -> nat) : forall P, NoDup P ->
  (forall p, In p P -> inc s1 s2 s3 (hash p) (slot p) = true) ->
  (forall p p', In p P -> In p' P -> p <> p' -> inc s1 s2 s3 (hash p') (slot p) = false) ->
  peels s1 s2 s3 (map hash P).
Proof.
  induction P as [|p P IH]; intros ND H1 H2; [constructor|]. inversion ND as [|p0 P0 N1 N2]; subst. cbn [map].
  apply (peels_take _ _ _ (hash p) _ (map hash P) (slot p)).
  - apply Permutation_refl.
  - apply H1. now left.
  - intros h' Hh. apply in_map_iff in Hh. destruct Hh as (p' & <- & Hp). apply H2; [now left|now right|congruence].
  - apply IH; [exact N2|intros; apply H1; now right|intros; apply H2; try (now right); assumption].
Qed.

(** The hash whose window for block [b] is the 32-bit word [r]. *)
Definition xhash (b : nat) (r : Z) : Z :=
  match b with
  | O => fields (r / 2 ^ 22) (r / 2 ^ 11 mod 2 ^ 11) (r mod 2 ^ 11) 0 0 0
  | S O => fields 0 0 (r / 2 ^ 21) (r / 2 ^ 11 mod 2 ^ 10) (r mod 2 ^ 11) 0
  | _ => fields (r mod 2 ^ 10) 0 0 0 (r / 2 ^ 21) (r / 2 ^ 10 mod 2 ^ 11)
  end.
(** The slot of a block of length [bl] for a 32-bit word. *)
Definition wpos (bl : nat) (r : Z) : nat := Z.to_nat (r * Z.of_nat bl / 2 ^ 32).

Lemma split3 r a b : 0 <= a -> 0 <= b -> r / 2 ^ (a + b) * 2 ^ (a + b) + r / 2 ^ a mod 2 ^ b * 2 ^ a + r mod 2 ^ a = r.
Proof.
  intros Ha Hb. rewrite Z.pow_add_r by lia. assert (0 < 2 ^ a) by (apply Z.pow_pos_nonneg; lia). assert (0 < 2 ^ b) by (apply Z.pow_pos_nonneg; lia).
  rewrite <- Z.div_div by lia. pose proof (Z.div_mod r (2 ^ a) ltac:(lia)). pose proof (Z.div_mod (r / 2 ^ a) (2 ^ b) ltac:(lia)). nia.
Qed.

(** The words of the three windows of [xhash b r]. *)
Definition xword (b b' : nat) (r : Z) : Z :=
  match b, b' with
  | O, S O => r mod 2 ^ 11 * 2 ^ 21
  | O, S (S _) => r / 2 ^ 22
  | S O, O => r / 2 ^ 21
  | S O, S (S _) => r mod 2 ^ 11 * 2 ^ 21
  | S (S _), O => r mod 2 ^ 10 * 2 ^ 22
  | S (S _), S O => r / 2 ^ 21
  | _, _ => r
  end.

Lemma xhash_words b b' r : (b < 3)%nat -> (b' < 3)%nat -> 0 <= r < 2 ^ 32 ->
  is_u64 (xhash b r) /\ rotl64 (xhash b r) (Z.of_nat b' * 21) mod two32 = xword b b' r.
Proof.
  intros Hb Hb' Hr.
  assert (D22 : 0 <= r / 2 ^ 22 < 2 ^ 10) by (split; [apply Z.div_pos; lia|apply Z.div_lt_upper_bound; lia]).
  assert (D21 : 0 <= r / 2 ^ 21 < 2 ^ 11) by (split; [apply Z.div_pos; lia|apply Z.div_lt_upper_bound; lia]).
  pose proof (Z.mod_pos_bound r (2 ^ 11) ltac:(lia)) as M11. pose proof (Z.mod_pos_bound r (2 ^ 10) ltac:(lia)) as M10.
  pose proof (Z.mod_pos_bound (r / 2 ^ 11) (2 ^ 11) ltac:(lia)) as A1. pose proof (Z.mod_pos_bound (r / 2 ^ 11) (2 ^ 10) ltac:(lia)) as A2.
  pose proof (Z.mod_pos_bound (r / 2 ^ 10) (2 ^ 11) ltac:(lia)) as A3.
  pose proof (split3 r 11 11 ltac:(lia) ltac:(lia)) as S0. pose proof (split3 r 11 10 ltac:(lia) ltac:(lia)) as S1.
  pose proof (split3 r 10 11 ltac:(lia) ltac:(lia)) as S2.
  change (11 + 11) with 22 in S0. change (11 + 10) with 21 in S1. change (10 + 11) with 21 in S2.
  destruct b as [|[|[|b]]]; [| | |lia]; cbn [xhash].
  - assert (R : in_range (r / 2 ^ 22) (r / 2 ^ 11 mod 2 ^ 11) (r mod 2 ^ 11) 0 0 0) by (unfold in_range; repeat split; lia).
    split; [apply fields_u64; exact R|].
    destruct b' as [|[|[|b']]]; [| | |lia]; cbn [xword]; [change (Z.of_nat 0 * 21) with 0; rewrite window0 by exact R|
      change (Z.of_nat 1 * 21) with 21; rewrite window21 by exact R|change (Z.of_nat 2 * 21) with 42; rewrite window42 by exact R]; lia.
  - assert (R : in_range 0 0 (r / 2 ^ 21) (r / 2 ^ 11 mod 2 ^ 10) (r mod 2 ^ 11) 0) by (unfold in_range; repeat split; lia).
    split; [apply fields_u64; exact R|].
    destruct b' as [|[|[|b']]]; [| | |lia]; cbn [xword]; [change (Z.of_nat 0 * 21) with 0; rewrite window0 by exact R|
      change (Z.of_nat 1 * 21) with 21; rewrite window21 by exact R|change (Z.of_nat 2 * 21) with 42; rewrite window42 by exact R]; lia.
  - assert (R : in_range (r mod 2 ^ 10) 0 0 0 (r / 2 ^ 21) (r / 2 ^ 10 mod 2 ^ 11)) by (unfold in_range; repeat split; lia).
    split; [apply fields_u64; exact R|].
    destruct b' as [|[|[|b']]]; [| | |lia]; cbn [xword]; [change (Z.of_nat 0 * 21) with 0; rewrite window0 by exact R|
      change (Z.of_nat 1 * 21) with 21; rewrite window21 by exact R|change (Z.of_nat 2 * 21) with 42; rewrite window42 by exact R]; lia.
Qed.

Lemma xpos_words bl b b' r : (b < 3)%nat -> (b' < 3)%nat -> 0 <= r < 2 ^ 32 ->
  xpos bl b' (xhash b r) = wpos bl (xword b b' r).
Proof.
  intros Hb Hb' Hr. unfold xpos, wpos. rewrite (proj2 (xhash_words b b' r Hb Hb' Hr)). now rewrite Z.shiftr_div_pow2 by lia.
Qed.

(** Keys with private slots: key (b, a) has slot [a] of block [b] to itself as long as the other
    two windows fall into the slots of [bad]. *)
Definition free_slots (bl : nat) (bad : list nat) : list (nat * nat) :=
  flat_map (fun b => map (pair b) (filter (fun a => if in_dec Nat.eq_dec a bad then false else true) (seq 0 bl))) [0; 1; 2]%nat.

Lemma NoDup_app' {A} (l1 l2 : list A) : NoDup l1 -> NoDup l2 -> (forall x, In x l1 -> ~ In x l2) -> NoDup (l1 ++ l2).
Proof.
  induction l1 as [|x l1 IH]; intros H1 H2 D; [exact H2|]. inversion H1; subst. cbn [app]. constructor.
  - rewrite in_app_iff. intros [K|K]; [contradiction|]. exact (D x (or_introl eq_refl) K).
  - apply IH; [assumption|exact H2|]. intros y Hy. apply D. now right.
Qed.
Lemma NoDup_app_l {A} (l1 l2 : list A) : NoDup (l1 ++ l2) -> NoDup l1.
Proof.
  induction l1 as [|x l1 IH]; intros H; [constructor|]. inversion H as [|y l N1 N2]; subst. constructor; [|apply IH, N2].
  intros K. apply N1. apply in_app_iff. now left.
Qed.

Lemma filter_out_length (bad : list nat) : forall l, NoDup l ->
  (length l <= length (filter (fun a => if in_dec Nat.eq_dec a bad then false else true) l) + length bad)%nat.
Proof.
  intros l ND.
  assert (E : (length l = length (filter (fun a => if in_dec Nat.eq_dec a bad then false else true) l) +
               length (filter (fun a => if in_dec Nat.eq_dec a bad then true else false) l))%nat).
  { clear ND. induction l as [|a l IH]; [reflexivity|]. cbn [filter length]. destruct (in_dec Nat.eq_dec a bad); cbn [length]; lia. }
  assert (I : (length (filter (fun a => if in_dec Nat.eq_dec a bad then true else false) l) <= length bad)%nat).
  { apply NoDup_incl_length; [apply NoDup_filter, ND|]. intros a Ha. apply filter_In in Ha. destruct Ha as [_ Ha].
    destruct (in_dec Nat.eq_dec a bad); [assumption|discriminate]. }
  lia.
Qed.

Lemma free_slots_length bl bad : (3 * bl <= length (free_slots bl bad) + 3 * length bad)%nat.
Proof.
  unfold free_slots. cbn [flat_map]. rewrite app_nil_r, !app_length, !map_length.
  pose proof (filter_out_length bad (seq 0 bl) (seq_NoDup _ _)) as H. rewrite seq_length in H. lia.
Qed.

Lemma free_slots_in bl bad p : In p (free_slots bl bad) -> (fst p < 3)%nat /\ (snd p < bl)%nat /\ ~ In (snd p) bad.
Proof.
  intros H. unfold free_slots in H. apply in_flat_map in H. destruct H as (b & Hb & H). apply in_map_iff in H.
  destruct H as (a & <- & Ha). apply filter_In in Ha. destruct Ha as [Ha Hn]. apply in_seq in Ha. cbn [fst snd].
  split; [cbn [In] in Hb; lia|]. split; [lia|]. destruct (in_dec Nat.eq_dec a bad); [discriminate|assumption].
Qed.

Lemma free_slots_nodup bl bad : NoDup (free_slots bl bad).
Proof.
  unfold free_slots. cbn [flat_map]. set (l := filter _ _). assert (N : NoDup l) by (apply NoDup_filter, seq_NoDup). clearbody l.
  assert (G : forall b : nat, NoDup (map (pair b) l)).
  { intros b. apply FinFun.Injective_map_NoDup; [|exact N]. intros x y E. congruence. }
  assert (D : forall b b' x, b <> b' -> In x (map (@pair nat nat b) l) -> ~ In x (map (pair b') l)).
  { intros b b' x Hb H1 H2. apply in_map_iff in H1, H2. destruct H1 as (a & <- & _), H2 as (a' & E & _). congruence. }
  rewrite app_nil_r. apply NoDup_app'; [apply G|apply NoDup_app'; [apply G|apply G|]|].
  - intros x H. apply (D 1%nat 2%nat); [lia|exact H].
  - intros x H1 H2. apply in_app_iff in H2. destruct H2 as [H2|H2]; revert H1; [apply (D 1%nat 0%nat)|apply (D 2%nat 0%nat)]; try lia; exact H2.
Qed.

Lemma xor_build n (word : nat -> Z) bad : Z.of_nat n < 2 ^ 32 -> let bl := xor_block_length n in
  (forall a, (a < bl)%nat -> 0 <= word a < 2 ^ 32 /\ wpos bl (word a) = a) ->
  (forall a b b', (a < bl)%nat -> (b < 3)%nat -> (b' < 3)%nat -> b <> b' -> In (wpos bl (xword b b' (word a))) bad) ->
  (n + 3 * length bad <= 3 * bl)%nat ->
  exists keys, length keys = n /\ NoDup keys /\ Forall is_u64 keys /\
    forall w dbg, exists f, xor_from 1 w dbg keys = Ok f.
Proof.
  intros Hn bl HW HB Hroom. pose proof (xor_bl_small _ Hn) as Hbl. fold bl in Hbl.
  set (P := firstn n (free_slots bl bad)).
  assert (LP : length P = n) by (unfold P; rewrite firstn_length; pose proof (free_slots_length bl bad); lia).
  assert (NP : NoDup P).
  { pose proof (free_slots_nodup bl bad) as N. rewrite <- (firstn_skipn n (free_slots bl bad)) in N. now apply NoDup_app_l in N. }
  assert (IP : forall p, In p P -> (fst p < 3)%nat /\ (snd p < bl)%nat /\ ~ In (snd p) bad).
  { intros p Hp. apply free_slots_in. rewrite <- (firstn_skipn n (free_slots bl bad)). apply in_app_iff. now left. }
  clearbody P. set (hash := fun p : nat * nat => xhash (fst p) (word (snd p))).
  set (slot := fun p : nat * nat => (fst p * bl + snd p)%nat).
  assert (HU : forall p, In p P -> is_u64 (hash p)).
  { intros p Hp. destruct (IP p Hp) as (I1 & I2 & _). apply (xhash_words (fst p) 0); [exact I1|lia|apply HW; exact I2]. }
  assert (POS : forall p b', In p P -> (b' < 3)%nat -> xpos bl b' (hash p) = if (b' =? fst p)%nat then snd p else wpos bl (xword (fst p) b' (word (snd p)))).
  { intros p b' Hp Hb'. destruct (IP p Hp) as (I1 & I2 & _). unfold hash. rewrite xpos_words; [|exact I1|exact Hb'|apply HW; exact I2].
    destruct (Nat.eqb_spec b' (fst p)) as [->|N]; [|reflexivity].
    replace (xword (fst p) (fst p) (word (snd p))) with (word (snd p)); [apply HW; exact I2|].
    destruct (fst p) as [|[|[|b]]]; [reflexivity|reflexivity|reflexivity|lia]. }
  assert (PE : peels (xfl bl 0) (xfl bl 1) (xfl bl 2) (map hash P)).
  { assert (INC : forall p j, inc (xfl bl 0) (xfl bl 1) (xfl bl 2) (hash p) j = true <-> exists b', (b' < 3)%nat /\ j = (b' * bl + xpos bl b' (hash p))%nat).
    { intros p j. rewrite inc_iff. unfold xfl. split.
      - intros [H|[H|H]]; [exists 0%nat|exists 1%nat|exists 2%nat]; split; try lia; exact H.
      - intros (b' & Hb & ->). destruct b' as [|[|[|b']]]; [now left|right; now left|right; now right|lia]. }
    apply (private_peels _ _ _ hash slot P NP).
    - intros p Hp. apply INC. exists (fst p). destruct (IP p Hp) as (I1 & _). split; [exact I1|]. rewrite POS by assumption.
      rewrite Nat.eqb_refl. reflexivity.
    - intros p p' Hp Hp' Hne. destruct (inc (xfl bl 0) (xfl bl 1) (xfl bl 2) (hash p') (slot p)) eqn:E; [exfalso|reflexivity].
      apply INC in E. destruct E as (b' & Hb' & E). destruct (IP p Hp) as (I1 & I2 & I3). destruct (IP p' Hp') as (J1 & J2 & J3).
      assert (X : (xpos bl b' (hash p') < bl)%nat) by (apply xpos_lt; [lia|exact Hbl]).
      unfold slot in E.
      assert (b' = fst p /\ xpos bl b' (hash p') = snd p) as [-> EX].
      { clear - E X I2. set (x := xpos bl b' (hash p')) in *. clearbody x. set (b := fst p) in *. clearbody b. set (a := snd p) in *. clearbody a.
        assert (b' = b) by nia. subst b'. split; lia. }
      rewrite POS in EX by assumption. destruct (Nat.eqb_spec (fst p) (fst p')) as [Q|Q].
      + apply Hne. destruct p, p'. cbn [fst snd] in *. congruence.
      + apply I3. rewrite <- EX. apply HB; [exact J2|exact J1|exact I1|congruence]. }
  set (keys := map (fun p => unmix (hash p) (retry_seed 0)) P). exists keys.
  assert (L : length keys = n) by (unfold keys; now rewrite map_length).
  assert (E : xhs keys (retry_seed 0) = map hash P).
  { unfold xhs, keys. rewrite map_map. apply map_ext_in. intros p Hp. apply mix_unmix. apply HU, Hp. }
  assert (ND : NoDup keys).
  { pose proof (apeels_nodup _ _ _ _ PE) as Q. rewrite <- E in Q. unfold xhs in Q. now apply NoDup_map_inv in Q. }
  split; [exact L|]. split; [exact ND|]. split.
  - apply Forall_forall. intros k Hk. unfold keys in Hk. apply in_map_iff in Hk as (p & <- & _). unfold unmix. apply Z.mod_pos_bound. reflexivity.
  - intros w dbg. clearbody keys. unfold bl in *. clear bl LP. subst n.
    destruct (xor_construct dbg keys Hbl Hn 1 w (fun _ => ND)) as [(i & fps & _ & _ & _ & _ & _ & EE)|[_ N]].
    + eexists. exact EE.
    + exfalso. apply (N 0%nat); [lia|]. rewrite E. exact PE.
Qed.

(** @C78 for every number of keys below 2^32 there are distinct keys for which an Xor filter is
    built on the first attempt, in both profiles and with every fingerprint width. *)
Lemma xor_size_built : forall n, Z.of_nat n < 2 ^ 32 ->
  exists keys, length keys = n /\ NoDup keys /\ Forall is_u64 keys /\
    forall w dbg, exists f, xor_from 1 w dbg keys = Ok f.
Proof.
  intros n Hn. pose proof (xor_bl_bounds n Hn) as B. pose proof (xor_bl_small n Hn) as Hbl. unfold two32 in Hbl.
  destruct (Z.le_gt_cases (Z.of_nat (xor_block_length n)) (2 ^ 21)) as [S|S].
  - apply (xor_build n (fun a => ((Z.of_nat a * 2 ^ 21 + Z.of_nat (xor_block_length n) - 1) / Z.of_nat (xor_block_length n)) * 2 ^ 11) [0%nat] Hn).
    + intros a Ha. set (bl := xor_block_length n) in *. unfold wpos. clearbody bl.
      pose proof (Z.div_mod (Z.of_nat a * 2 ^ 21 + Z.of_nat bl - 1) (Z.of_nat bl) ltac:(lia)) as D.
      pose proof (Z.mod_pos_bound (Z.of_nat a * 2 ^ 21 + Z.of_nat bl - 1) (Z.of_nat bl) ltac:(lia)) as M.
      set (q := (Z.of_nat a * 2 ^ 21 + Z.of_nat bl - 1) / Z.of_nat bl) in *. set (r := (Z.of_nat a * 2 ^ 21 + Z.of_nat bl - 1) mod Z.of_nat bl) in *. clearbody q r.
      change (2 ^ 21) with 2097152 in *. change (2 ^ 11) with 2048. change (2 ^ 32) with 4294967296.
      assert (0 <= q < 2097152) by (clear - D M Ha S; nia). split; [lia|].
      replace (q * 2048 * Z.of_nat bl / 4294967296) with (Z.of_nat a); [apply Nat2Z.id|].
      apply (Z.div_unique_pos _ _ _ ((Z.of_nat bl - 1 - r) * 2048)); clear - D M S; nia.
    + intros a b b' Ha Hb Hb' Hne. left. set (bl := xor_block_length n) in *. clearbody bl.
      assert (Q : 0 <= (Z.of_nat a * 2 ^ 21 + Z.of_nat bl - 1) / Z.of_nat bl < 2 ^ 21).
      { split; [apply Z.div_pos; lia|]. apply Z.div_lt_upper_bound; lia. }
      set (q := (Z.of_nat a * 2 ^ 21 + Z.of_nat bl - 1) / Z.of_nat bl) in *. clearbody q.
      assert (ZP : forall x, 0 <= x < 2 ^ 11 -> 0%nat = wpos bl x).
      { intros x Hx. unfold wpos. rewrite Z.div_small; [reflexivity|]. clear - Hx S. change (2 ^ 21) with 2097152 in *. change (2 ^ 11) with 2048 in *. nia. }
      assert (M11 : q * 2 ^ 11 mod 2 ^ 11 = 0) by (apply Z.mod_mul; lia).
      assert (M10 : q * 2 ^ 11 mod 2 ^ 10 = 0) by (change (2 ^ 11) with (2 * 2 ^ 10); rewrite Z.mul_assoc; apply Z.mod_mul; lia).
      assert (D21 : 0 <= q * 2 ^ 11 / 2 ^ 21 < 2 ^ 11) by (split; [apply Z.div_pos; lia|apply Z.div_lt_upper_bound; lia]).
      assert (D22 : 0 <= q * 2 ^ 11 / 2 ^ 22 < 2 ^ 11) by (split; [apply Z.div_pos; lia|apply Z.div_lt_upper_bound; lia]).
      destruct b as [|[|[|b]]], b' as [|[|[|b']]]; try lia; try congruence; cbn [xword]; rewrite ?M11, ?M10; apply ZP; lia.
    + cbn [length]. lia.
  - set (bl := xor_block_length n) in *.
    set (bad := map (fun z => wpos bl (Z.of_nat z)) (seq 0 (Z.to_nat 2048)) ++ map (fun z => wpos bl (Z.of_nat z * 2 ^ 21)) (seq 0 (Z.to_nat 2048))).
    assert (LB : length bad = Z.to_nat 4096) by (unfold bad; rewrite app_length, !map_length, !seq_length; lia).
    assert (B1 : forall x, 0 <= x < 2048 -> In (wpos bl x) bad).
    { intros x Hx. apply in_app_iff. left. apply in_map_iff. exists (Z.to_nat x). rewrite Z2Nat.id by lia. split; [reflexivity|apply in_seq; lia]. }
    assert (B2 : forall x, 0 <= x < 2048 -> In (wpos bl (x * 2 ^ 21)) bad).
    { intros x Hx. apply in_app_iff. right. apply in_map_iff. exists (Z.to_nat x). rewrite Z2Nat.id by lia. split; [reflexivity|apply in_seq; lia]. }
    clearbody bad.
    assert (W : forall a, (a < bl)%nat -> 0 <= word_for (Z.of_nat bl) (Z.of_nat a) < 2 ^ 32 /\ wpos bl (word_for (Z.of_nat bl) (Z.of_nat a)) = a).
    { intros a Ha. destruct (word_for_ok (Z.of_nat bl) (Z.of_nat a) ltac:(lia) ltac:(lia)) as [R E]. split; [exact R|].
      unfold wpos. rewrite E. apply Nat2Z.id. }
    apply (xor_build n (fun a => word_for (Z.of_nat bl) (Z.of_nat a)) bad Hn).
    + exact W.
    + intros a b b' Ha Hb Hb' Hne. fold bl. destruct (W a Ha) as [R _]. set (r := word_for (Z.of_nat bl) (Z.of_nat a)) in *. clearbody r.
      pose proof (Z.mod_pos_bound r (2 ^ 11) ltac:(lia)) as M11. pose proof (Z.mod_pos_bound r (2 ^ 10) ltac:(lia)) as M10.
      assert (D21 : 0 <= r / 2 ^ 21 < 2 ^ 11) by (split; [apply Z.div_pos; lia|apply Z.div_lt_upper_bound; lia]).
      assert (D22 : 0 <= r / 2 ^ 22 < 2 ^ 11) by (split; [apply Z.div_pos; lia|apply Z.div_lt_upper_bound; lia]).
      assert (E22 : r mod 2 ^ 10 * 2 ^ 22 = (r mod 2 ^ 10 * 2) * 2 ^ 21) by (change (2 ^ 22) with (2 * 2 ^ 21); ring).
      destruct b as [|[|[|b]]], b' as [|[|[|b']]]; try lia; try congruence; cbn [xword]; rewrite ?E22; first [apply B1; lia|apply B2; lia].
    + rewrite LB. fold bl. lia.
Qed.

(** @C78 the boundaries: 202 and 712 keys fit, 203 and 717 never do. *)
Example fuse_size_example : fuse_size_possible 202 /\ fuse_size_possible 712 /\ fuse_size_possible 1000000 /\
  ~ fuse_size_possible 203 /\ ~ fuse_size_possible 717 /\
  (exists f, fuse_from_impl 1 8 false (fun _ => 0) (spread_keys 90) = Ok f) /\ length (spread_keys 90) = 90%nat.
Proof.
  unfold fuse_size_possible. do 5 (split; [lia|]). split; [eexists; vm_compute; reflexivity|reflexivity].
Qed.

(** @C76 the size tests do pass for some million keys, for each of the nine filters. *)
Example bpe_tests_example :
  (exists keys, length keys = SAMPLE_SIZE /\ NoDup keys /\ forall w bound dbg, In (w, bound) xor_bounds ->
     bpe_test (xor_from 1 w dbg) (fun f => length (xf_fingerprints f)) w bound keys = Ok tt) /\
  (exists keys, length keys = SAMPLE_SIZE /\ NoDup keys /\ forall w bound dbg rnd, In (w, bound) fuse_bounds ->
     bpe_test (fuse_try_from w dbg rnd) (fun f => length (ff_fingerprints f)) w bound keys = Ok tt) /\
  (exists keys, length keys = SAMPLE_SIZE /\ NoDup keys /\ forall w bound dbg rnd, In (w, bound) bfuse_bounds ->
     bpe_test (bfuse_try_from w dbg (f64_estimates crude_log) rnd) bfuse_len w bound keys = Ok tt).
Proof.
  pose proof (million SAMPLE_SIZE eq_refl) as Hm. split; [|split].
  - destruct (xor_size_built SAMPLE_SIZE ltac:(lia)) as (keys & L & ND & _ & B). exists keys. split; [exact L|]. split; [exact ND|].
    intros w bound dbg Hw. apply xor_bpe_test_iff; [exact Hw|exact L|]. apply B.
  - destruct (fuse_size_built SAMPLE_SIZE ltac:(lia) ltac:(unfold fuse_size_possible; lia)) as (keys & L & ND & _ & B). exists keys. split; [exact L|]. split; [exact ND|].
    intros w bound dbg rnd Hw. apply fuse_bpe_test_iff; [exact Hw|exact L|]. apply B.
  - destruct (bfuse_size_built crude_log SAMPLE_SIZE crude_log_reasonable ltac:(unfold max_keys; lia)) as (keys & L & ND & _ & B). exists keys. split; [exact L|]. split; [exact ND|].
    intros w bound dbg rnd Hw. apply bfuse_bpe_test_iff; [exact crude_log_reasonable|exact Hw|exact L|]. apply B. lia.
Qed.

(** @C77 filters of 2^20 keys exist in all three families, and compare as documented; filters of
    a thousand keys exist as well, and the Xor filter is the smaller one. *)
Example family_sizes_example :
  (exists kx kf kb fx ff fb, length kx = Z.to_nat (2 ^ 20) /\ length kf = Z.to_nat (2 ^ 20) /\ length kb = Z.to_nat (2 ^ 20) /\
     xor_from 1 8 true kx = Ok fx /\ fuse_try_from 8 true (fun _ => 0) kf = Ok ff /\
     bfuse_try_from 8 true (f64_estimates crude_log) (fun _ => 0) kb = Ok fb /\
     (bfuse_len fb < length (xf_fingerprints fx) /\ length (ff_fingerprints ff) < length (xf_fingerprints fx) /\
      98 * length (ff_fingerprints ff) < 100 * bfuse_len fb < 102 * length (ff_fingerprints ff))%nat) /\
  (exists kx kf kb fx ff fb, length kx = Z.to_nat 1000 /\ length kf = Z.to_nat 1000 /\ length kb = Z.to_nat 1000 /\
     xor_from 1 8 true kx = Ok fx /\ fuse_try_from 8 true (fun _ => 0) kf = Ok ff /\
     bfuse_try_from 8 true (f64_estimates crude_log) (fun _ => 0) kb = Ok fb /\
     (length (xf_fingerprints fx) < bfuse_len fb /\ 6 * length (ff_fingerprints ff) < 5 * bfuse_len fb)%nat).
Proof.
  pose proof crude_log_reasonable as HL.
  assert (G : forall N, 1000 <= N <= max_keys -> exists kx kf kb fx ff fb, length kx = Z.to_nat N /\ length kf = Z.to_nat N /\ length kb = Z.to_nat N /\
     xor_from 1 8 true kx = Ok fx /\ fuse_try_from 8 true (fun _ => 0) kf = Ok ff /\
     bfuse_try_from 8 true (f64_estimates crude_log) (fun _ => 0) kb = Ok fb).
  { intros N HN. assert (EN : Z.of_nat (Z.to_nat N) = N) by (apply Z2Nat.id; lia). unfold max_keys in *.
    destruct (xor_size_built (Z.to_nat N) ltac:(lia)) as (kx & Lx & _ & _ & Bx).
    destruct (fuse_size_built (Z.to_nat N) ltac:(lia) ltac:(unfold fuse_size_possible; lia)) as (kf & Lf & _ & _ & Bf).
    destruct (bfuse_size_built crude_log (Z.to_nat N) HL ltac:(unfold max_keys; lia)) as (kb & Lb & _ & _ & Bb).
    destruct (Bx 8%nat true) as (fx & Ex). destruct (Bf 8%nat true (fun _ => 0)) as (ff & Ef).
    destruct (Bb (Z.to_nat 1000) 8%nat true (fun _ => 0) ltac:(lia)) as (fb & Eb).
    exists kx, kf, kb, fx, ff, fb. split; [exact Lx|]. split; [exact Lf|]. split; [exact Lb|]. split; [exact Ex|]. split; [exact Ef|exact Eb]. }
  split.
  - destruct (G (2 ^ 20) ltac:(unfold max_keys; lia)) as (kx & kf & kb & fx & ff & fb & Lx & Lf & Lb & Ex & Ef & Eb).
    exists kx, kf, kb, fx, ff, fb. do 6 (split; [assumption|]).
    assert (ZX : Z.of_nat (length kx) = 2 ^ 20) by (rewrite Lx; apply Z2Nat.id; lia).
    assert (ZF : Z.of_nat (length kf) = 2 ^ 20) by (rewrite Lf; apply Z2Nat.id; lia).
    split; [|split].
    + apply (xor_larger crude_log (Z.to_nat 1000) 8 true (fun _ => 0) kx fx true kb fb HL); [unfold max_keys; lia|congruence|now exists 1%nat|exact Eb].
    + apply (xor_larger_than_fuse (Z.to_nat 1000) 8 true (fun _ => 0) kx fx true kf ff); [lia|lia|congruence|now exists 1%nat|exact Ef].
    + apply (bfuse_fuse_equivalent crude_log (Z.to_nat 1000) (Z.to_nat 1000) 8 true (fun _ => 0) kf ff true (fun _ => 0) kb fb HL); [lia|unfold max_keys; lia|congruence|exact Ef|exact Eb|lia].
  - destruct (G 1000 ltac:(unfold max_keys; lia)) as (kx & kf & kb & fx & ff & fb & Lx & Lf & Lb & Ex & Ef & Eb).
    exists kx, kf, kb, fx, ff, fb. do 6 (split; [assumption|]).
    assert (ZX : Z.of_nat (length kx) = 1000) by (rewrite Lx; apply Z2Nat.id; lia).
    assert (ZF : Z.of_nat (length kf) = 1000) by (rewrite Lf; apply Z2Nat.id; lia).
    split.
    + apply (xor_larger_refuted crude_log (Z.to_nat 1000) 8 true (fun _ => 0) kx fx true kb fb HL); [lia|congruence|now exists 1%nat|exact Eb].
    + apply (bfuse_fuse_equivalent crude_log (Z.to_nat 1000) (Z.to_nat 1000) 8 true (fun _ => 0) kf ff true (fun _ => 0) kb fb HL); [lia|unfold max_keys; lia|congruence|exact Ef|exact Eb|lia].
Qed.
