(** Claims about Fuse8/16/32 and HashProxy. *)
From Coq Require Import Permutation.
From Verif Require Import Base Hash Xorf Float64 Xor Fuse HashProxy SpecFilter SpecXorf SpecXor Base_facts HashInj_facts
  Peel_facts KeyPeel_facts HSet_facts Bfuse_facts Fuse_facts Float_facts Claims_xor.
Local Open Scope Z_scope.

Lemma fuse_sl_bounds n : Z.of_nat n < 2 ^ 32 ->
  102 * 879 * Z.of_nat (fuse_segment_length n) <= 1000 * Z.of_nat n < 102 * 879 * Z.of_nat (fuse_segment_length n) + 102 * 879 + 1.
Proof.
  intros Hn. pose proof (trunc_1_1376 n Hn) as T. cbv zeta in T. fold FUSE_OVERHEAD in T.
  unfold fuse_segment_length, fuse_capacity. rewrite Nat.div_mul by (unfold SLOTS; lia). unfold SLOTS.
  set (v := f64_to_usize (f64_mul FUSE_OVERHEAD (f64_of_usize n))) in *. clearbody v.
  pose proof (Nat.div_mod_eq v 102) as D. pose proof (Nat.mod_upper_bound v 102 ltac:(lia)) as M.
  set (q := (v / 102)%nat) in *. clearbody q. set (r := (v mod 102)%nat) in *. clearbody r. lia.
Qed.
Lemma fuse_sl_small n : Z.of_nat n < 2 ^ 32 -> Z.of_nat (fuse_segment_length n) < two32.
Proof. intros Hn. pose proof (fuse_sl_bounds n Hn). unfold two32. lia. Qed.

Lemma fuse_probes_slots dbg sl seed slots : Z.of_nat sl < two32 -> fuse_probes dbg sl seed slots ->
  forall key, slots key = [fs1 sl (mix key seed); fs2 sl (mix key seed); fs3 sl (mix key seed)].
Proof.
  intros H P key. destruct (P key) as (a & b & c & E & ->). rewrite fuse_hset_eq in E by auto.
  injection E as <- <- <-. reflexivity.
Qed.
Lemma fs_probes dbg sl seed : Z.of_nat sl < two32 -> fuse_probes dbg sl seed
  (fun key => [fs1 sl (mix key seed); fs2 sl (mix key seed); fs3 sl (mix key seed)]).
Proof. intros H key. do 3 eexists. split; [apply fuse_hset_eq; auto|reflexivity]. Qed.
Lemma fuse_link dbg sl seed slots keys : Z.of_nat sl < two32 -> fuse_probes dbg sl seed slots ->
  peelable slots keys <-> peels (fs1 sl) (fs2 sl) (fs3 sl) (fhs keys seed).
Proof.
  intros H P. apply (link_peelable (fs1 sl) (fs2 sl) (fs3 sl) Z (fun key => mix key seed)).
  apply (fuse_probes_slots dbg); auto.
Qed.
Lemma fuse_dbg_distinct mi w rnd keys f : fuse_from_impl mi w true rnd keys = Ok f -> NoDup keys.
Proof.
  unfold fuse_from_impl. destruct (all_distinct64 keys) eqn:E; [|discriminate]. intros _. now apply all_distinct64_nodup.
Qed.
Lemma fuse_sl_zero n : fuse_segment_length n = 0%nat -> fuse_capacity n = 0%nat.
Proof. intros E. rewrite fuse_cap_eq, E. reflexivity. Qed.
Lemma fuse_mi0 w dbg rnd keys : (dbg = true -> NoDup keys) -> fuse_from_impl 0 w dbg rnd keys = Err EFuseFail.
Proof.
  intros HD. unfold fuse_from_impl.
  assert (E0 : dbg && negb (all_distinct64 keys) = false).
  { destruct dbg; [|reflexivity]. cbn [andb]. rewrite (proj2 (all_distinct64_nodup keys) (HD eq_refl)). reflexivity. }
  rewrite E0. rewrite (surjective_pairing (splitmix64 1)). reflexivity.
Qed.

(** ** C47 *)

(** @C47 every key given to a successful construction is reported as contained, for every
    attempt limit, fingerprint width, random initial fill and build profile. *)
Lemma fuse_no_false_negatives : forall max_iter w dbg rnd keys f, Z.of_nat (length keys) < 2 ^ 32 ->
  fuse_from_impl max_iter w dbg rnd keys = Ok f ->
  forall dbg' key, In key keys -> fuse_contains w dbg' f key = Ok true.
Proof.
  intros mi w dbg rnd keys f Hn E dbg' key Hk. pose proof (fuse_sl_small _ Hn) as Hsl.
  assert (HD : dbg = true -> NoDup keys) by (intros ->; eapply fuse_dbg_distinct; eauto).
  destruct (Nat.eq_dec (fuse_segment_length (length keys)) 0) as [Z0|NZ].
  - exfalso. destruct mi as [|mi]; [rewrite fuse_mi0 in E by auto; discriminate E|].
    rewrite fuse_zero in E; [discriminate E|lia| |now apply fuse_sl_zero]. intros ->. destruct Hk.
  - assert (Hsl0 : (0 < fuse_segment_length (length keys))%nat) by lia.
    destruct (fuse_construct dbg keys Hsl0 Hsl Hn mi w rnd HD) as [(i & fps & Hi & L & P & S & _ & EE)|[EE _]];
      rewrite EE in E; [|discriminate E].
    injection E as <-. rewrite fuse_contains_x3; auto. f_equal. apply Z.eqb_eq. symmetry. auto.
Qed.

(** @C47 with at least 90 distinct keys the outcome is determined: the filter uses the
    first seed of the sequence that makes the keys peelable, and the construction error is
    returned exactly when none of the allowed seeds does. It never panics. *)
Lemma fuse_construct_iff : forall max_iter w dbg rnd keys probes, Z.of_nat (length keys) < 2 ^ 32 ->
  (90 <= length keys)%nat -> NoDup keys ->
  (forall i, fuse_probes dbg (fuse_segment_length (length keys)) (retry_seed i) (probes i)) ->
  (exists i f, (i < max_iter)%nat /\ fuse_from_impl max_iter w dbg rnd keys = Ok f /\ ff_seed f = retry_seed i /\
     peelable (probes i) keys /\ forall j, (j < i)%nat -> ~ peelable (probes j) keys) \/
  (fuse_from_impl max_iter w dbg rnd keys = Err EFuseFail /\
     forall i, (i < max_iter)%nat -> ~ peelable (probes i) keys).
Proof.
  intros mi w dbg rnd keys probes Hn H90 ND Hpr. pose proof (fuse_sl_small _ Hn) as Hsl.
  pose proof (fuse_sl_bounds _ Hn) as B. assert (Hsl0 : (0 < fuse_segment_length (length keys))%nat) by lia.
  assert (LK := fun i => fuse_link dbg _ _ (probes i) keys Hsl (Hpr i)).
  destruct (fuse_construct dbg keys Hsl0 Hsl Hn mi w rnd (fun _ => ND)) as [(i & fps & Hi & L & P & S & NP & EE)|[EE NP]].
  - left. exists i. eexists. split; [exact Hi|]. split; [exact EE|]. split; [reflexivity|].
    split; [apply LK, P|]. intros j Hj. rewrite LK. auto.
  - right. split; [exact EE|]. intros i Hi. rewrite LK. auto.
Qed.

(** @C47 the probes of the claim above exist and are three increasing positions in three
    consecutive segments, inside the filter. *)
Lemma fuse_probes_exist : forall dbg n seed, Z.of_nat n < 2 ^ 32 -> (90 <= n)%nat ->
  exists slots, fuse_probes dbg (fuse_segment_length n) seed slots /\
    forall key, exists a b c, slots key = [a; b; c] /\
      (b / fuse_segment_length n = a / fuse_segment_length n + 1 /\
       c / fuse_segment_length n = a / fuse_segment_length n + 2 /\
       c < 102 * fuse_segment_length n)%nat.
Proof.
  intros dbg n seed Hn H90. pose proof (fuse_sl_small _ Hn) as Hsl.
  pose proof (fuse_sl_bounds _ Hn) as B. assert (Hsl0 : (0 < fuse_segment_length n)%nat) by lia.
  set (sl := fuse_segment_length n) in *. clearbody sl.
  eexists. split; [apply fs_probes; auto|]. intros key. do 3 eexists. split; [reflexivity|].
  assert (R : forall r, (foff sl (r mod two32) < sl)%nat).
  { intros r. unfold foff. rewrite Z.shiftr_div_pow2 by lia. pose proof (mod32_range r) as M.
    set (q := r mod two32) in *. clearbody q. unfold two32 in *.
    assert (0 <= q * Z.of_nat sl / 2 ^ 32 < Z.of_nat sl); [|lia].
    split; [apply Z.div_pos; nia|apply Z.div_lt_upper_bound; [lia|]]. nia. }
  assert (Q : forall s o, (o < sl)%nat -> ((s * sl + o) / sl = s)%nat).
  { intros s o Ho. rewrite Nat.div_add_l by lia. rewrite Nat.div_small by auto. lia. }
  pose proof (fseg_lt (mix key seed)) as FS.
  unfold fs1, fs2, fs3. 
  pose proof (R (Z.shiftr (wmul64 H3 (mix key seed)) 32)) as R3.
  rewrite !Q by auto. split; [reflexivity|]. split; [reflexivity|].
  set (o := foff sl _) in *. clearbody o. nia.
Qed.

(** Keys whose hashes under the first retry seed fall into different segments. *)
Definition spread_keys (n : nat) : list Z :=
  map (fun i => unmix (Z.of_nat i * 42949673 + 1) (retry_seed 0)) (seq 0 n).
Definition fuse_fill (i : nat) : Z := Z.of_nat i * 37 mod 256.

(** @C47 *)
Example fuse_example : exists f,
  fuse_try_from 8 true fuse_fill (spread_keys 90) = Ok f /\ length (spread_keys 90) = 90%nat /\
  NoDup (spread_keys 90) /\ length (ff_fingerprints f) = 102%nat /\
  fuse_contains 8 false f (nth 89 (spread_keys 90) 0) = Ok true /\ fuse_contains 8 false f 6 = Ok false.
Proof.
  assert (exists f, fuse_try_from 8 true fuse_fill (spread_keys 90) = Ok f) as [f E] by (eexists; vm_compute; reflexivity).
  exists f. split; [exact E|]. split; [reflexivity|].
  split; [apply all_distinct64_nodup; vm_compute; reflexivity|].
  vm_compute in E. injection E as <-. split; [reflexivity|]. split; vm_compute; reflexivity.
Qed.

(** ** C48 *)

(** @C48 with 1 to 89 keys the construction panics (capacity 0), in both profiles and for
    every key list: neither a filter nor the documented error is returned. *)
Lemma fuse_small_sets_refuted : forall w dbg rnd keys, (1 <= length keys <= 89)%nat ->
  fuse_try_from w dbg rnd keys = Panic.
Proof.
  intros w dbg rnd keys H. unfold fuse_try_from. apply fuse_zero.
  - lia.
  - intros ->. cbn [length] in H. lia.
  - apply fuse_sl_zero. assert (Hn : Z.of_nat (length keys) < 2 ^ 32) by lia.
    pose proof (fuse_sl_bounds _ Hn). lia.
Qed.

(** @C48 conversely with 90 keys or more the construction panics only on repeated keys in
    debug builds. *)
Lemma fuse_panics_iff : forall w dbg rnd keys, Z.of_nat (length keys) < 2 ^ 32 -> (90 <= length keys)%nat ->
  (fuse_try_from w dbg rnd keys = Panic <-> dbg = true /\ ~ NoDup keys).
Proof.
  intros w dbg rnd keys Hn H90. unfold fuse_try_from. pose proof (fuse_sl_small _ Hn) as Hsl.
  pose proof (fuse_sl_bounds _ Hn) as B. assert (Hsl0 : (0 < fuse_segment_length (length keys))%nat) by lia.
  split.
  - intros E. destruct dbg.
    + split; [reflexivity|]. intros ND.
      destruct (fuse_construct true keys Hsl0 Hsl Hn (Z.to_nat 1000) w rnd (fun _ => ND)) as [(i & fps & _ & _ & _ & _ & _ & EE)|[EE _]]; congruence.
    + destruct (fuse_construct false keys Hsl0 Hsl Hn (Z.to_nat 1000) w rnd) as [(i & fps & _ & _ & _ & _ & _ & EE)|[EE _]]; congruence.
  - intros [-> ND]. unfold fuse_from_impl. destruct (all_distinct64 keys) eqn:E; [|reflexivity].
    exfalso. now apply ND, all_distinct64_nodup.
Qed.

Lemma foff1 r : foff 1 (r mod two32) = 0%nat.
Proof.
  unfold foff. rewrite Z.mul_1_r, Z.shiftr_div_pow2 by lia. pose proof (mod32_range r) as M.
  change (2 ^ 32) with two32. rewrite Z.div_small by exact M. reflexivity.
Qed.
Lemma inc_seg1 h h' j : fseg h = fseg h' -> Peel_facts.inc (fs1 1) (fs2 1) (fs3 1) h j = Peel_facts.inc (fs1 1) (fs2 1) (fs3 1) h' j.
Proof.
  intros E.
  assert (A1 : forall h, fs1 1 h = fseg h) by (intros k; unfold fs1; rewrite foff1; lia).
  assert (A2 : forall h, fs2 1 h = (fseg h + 1)%nat) by (intros k; unfold fs2; rewrite foff1; lia).
  assert (A3 : forall h, fs3 1 h = (fseg h + 2)%nat) by (intros k; unfold fs3; rewrite foff1; lia).
  unfold Peel_facts.inc. rewrite !A1, !A2, !A3, E. reflexivity.
Qed.
Lemma peels_seg1 M : peels (fs1 1) (fs2 1) (fs3 1) M -> NoDup (map fseg M).
Proof.
  intros H. induction H as [|h M M' j P I A HP IH]; [constructor|].
  apply (Permutation_NoDup (Permutation_map fseg (Permutation_sym P))). cbn [map]. constructor; auto.
  intros Hin. apply in_map_iff in Hin. destruct Hin as (h' & E & Hin). specialize (A h' Hin).
  rewrite (inc_seg1 h' h j E) in A. congruence.
Qed.

(** @C48 with 101 to 179 keys the construction fails for every attempt limit, whatever the
    keys are: segments have length 1, so two keys always share all three positions. *)
Lemma fuse_always_fails : forall max_iter w dbg rnd keys, (101 <= length keys <= 179)%nat ->
  (dbg = true -> NoDup keys) ->
  fuse_from_impl max_iter w dbg rnd keys = Err EFuseFail.
Proof.
  intros mi w dbg rnd keys H HD. assert (Hn : Z.of_nat (length keys) < 2 ^ 32) by lia.
  pose proof (fuse_sl_small _ Hn) as Hsl.
  pose proof (fuse_sl_bounds _ Hn) as B. assert (E1 : fuse_segment_length (length keys) = 1%nat) by lia.
  assert (Hsl0 : (0 < fuse_segment_length (length keys))%nat) by lia.
  destruct (fuse_construct dbg keys Hsl0 Hsl Hn mi w rnd HD) as [(i & fps & Hi & L & P & _)|[EE _]]; [|exact EE].
  exfalso. rewrite E1 in P. apply peels_seg1 in P.
  assert (IL : (length (map fseg (fhs keys (retry_seed i))) <= length (seq 0 100))%nat).
  { apply NoDup_incl_length; [exact P|]. intros s Hs. apply in_map_iff in Hs. destruct Hs as (h & <- & _).
    apply in_seq. pose proof (fseg_lt h). lia. }
  unfold fhs in IL. rewrite !map_length, seq_length in IL. lia.
Qed.

(** @C48 the filter of the empty set is returned, but every lookup in it panics. *)
Lemma fuse_empty : forall w dbg rnd, exists f, fuse_try_from w dbg rnd [] = Ok f /\
  forall dbg' key, fuse_contains w dbg' f key = Panic.
Proof.
  intros w dbg rnd. unfold fuse_try_from. exists {| ff_seed := retry_seed 0; ff_segment_length := 0; ff_fingerprints := [] |}.
  split.
  - unfold fuse_from_impl. replace (dbg && negb (all_distinct64 [])) with false by (destruct dbg; reflexivity).
    assert (exists k, Z.to_nat 1000 = S k) as [k ->] by (exists (Z.to_nat 999); reflexivity).
    vm_compute. reflexivity.
  - intros dbg' key. unfold fuse_contains. cbn [ff_seed ff_segment_length ff_fingerprints].
    rewrite fuse_hset_eq by reflexivity. cbn [bind]. rewrite idx_oob by (cbn [length]; apply Nat.le_0_l). reflexivity.
Qed.

(** @C48 *)
Example fuse_small_example : (1 <= length [1; 2; 3] <= 89)%nat /\ fuse_try_from 8 true fuse_fill [1; 2; 3] = Panic /\
  (101 <= length (spread_keys 120) <= 179)%nat /\ NoDup (spread_keys 120).
Proof.
  split; [cbn [length]; lia|]. split; [vm_compute; reflexivity|].
  split; [unfold spread_keys; rewrite map_length, seq_length; lia|].
  apply all_distinct64_nodup. vm_compute. reflexivity.
Qed.

(** ** C56 *)

(** @C56 the number of fingerprints of a Fuse filter is a multiple of 102, at most
    n / 0.879 and more than n / 0.879 - 103. *)
Lemma fuse_size : forall max_iter w dbg rnd keys f, Z.of_nat (length keys) < 2 ^ 32 -> (90 <= length keys)%nat ->
  fuse_from_impl max_iter w dbg rnd keys = Ok f ->
  let n := Z.of_nat (length keys) in let len := Z.of_nat (length (ff_fingerprints f)) in
  879 * len <= 1000 * n <= 879 * (len + 102) /\ len = 102 * Z.of_nat (ff_segment_length f).
Proof.
  intros mi w dbg rnd keys f Hn H90 E. cbv zeta. pose proof (fuse_sl_small _ Hn) as Hsl.
  pose proof (fuse_sl_bounds _ Hn) as B. assert (Hsl0 : (0 < fuse_segment_length (length keys))%nat) by lia.
  assert (HD : dbg = true -> NoDup keys) by (intros ->; eapply fuse_dbg_distinct; eauto).
  destruct (fuse_construct dbg keys Hsl0 Hsl Hn mi w rnd HD) as [(i & fps & Hi & L & P & S & _ & EE)|[EE _]];
    rewrite EE in E; [|discriminate E].
  injection E as <-. cbn [ff_fingerprints ff_segment_length]. rewrite L. lia.
Qed.

(** @C56 the documented bounds (9.101, 18.202 and 36.404 bits per entry) are not met: every
    Fuse8 filter of 3676 keys takes more than 9.101 bits per key, and likewise Fuse16 and
    Fuse32. *)
Lemma fuse_bits_per_entry_refuted : forall max_iter w dbg rnd keys f, length keys = Z.to_nat 3676 ->
  fuse_from_impl max_iter w dbg rnd keys = Ok f ->
  let len := Z.of_nat (length (ff_fingerprints f)) in
  9101 * 3676 < 1000 * (8 * len) /\ 18202 * 3676 < 1000 * (16 * len) /\ 36404 * 3676 < 1000 * (32 * len).
Proof.
  intros mi w dbg rnd keys f L E. cbv zeta.
  assert (H1 : Z.of_nat (length keys) < 2 ^ 32) by (rewrite L; reflexivity).
  assert (H2 : (90 <= length keys)%nat) by (rewrite L; lia).
  destruct (fuse_size mi w dbg rnd keys f H1 H2 E) as [B M].
  rewrite L in B. rewrite Z2Nat.id in B by lia. cbv zeta in M. lia.
Qed.

(** ** C49 *)

(** @C49 whatever the item type and hasher, an item given to a proxy that was built is
    reported as contained, provided the wrapped filter has no false negatives. *)
Lemma proxy_no_false_negatives : forall T F (hash : T -> Z) (from : list Z -> res F) (contains : F -> Z -> res bool),
  (forall keys f key, from keys = Ok f -> In key keys -> contains f key = Ok true) ->
  forall items f item, proxy_from hash from items = Ok f -> In item items ->
    proxy_contains hash contains f item = Ok true.
Proof.
  intros T F hash from contains H items f item E Hi. unfold proxy_contains, proxy_from in *.
  eapply H; eauto. apply in_map. exact Hi.
Qed.

(** @C49 in particular for the Xor filters, unconditionally. *)
Lemma xor_proxy_no_false_negatives : forall T (hash : T -> Z) tries w dbg items f, Z.of_nat (length items) < 2 ^ 32 ->
  xor_proxy_from hash tries w dbg items = Ok f ->
  forall dbg' item, In item items -> xor_proxy_contains hash w dbg' f item = Ok true.
Proof.
  intros T hash mi w dbg items f Hn E dbg' item Hi. unfold xor_proxy_from, xor_proxy_contains, proxy_from, proxy_contains in *.
  eapply (xor_no_false_negatives w dbg (map hash items)); [rewrite map_length; exact Hn|exists mi; exact E|].
  apply in_map. exact Hi.
Qed.

(** @C49 two items with the same hash (equal or not) make a release build never return and
    a debug build panic. *)
Lemma xor_proxy_collision : forall T (hash : T -> Z) w items1 a items2 b items3,
  let items := items1 ++ a :: items2 ++ b :: items3 in
  Z.of_nat (length items) < 2 ^ 32 -> hash a = hash b ->
  forall tries, xor_proxy_from hash tries w false items = Hang /\ xor_proxy_from hash tries w true items = Panic.
Proof.
  intros T hash w i1 a i2 b i3 items Hn E tries. unfold xor_proxy_from, proxy_from.
  destruct (xor_duplicates w (map hash items)) as [A B].
  - rewrite map_length. exact Hn.
  - unfold items. rewrite map_app. cbn [map]. rewrite map_app. cbn [map]. rewrite E. intros ND.
    apply NoDup_remove_2 in ND. apply ND. rewrite !in_app_iff. right. right. left. reflexivity.
  - split; [apply A|apply B].
Qed.

(** @C49 what is not an item is still reported as contained when it collides with one. *)
Lemma xor_proxy_hash_only : forall T (hash : T -> Z) w dbg f a b, hash a = hash b ->
  xor_proxy_contains hash w dbg f a = xor_proxy_contains hash w dbg f b.
Proof. intros T hash w dbg f a b E. unfold xor_proxy_contains, proxy_contains. rewrite E. reflexivity. Qed.

(** @C49 *)
Example proxy_example : exists f,
  xor_proxy_from (fun l => Z.of_nat (length l)) 3 8 true [[1]; [1; 2]; [1; 2; 3]] = Ok f /\
  xor_proxy_contains (fun l => Z.of_nat (length l)) 8 false f [1; 2] = Ok true /\
  xor_proxy_contains (fun l => Z.of_nat (length l)) 8 false f [1; 2; 3; 4] = Ok false.
Proof.
  assert (exists f, xor_proxy_from (fun l => Z.of_nat (length l)) 3 8 true [[1]; [1; 2]; [1; 2; 3]] = Ok f) as [f E] by (eexists; vm_compute; reflexivity).
  exists f. split; [exact E|]. vm_compute in E. injection E as <-. split; vm_compute; reflexivity.
Qed.
