(** Claims about the u64-keyed filters: hashing, seeds, BinaryFuse8/16/32. *)
From Coq Require Import Permutation.
From Verif Require Import Base Hash Fuse3 Xorf Bfuse SpecFilter SpecXorf Base_facts HashInj_facts
  Geom_facts Peel_facts KeyPeel_facts Filter_facts FilterTop_facts Bfuse_facts.
Local Open Scope Z_scope.

Definition best (e c : Z) : fest := {| fe_exp := fun _ => e; fe_cap := fun _ => c |}.
Definition fill (i : nat) : Z := Z.of_nat i * 37 mod 256.

(** ** C43 *)

(** @C43 for every seed, different u64 keys have different hashes, and every u64 is the
    hash of some key. *)
Lemma mix_bijective : forall seed,
  (forall a b, is_u64 a -> is_u64 b -> mix a seed = mix b seed -> a = b) /\
  (forall h, is_u64 h -> exists key, is_u64 key /\ mix key seed = h) /\
  (forall key, is_u64 (mix key seed)).
Proof.
  intros seed. split; [|split].
  - intros a b Ha Hb. apply mix_inj; auto.
  - intros h Hh. exists (unmix h seed). split; [unfold unmix, wadd64; apply is_u64_mod|apply mix_unmix; auto].
  - intros key. apply mix_is_u64.
Qed.

(** @C43 *)
Example mix_example : is_u64 1 /\ is_u64 2 /\ 
  mix 1 5 = 16768224888744592755 /\ mix 2 5 = 8360697188923789789.
Proof. split; [|split; [|split]]; try (unfold is_u64, two64; lia); vm_compute; reflexivity. Qed.

(** @C43 Keyword keys: the hash of each of the four words of a key depends on every byte of the
    32-byte seed: two seeds that differ, all the differences being in one of its four 8-byte
    words, hash every key word differently. *)
Lemma seed_word_matters : forall s1 s2 i k,
  Forall is_u8 s1 -> Forall is_u8 s2 -> length s1 = 32%nat -> length s2 = 32%nat -> (i < 4)%nat ->
  s1 <> s2 -> firstn (8 * i) s1 = firstn (8 * i) s2 -> skipn (8 * i + 8) s1 = skipn (8 * i + 8) s2 ->
  mix_word (seed_words s1) k <> mix_word (seed_words s2) k.
Proof.
  intros s1 s2 i k U1 U2 L1 L2 Hi N Hf Hs E. apply N.
  assert (W : forall s j, Forall is_u8 s -> is_u64 (of_le_bytes (firstn 8 (skipn j s)))).
  { intros s j U. apply word_u64; [|rewrite firstn_length; lia]. apply Forall_firstn'. now apply Forall_skipn'. }
  assert (Same : forall j, (j < 4)%nat -> j <> i -> firstn 8 (skipn (8 * j) s1) = firstn 8 (skipn (8 * j) s2)).
  { intros j Hj Hn. destruct (Nat.lt_ge_cases j i).
    - rewrite !firstn_skipn_comm.
      assert (X : forall s : list Z, firstn (8 * j + 8) s = firstn (8 * j + 8) (firstn (8 * i) s)).
      { intros s. rewrite firstn_firstn. f_equal. lia. }
      rewrite (X s1), (X s2), Hf. reflexivity.
    - assert (X : forall s : list Z, skipn (8 * j) s = skipn (8 * j - (8 * i + 8)) (skipn (8 * i + 8) s)).
      { intros s. rewrite skipn_twice. f_equal. lia. }
      rewrite (X s1), (X s2), Hs. reflexivity. }
  assert (Mid : firstn 8 (skipn (8 * i) s1) = firstn 8 (skipn (8 * i) s2)).
  { apply le_inj.
    - apply Forall_firstn'. now apply Forall_skipn'.
    - apply Forall_firstn'. now apply Forall_skipn'.
    - rewrite !firstn_length, !skipn_length, L1, L2. reflexivity.
    - apply (four_words k (fun i => of_le_bytes (firstn 8 (skipn (8 * i) s1))) (fun i => of_le_bytes (firstn 8 (skipn (8 * i) s2))) i).
      + intros j. apply W. exact U1.
      + intros j. apply W. exact U2.
      + exact Hi.
      + intros j Hj Hn. now rewrite (Same j Hj Hn).
      + exact E. }
  rewrite <- (firstn_skipn (8 * i) s1), <- (firstn_skipn (8 * i) s2), Hf. f_equal.
  rewrite <- (firstn_skipn 8 (skipn (8 * i) s1)), <- (firstn_skipn 8 (skipn (8 * i) s2)), Mid. f_equal.
  rewrite !skipn_twice. replace (8 + 8 * i)%nat with (8 * i + 8)%nat by lia. exact Hs.
Qed.

(** @C43 example: the hash of four words (value computed from the Rust text by hand, outside
    Coq), and how it changes with the last byte of the seed. *)
Example mix256_example :
  let key := [1; 9223372036854775813; 3; 18446744073709551615] in
  let seed := map Z.of_nat (seq 100 32) in
  mix256 key seed = 3994415740737954810 /\
  mix256 key (firstn 31 seed ++ [99]) = 16104608520778773534 /\
  mix256 [1; 0; 0; 0] (repeat 0 32) = 6958928095123392589 /\
  Forall is_u8 seed /\ length seed = 32%nat /\ firstn (8 * 3) (firstn 31 seed ++ [99]) = firstn (8 * 3) seed.
Proof.
  cbv zeta. split; [vm_compute; reflexivity|]. split; [vm_compute; reflexivity|]. split; [vm_compute; reflexivity|].
  split; [|split; reflexivity]. cbn. repeat constructor; unfold is_u8, two8; lia.
Qed.

(** ** C50 *)

(** @C50 from every generator state, the first 2^64 retry seeds are pairwise different and
    include every u64. *)
Lemma seeds_distinct : forall rng,
  (forall i j, Z.of_nat i < 2 ^ 64 -> Z.of_nat j < 2 ^ 64 -> seed_from rng i = seed_from rng j -> i = j) /\
  (forall s, is_u64 s -> exists i, Z.of_nat i < 2 ^ 64 /\ seed_from rng i = s).
Proof.
  intros rng. split.
  - intros i j. apply seed_from_inj.
  - intros s. apply seed_from_surj.
Qed.

(** @C50 *)
Example seeds_example :
  map retry_seed [0; 1; 2]%nat = [0x910a2dec89025cc1; 0xbeeb8da1658eec67; 0xf893a2eefb32555e].
Proof. vm_compute. reflexivity. Qed.

(** ** C44 *)

(** @C44 every key given to a successful construction is reported as contained, in both
    build profiles, for every fingerprint width, random fill and attempt limit. In release
    builds this needs that under none of the seeds that may be tried a slot is shared by
    more than 63 keys; in debug builds an overload panics instead. *)
Lemma bfuse_no_false_negatives : forall max_iter w dbg fe rnd keys g f,
  sane_estimates fe (length keys) -> geometry dbg fe (length keys) = Ok g ->
  (dbg = true \/ forall i slots, (i < max_iter)%nat -> bf_probes dbg g (retry_seed i) slots ->
                   forall j, (load slots keys j <= 63)%nat) ->
  bfuse_from_impl max_iter w dbg fe rnd keys = Ok f ->
  forall dbg' key, In key keys -> bfuse_contains w dbg' f key = Ok true.
Proof.
  intros mi w dbg fe rnd keys g f Hsane Eg Hload E dbg' key Hk.
  destruct (geometry_valid _ _ _ _ Hsane Eg) as [Hg _].
  assert (HD : dbg = true -> NoDup keys) by (intros ->; eapply bfuse_dbg_distinct; eauto).
  destruct (bfuse_construct mi w dbg fe rnd keys g Eg Hsane HD) as
    [(i & fps & Hi & L & P & S & _ & _ & EE)|[(EE & _)|(i & Hi & HH & _ & HP)]].
  - rewrite EE in E. injection E as <-. rewrite x3_contains by auto. f_equal. apply Z.eqb_eq. auto.
  - rewrite EE in E. discriminate E.
  - exfalso. destruct dbg.
    + rewrite (HP eq_refl) in E. discriminate E.
    + destruct Hload as [D|Hload]; [discriminate D|].
      set (slots := fun key => [sl1 g (mix key (retry_seed i)); sl2 g (mix key (retry_seed i)); sl3 g (mix key (retry_seed i))]).
      destruct (heavy_link g (retry_seed i) slots keys Hg (fun _ => eq_refl) HH) as [j Hj].
      assert (PR : bf_probes false g (retry_seed i) slots) by (apply sl_bf_probes; auto).
      specialize (Hload i slots Hi PR j). lia.
Qed.

(** @C44 with distinct u64 keys and no overloaded slot the outcome is fully determined:
    the filter uses the first seed of the sequence that makes the keys peelable, and the
    construction error is returned exactly when none of the allowed seeds does. *)
Lemma bfuse_construct_iff : forall max_iter w dbg fe rnd keys g probes,
  sane_estimates fe (length keys) -> geometry dbg fe (length keys) = Ok g ->
  (forall i, bf_probes dbg g (retry_seed i) (probes i)) ->
  Forall is_u64 keys -> NoDup keys ->
  (forall i j, (i < max_iter)%nat -> (load (probes i) keys j <= 63)%nat) ->
  (exists i f, (i < max_iter)%nat /\ bfuse_from_impl max_iter w dbg fe rnd keys = Ok f /\
     bf_seed f = retry_seed i /\ bfuse_len f = g_arrlen g /\ peelable (probes i) keys /\
     forall j, (j < i)%nat -> ~ peelable (probes j) keys) \/
  (bfuse_from_impl max_iter w dbg fe rnd keys = Err EFilterFail /\
     forall i, (i < max_iter)%nat -> ~ peelable (probes i) keys).
Proof.
  intros mi w dbg fe rnd keys g probes Hsane Eg Hpr Hu ND Hload.
  destruct (geometry_valid _ _ _ _ Hsane Eg) as [Hg _].
  assert (HN : forall i, NoDup (map (fun key => mix key (retry_seed i)) keys)) by (intros i; apply mix_nodup; auto).
  assert (LK : forall i, peelable (probes i) keys <-> peels (sl1 g) (sl2 g) (sl3 g) (map (fun key => mix key (retry_seed i)) keys)).
  { intros i. apply (link_peelable (sl1 g) (sl2 g) (sl3 g) Z (fun key => mix key (retry_seed i))).
    apply (bf_probes_slots dbg); auto. }
  destruct (bfuse_construct mi w dbg fe rnd keys g Eg Hsane (fun _ => ND)) as
    [(i & fps & Hi & L & P & S & NP & _ & EE)|[(EE & NP)|(i & Hi & HH & _ & HP)]].
  - left. rewrite nodup_fixed_point in P by apply HN.
    eexists i, _. split; [exact Hi|]. split; [exact EE|]. split; [reflexivity|]. split; [exact L|].
    split; [apply LK, P|]. intros j Hj. rewrite LK. apply NP; auto.
  - right. split; [exact EE|]. intros i Hi. rewrite LK. apply NP; auto.
  - exfalso. destruct (heavy_link g (retry_seed i) (probes i) keys Hg (bf_probes_slots dbg g _ _ Hg (Hpr i)) HH) as [j Hj].
    specialize (Hload i j Hi). lia.
Qed.

(** @C44 a debug build never loops for ever, and panics only when a key is repeated or a
    slot is shared by more than 63 keys under one of the allowed seeds. *)
Lemma bfuse_debug_outcome : forall max_iter w fe rnd keys g probes,
  sane_estimates fe (length keys) -> geometry true fe (length keys) = Ok g ->
  (forall i, bf_probes true g (retry_seed i) (probes i)) -> Forall is_u64 keys ->
  (~ NoDup keys /\ bfuse_from_impl max_iter w true fe rnd keys = Panic) \/
  (NoDup keys /\
   ((exists f, bfuse_from_impl max_iter w true fe rnd keys = Ok f) \/
    bfuse_from_impl max_iter w true fe rnd keys = Err EFilterFail \/
    (bfuse_from_impl max_iter w true fe rnd keys = Panic /\
     exists i j, (i < max_iter)%nat /\ (63 < load (probes i) keys j)%nat))).
Proof.
  intros mi w fe rnd keys g probes Hsane Eg Hpr Hu.
  destruct (geometry_valid _ _ _ _ Hsane Eg) as [Hg _].
  destruct (ListDec.NoDup_dec Z.eq_dec keys) as [ND|ND].
  - right. split; [exact ND|].
    destruct (bfuse_construct mi w true fe rnd keys g Eg Hsane (fun _ => ND)) as
      [(i & fps & Hi & L & P & S & NP & _ & EE)|[(EE & NP)|(i & Hi & HH & _ & HP)]].
    + left. eexists. exact EE.
    + right. left. exact EE.
    + right. right. split; [auto|].
      destruct (heavy_link g (retry_seed i) (probes i) keys Hg (bf_probes_slots true g _ _ Hg (Hpr i)) HH) as [j Hj].
      exists i, j. auto.
  - left. split; [exact ND|]. unfold bfuse_from_impl.
    destruct (all_distinct64 keys) eqn:E; [exfalso; now apply ND, all_distinct64_nodup|reflexivity].
Qed.

(** @C44 the probe functions of the two claims above always exist. *)
Lemma bfuse_probes_exist : forall dbg dbg' fe n g seed, sane_estimates fe n -> geometry dbg fe n = Ok g ->
  exists slots, bf_probes dbg' g seed slots /\
    forall key, exists a b c, slots key = [a; b; c] /\ (a < b < c)%nat /\ (c < g_arrlen g)%nat.
Proof.
  intros dbg dbg' fe n g seed Hsane Eg. destruct (geometry_valid _ _ _ _ Hsane Eg) as [Hg _].
  exists (fun key => [sl1 g (mix key seed); sl2 g (mix key seed); sl3 g (mix key seed)]). split; [apply sl_bf_probes; auto|].
  intros key. do 3 eexists. split; [reflexivity|]. apply sl_increasing; auto. apply mix_is_u64.
Qed.

(** @C44 *)
Example bfuse_example : exists f,
  bfuse_try_from 8 true (best 3 12) fill [1; 2; 3; 4; 5] = Ok f /\
  bfuse_try_from 8 false (best 3 12) fill [1; 2; 3; 4; 5] = Ok f /\
  sane_estimates (best 3 12) 5 /\ NoDup [1; 2; 3; 4; 5] /\ Forall is_u64 [1; 2; 3; 4; 5] /\
  bfuse_len f = 24%nat /\ bfuse_contains 8 true f 3 = Ok true /\ bfuse_contains 8 true f 6 = Ok false.
Proof.
  eexists. split; [vm_compute; reflexivity|]. split; [vm_compute; reflexivity|].
  split; [split; cbn; unfold two32; lia|].
  split; [apply all_distinct64_nodup; reflexivity|].
  split; [repeat constructor; unfold is_u64, two64; lia|].
  split; [reflexivity|]. split; vm_compute; reflexivity.
Qed.

(** 95 keys, 66 of which fall under the first seed into the same slot and whose 66 hashes
    XOR to zero. *)
Definition overload64 : list Z := [
   0x7325a44d2359e594; 0x92abe13393efdceb; 0xc5f3ba441ad3ee8e; 0x460e835ebf2c1b87;
   0x530218c249968a2; 0x8c8fdf0e935d7198; 0xde3e111da2a41e98; 0x2c15d2bf01547aae;
   0x7cf7be91300b6adf; 0x5e9615adfbf09632; 0x2c2b92eecfbf5a16; 0xa7af304da5d1151f;
   0xa70ab1a08432295b; 0x74f5ba669b5d998d; 0x26cd75d8df9f65fd; 0x41105fc71d5e0b08;
   0x6206ebda496b83e9; 0x1c34421812b4abca; 0xfccdfe41443653ff; 0x7210f26a87c6cd4c;
   0x1e2ef400b9bda3fc; 0x2d09ef7422076f11; 0x7b1b0adda1d4956b; 0xa16496597d17b486;
   0x43070ebda94b2395; 0xdbc1fb3762d5a417; 0xefba8806be7b7301; 0x6200c0d729b0aa5e;
   0xf69b49f667d7a35e; 0x9f0f4c9bbb8b9d29; 0xaa314ddc9420ede1; 0x8660249901fd890;
   0x5d025057c116607c; 0x6e29e1513273f1cd; 0xcd9e9ed42d6b755; 0x9f27bc9d8f4d3a51;
   0xf298a2c457463801; 0x6e5eae420b56927f; 0xa8fe94b4ad12abf3; 0x5194d3b0dc14667f;
   0x497bf3aaddc8e9e; 0x37d0256360d463cc; 0xf49bbfafd1fd8162; 0x81b649b189874e9d;
   0x2221b32724f2f9a0; 0x8e0dce56fb89fd74; 0x129c5fd5be66a430; 0xb4d78a96163b43b4;
   0x98538217f1cda8ae; 0x16a708da67870712; 0xd0b9d9db9299c973; 0x9b949a3a868df945;
   0x5b7b9796d9641ec1; 0x59069a77216350ba; 0x15caf42773456cf2; 0x18ec29991c76c7f;
   0x9e19a72425ec2aed; 0x9f7684a2b37aa6a0; 0xcc78865ebb5f21c6; 0x4746f76f0ed45700;
   0x1bcb859151153f78; 0x3493e3c75eb623ab; 0xfc6ca6f20229d464; 0x482d34d3e20162fb;
   0x5f4156e7bc97a60c; 0x479511e918fc64ad; 0x1681fbeb2276ae4f; 0xcdd88025050bf61f;
   0xa284e13aae0c693e; 0x46e2c0333ea727b0; 0x99b61e6d3d54a7fa; 0xe09b4cd18190b987;
   0x78c1167ef98a58c0; 0x8f95213c4a61d308; 0x6cbe8caea56c2c92; 0xba1539613e3c3236;
   0x41fe1307c2e8bbf0; 0xe006d71d89964411; 0x4b7ee2e203d093ed; 0xae2b03837c3c6c3a;
   0xe63da97b507020ab; 0x31d3865249936fb; 0x9a868f945fa11293; 0x54603874bf82649d;
   0xe3a8e378639b890a; 0x5495f7b08a72a31f; 0xa16c82cf4841616e; 0xd75445a735ea9d85;
   0xa8deaf893a4b1e8c; 0xe88716557b8b2661; 0x2ad290077e97dbca; 0x3966fc233b59ef99;
   0xeb69a6619d498faf; 0x74f66389d6c6a41; 0x518b63c3cec84510].

(** @C55 refuted for release builds: 95 different u64 keys are accepted by BinaryFuse8 (the
    estimates are the ones the code computes for 95 keys), construction reports success and
    the filter does not contain the 66th key; a debug build panics instead. *)
Lemma bfuse_release_overload_refuted : exists f,
  length overload64 = 95%nat /\ NoDup overload64 /\ Forall is_u64 overload64 /\
  bfuse_try_from 8 false (best 6 155) (fun _ => 0) overload64 = Ok f /\
  bfuse_contains 8 false f (nth 65 overload64 0) = Ok false /\
  bfuse_try_from 8 true (best 6 155) (fun _ => 0) overload64 = Panic.
Proof.
  eexists. split; [reflexivity|]. split; [apply all_distinct64_nodup; vm_compute; reflexivity|].
  split.
  { apply Forall_forall. intros x Hx.
    assert (A : forallb (fun x => (0 <=? x) && (x <? two64)) overload64 = true) by (vm_compute; reflexivity).
    rewrite forallb_forall in A. specialize (A x Hx). apply andb_true_iff in A. rewrite Z.leb_le, Z.ltb_lt in A. exact A. }
  split; [vm_compute; reflexivity|]. split; vm_compute; reflexivity.
Qed.

(** 64 u64 keys whose hashes under the first seed are 1, 2, ..., 64. *)
Definition crowded64 : list Z := [
   0xbfb4db79fa62112f; 0xff2144de15600f22; 0xc42b6817fcb6f3ba; 0x8f4cb7a933c27b05;
   0x2d0a006b0b7bc33b; 0x80e5e1a09c91430; 0x4498221a13ecd23d; 0xafa39d3ef08752cc;
   0x50f97ab7b20bdb38; 0xeb1e2ec31ff9e338; 0xe8c0f11f7ab61bf6; 0xb2798a23944d552b;
   0x6ca67a9a38566a1b; 0x1a3a722130dc013b; 0xe2acc2376e277503; 0xdefec86782b89259;
   0x7644861c8895f0d6; 0x21aa8359c4434334; 0x16e45957cb7a1c7; 0x67468b72c8f62332;
   0x3124481b74924b83; 0x73deb02e73cd24ae; 0x8ea2cf642d739944; 0xf5fd4233b19d0717;
   0xa58921d4d2eeabda; 0x7ba9c323705680f8; 0xda0f7caea3de944b; 0x3a0b538a8c5cdaa;
   0xbb6a2f0b8b2940f5; 0xa5d7f56752f92545; 0x8d2e2f877690e878; 0x8d2961c57c3952fb;
   0x2d5ef03c62584909; 0xcd077d31df295de3; 0xa165d44edbff9f48; 0x23d377ab8787bfbc;
   0x90af871643e85b32; 0xf4ad9c26f068cedd; 0x9307c09031e1e8e5; 0xaf0b87ddd54cff97;
   0xab4d68e6ff35acae; 0x3174612c3190c45e; 0x88e1fbc5f26f8d94; 0xc83bd15583bd86a7;
   0xcccd912b1f43e930; 0xfdc40fc14988f2c8; 0x6e3186789b59ddc1; 0xbb26555e29c4596f;
   0xbcc392275f6054e6; 0x2b90b4a2715992fb; 0xdf572f651b31b50b; 0xe924974214ae8b55;
   0xc261d2ac3c4e95ed; 0xa5f00a5844fe37e4; 0x6ad09550f3e5f27; 0x984b985e5a8df816;
   0x14d0c61cdfdf4e14; 0xf68bec011ee60ea1; 0x168254d8fc42e908; 0xdcba18bb2ef4a74c;
   0xe3b9aa93106adb59; 0x9a13ecf8eb8f7db1; 0x89865cb3477ed0df; 0xbcaf917a2995b2b8].

(** @C33 refuted for BinaryFuse8, 16 and 32 too: 64 different u64 keys for which
    construction never returns in a release build, whatever the fingerprint width and the
    random fill; a debug build panics. The estimates are the ones the code computes for 64
    keys. *)
Lemma bfuse_release_hang_refuted :
  length crowded64 = 64%nat /\ NoDup crowded64 /\ Forall is_u64 crowded64 /\
  (forall w rnd, bfuse_try_from w false (best 5 109) rnd crowded64 = Hang) /\
  (forall w rnd, bfuse_try_from w true (best 5 109) rnd crowded64 = Panic).
Proof.
  split; [reflexivity|]. split; [apply all_distinct64_nodup; vm_compute; reflexivity|].
  split.
  { apply Forall_forall. intros x Hx.
    assert (A : forallb (fun x => (0 <=? x) && (x <? two64)) crowded64 = true) by (vm_compute; reflexivity).
    rewrite forallb_forall in A. specialize (A x Hx). apply andb_true_iff in A. rewrite Z.leb_le, Z.ltb_lt in A. exact A. }
  split; intros w rnd; vm_compute; reflexivity.
Qed.
