(** Property theorems; each restates a lemma proved in Claims_xorf.v. *)
From Coq Require Import Permutation.
From Verif Require Import Base Hash Fuse3 Xorf Bfuse SpecFilter SpecXorf Claims_xorf.
Local Open Scope Z_scope.

(** C43: for every seed, different u64 keys have different hashes, and every u64 is the
    hash of some key. *)
Theorem C43_mix_bijective : forall seed,
  (forall a b, is_u64 a -> is_u64 b -> mix a seed = mix b seed -> a = b) /\
  (forall h, is_u64 h -> exists key, is_u64 key /\ mix key seed = h) /\
  (forall key, is_u64 (mix key seed)).
Proof. exact mix_bijective. Qed.
Print Assumptions C43_mix_bijective.

(** C43: *)
Example C43_mix_example : is_u64 1 /\ is_u64 2 /\ 
  mix 1 5 = 16768224888744592755 /\ mix 2 5 = 8360697188923789789.
Proof. exact mix_example. Qed.

(** C43: Keyword keys: the hash of each of the four words of a key depends on every byte of the
    32-byte seed: two seeds that differ, all the differences being in one of its four 8-byte
    words, hash every key word differently. *)
Theorem C43_seed_word_matters : forall s1 s2 i k,
  Forall is_u8 s1 -> Forall is_u8 s2 -> length s1 = 32%nat -> length s2 = 32%nat -> (i < 4)%nat ->
  s1 <> s2 -> firstn (8 * i) s1 = firstn (8 * i) s2 -> skipn (8 * i + 8) s1 = skipn (8 * i + 8) s2 ->
  mix_word (seed_words s1) k <> mix_word (seed_words s2) k.
Proof. exact seed_word_matters. Qed.
Print Assumptions C43_seed_word_matters.

(** C43: example: the hash of four words (value computed from the Rust text by hand, outside
    Coq), and how it changes with the last byte of the seed. *)
Example C43_mix256_example :
  let key := [1; 9223372036854775813; 3; 18446744073709551615] in
  let seed := map Z.of_nat (seq 100 32) in
  mix256 key seed = 3994415740737954810 /\
  mix256 key (firstn 31 seed ++ [99]) = 16104608520778773534 /\
  mix256 [1; 0; 0; 0] (repeat 0 32) = 6958928095123392589 /\
  Forall is_u8 seed /\ length seed = 32%nat /\ firstn (8 * 3) (firstn 31 seed ++ [99]) = firstn (8 * 3) seed.
Proof. exact mix256_example. Qed.

(** C50: from every generator state, the first 2^64 retry seeds are pairwise different and
    include every u64. *)
Theorem C50_seeds_distinct : forall rng,
  (forall i j, Z.of_nat i < 2 ^ 64 -> Z.of_nat j < 2 ^ 64 -> seed_from rng i = seed_from rng j -> i = j) /\
  (forall s, is_u64 s -> exists i, Z.of_nat i < 2 ^ 64 /\ seed_from rng i = s).
Proof. exact seeds_distinct. Qed.
Print Assumptions C50_seeds_distinct.

(** C50: *)
Example C50_seeds_example :
  map retry_seed [0; 1; 2]%nat = [0x910a2dec89025cc1; 0xbeeb8da1658eec67; 0xf893a2eefb32555e].
Proof. exact seeds_example. Qed.

(** C44: every key given to a successful construction is reported as contained, in both
    build profiles, for every fingerprint width, random fill and attempt limit. In release
    builds this needs that under none of the seeds that may be tried a slot is shared by
    more than 63 keys; in debug builds an overload panics instead. *)
Theorem C44_bfuse_no_false_negatives : forall max_iter w dbg fe rnd keys g f,
  sane_estimates fe (length keys) -> geometry dbg fe (length keys) = Ok g ->
  (dbg = true \/ forall i slots, (i < max_iter)%nat -> bf_probes dbg g (retry_seed i) slots ->
                   forall j, (load slots keys j <= 63)%nat) ->
  bfuse_from_impl max_iter w dbg fe rnd keys = Ok f ->
  forall dbg' key, In key keys -> bfuse_contains w dbg' f key = Ok true.
Proof. exact bfuse_no_false_negatives. Qed.
Print Assumptions C44_bfuse_no_false_negatives.

(** C44: with distinct u64 keys and no overloaded slot the outcome is fully determined:
    the filter uses the first seed of the sequence that makes the keys peelable, and the
    construction error is returned exactly when none of the allowed seeds does. *)
Theorem C44_bfuse_construct_iff : forall max_iter w dbg fe rnd keys g probes,
  sane_estimates fe (length keys) -> geometry dbg fe (length keys) = Ok g ->
  (forall i, bf_probes dbg g (retry_seed i) (probes i)) ->
  Forall is_u64 keys -> NoDup keys ->
  (forall i j, (i < max_iter)%nat -> (load (probes i) keys j <= 63)%nat) ->
  (exists i f, (i < max_iter)%nat /\ bfuse_from_impl max_iter w dbg fe rnd keys = Ok f /\
     bf_seed f = retry_seed i /\ bfuse_len f = g_arrlen g /\ peelable (probes i) keys /\
     forall j, (j < i)%nat -> ~ peelable (probes j) keys) \/
  (bfuse_from_impl max_iter w dbg fe rnd keys = Err EFilterFail /\
     forall i, (i < max_iter)%nat -> ~ peelable (probes i) keys).
Proof. exact bfuse_construct_iff. Qed.
Print Assumptions C44_bfuse_construct_iff.

(** C44: a debug build never loops for ever, and panics only when a key is repeated or a
    slot is shared by more than 63 keys under one of the allowed seeds. *)
Theorem C44_bfuse_debug_outcome : forall max_iter w fe rnd keys g probes,
  sane_estimates fe (length keys) -> geometry true fe (length keys) = Ok g ->
  (forall i, bf_probes true g (retry_seed i) (probes i)) -> Forall is_u64 keys ->
  (~ NoDup keys /\ bfuse_from_impl max_iter w true fe rnd keys = Panic) \/
  (NoDup keys /\
   ((exists f, bfuse_from_impl max_iter w true fe rnd keys = Ok f) \/
    bfuse_from_impl max_iter w true fe rnd keys = Err EFilterFail \/
    (bfuse_from_impl max_iter w true fe rnd keys = Panic /\
     exists i j, (i < max_iter)%nat /\ (63 < load (probes i) keys j)%nat))).
Proof. exact bfuse_debug_outcome. Qed.
Print Assumptions C44_bfuse_debug_outcome.

(** C44: the probe functions of the two claims above always exist. *)
Theorem C44_bfuse_probes_exist : forall dbg dbg' fe n g seed, sane_estimates fe n -> geometry dbg fe n = Ok g ->
  exists slots, bf_probes dbg' g seed slots /\
    forall key, exists a b c, slots key = [a; b; c] /\ (a < b < c)%nat /\ (c < g_arrlen g)%nat.
Proof. exact bfuse_probes_exist. Qed.
Print Assumptions C44_bfuse_probes_exist.

(** C44: *)
Example C44_bfuse_example : exists f,
  bfuse_try_from 8 true (best 3 12) fill [1; 2; 3; 4; 5] = Ok f /\
  bfuse_try_from 8 false (best 3 12) fill [1; 2; 3; 4; 5] = Ok f /\
  sane_estimates (best 3 12) 5 /\ NoDup [1; 2; 3; 4; 5] /\ Forall is_u64 [1; 2; 3; 4; 5] /\
  bfuse_len f = 24%nat /\ bfuse_contains 8 true f 3 = Ok true /\ bfuse_contains 8 true f 6 = Ok false.
Proof. exact bfuse_example. Qed.

(** C55: refuted for release builds: 95 different u64 keys are accepted by BinaryFuse8 (the
    estimates are the ones the code computes for 95 keys), construction reports success and
    the filter does not contain the 66th key; a debug build panics instead. *)
Theorem C55_bfuse_release_overload_refuted : exists f,
  length overload64 = 95%nat /\ NoDup overload64 /\ Forall is_u64 overload64 /\
  bfuse_try_from 8 false (best 6 155) (fun _ => 0) overload64 = Ok f /\
  bfuse_contains 8 false f (nth 65 overload64 0) = Ok false /\
  bfuse_try_from 8 true (best 6 155) (fun _ => 0) overload64 = Panic.
Proof. exact bfuse_release_overload_refuted. Qed.
Print Assumptions C55_bfuse_release_overload_refuted.

(** C33: refuted for BinaryFuse8, 16 and 32 too: 64 different u64 keys for which
    construction never returns in a release build, whatever the fingerprint width and the
    random fill; a debug build panics. The estimates are the ones the code computes for 64
    keys. *)
Theorem C33_bfuse_release_hang_refuted :
  length crowded64 = 64%nat /\ NoDup crowded64 /\ Forall is_u64 crowded64 /\
  (forall w rnd, bfuse_try_from w false (best 5 109) rnd crowded64 = Hang) /\
  (forall w rnd, bfuse_try_from w true (best 5 109) rnd crowded64 = Panic).
Proof. exact bfuse_release_hang_refuted. Qed.
Print Assumptions C33_bfuse_release_hang_refuted.
