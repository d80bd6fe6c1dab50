(** Property theorems; each restates a lemma proved in Claims_fuse.v. *)
From Coq Require Import Permutation.
From Verif Require Import Base Hash Xorf Float64 Xor Fuse HashProxy SpecFilter SpecXorf SpecXor Claims_xor Claims_fuse.
Local Open Scope Z_scope.

(** C47: every key given to a successful construction is reported as contained, for every
    attempt limit, fingerprint width, random initial fill and build profile. *)
Theorem C47_fuse_no_false_negatives : forall max_iter w dbg rnd keys f, Z.of_nat (length keys) < 2 ^ 32 ->
  fuse_from_impl max_iter w dbg rnd keys = Ok f ->
  forall dbg' key, In key keys -> fuse_contains w dbg' f key = Ok true.
Proof. exact fuse_no_false_negatives. Qed.
Print Assumptions C47_fuse_no_false_negatives.

(** C47: with at least 90 distinct keys the outcome is determined: the filter uses the
    first seed of the sequence that makes the keys peelable, and the construction error is
    returned exactly when none of the allowed seeds does. It never panics. *)
Theorem C47_fuse_construct_iff : forall max_iter w dbg rnd keys probes, Z.of_nat (length keys) < 2 ^ 32 ->
  (90 <= length keys)%nat -> NoDup keys ->
  (forall i, fuse_probes dbg (fuse_segment_length (length keys)) (retry_seed i) (probes i)) ->
  (exists i f, (i < max_iter)%nat /\ fuse_from_impl max_iter w dbg rnd keys = Ok f /\ ff_seed f = retry_seed i /\
     peelable (probes i) keys /\ forall j, (j < i)%nat -> ~ peelable (probes j) keys) \/
  (fuse_from_impl max_iter w dbg rnd keys = Err EFuseFail /\
     forall i, (i < max_iter)%nat -> ~ peelable (probes i) keys).
Proof. exact fuse_construct_iff. Qed.
Print Assumptions C47_fuse_construct_iff.

(** C47: the probes of the claim above exist and are three increasing positions in three
    consecutive segments, inside the filter. *)
Theorem C47_fuse_probes_exist : forall dbg n seed, Z.of_nat n < 2 ^ 32 -> (90 <= n)%nat ->
  exists slots, fuse_probes dbg (fuse_segment_length n) seed slots /\
    forall key, exists a b c, slots key = [a; b; c] /\
      (b / fuse_segment_length n = a / fuse_segment_length n + 1 /\
       c / fuse_segment_length n = a / fuse_segment_length n + 2 /\
       c < 102 * fuse_segment_length n)%nat.
Proof. exact fuse_probes_exist. Qed.
Print Assumptions C47_fuse_probes_exist.

(** C47: *)
Example C47_fuse_example : exists f,
  fuse_try_from 8 true fuse_fill (spread_keys 90) = Ok f /\ length (spread_keys 90) = 90%nat /\
  NoDup (spread_keys 90) /\ length (ff_fingerprints f) = 102%nat /\
  fuse_contains 8 false f (nth 89 (spread_keys 90) 0) = Ok true /\ fuse_contains 8 false f 6 = Ok false.
Proof. exact fuse_example. Qed.

(** C48: with 1 to 89 keys the construction panics (capacity 0), in both profiles and for
    every key list: neither a filter nor the documented error is returned. *)
Theorem C48_fuse_small_sets_refuted : forall w dbg rnd keys, (1 <= length keys <= 89)%nat ->
  fuse_try_from w dbg rnd keys = Panic.
Proof. exact fuse_small_sets_refuted. Qed.
Print Assumptions C48_fuse_small_sets_refuted.

(** C48: conversely with 90 keys or more the construction panics only on repeated keys in
    debug builds. *)
Theorem C48_fuse_panics_iff : forall w dbg rnd keys, Z.of_nat (length keys) < 2 ^ 32 -> (90 <= length keys)%nat ->
  (fuse_try_from w dbg rnd keys = Panic <-> dbg = true /\ ~ NoDup keys).
Proof. exact fuse_panics_iff. Qed.
Print Assumptions C48_fuse_panics_iff.

(** C48: with 101 to 179 keys the construction fails for every attempt limit, whatever the
    keys are: segments have length 1, so two keys always share all three positions. *)
Theorem C48_fuse_always_fails : forall max_iter w dbg rnd keys, (101 <= length keys <= 179)%nat ->
  (dbg = true -> NoDup keys) ->
  fuse_from_impl max_iter w dbg rnd keys = Err EFuseFail.
Proof. exact fuse_always_fails. Qed.
Print Assumptions C48_fuse_always_fails.

(** C48: the filter of the empty set is returned, but every lookup in it panics. *)
Theorem C48_fuse_empty : forall w dbg rnd, exists f, fuse_try_from w dbg rnd [] = Ok f /\
  forall dbg' key, fuse_contains w dbg' f key = Panic.
Proof. exact fuse_empty. Qed.
Print Assumptions C48_fuse_empty.

(** C48: *)
Example C48_fuse_small_example : (1 <= length [1; 2; 3] <= 89)%nat /\ fuse_try_from 8 true fuse_fill [1; 2; 3] = Panic /\
  (101 <= length (spread_keys 120) <= 179)%nat /\ NoDup (spread_keys 120).
Proof. exact fuse_small_example. Qed.

(** C56: the number of fingerprints of a Fuse filter is a multiple of 102, at most
    n / 0.879 and more than n / 0.879 - 103. *)
Theorem C56_fuse_size : forall max_iter w dbg rnd keys f, Z.of_nat (length keys) < 2 ^ 32 -> (90 <= length keys)%nat ->
  fuse_from_impl max_iter w dbg rnd keys = Ok f ->
  let n := Z.of_nat (length keys) in let len := Z.of_nat (length (ff_fingerprints f)) in
  879 * len <= 1000 * n <= 879 * (len + 102) /\ len = 102 * Z.of_nat (ff_segment_length f).
Proof. exact fuse_size. Qed.
Print Assumptions C56_fuse_size.

(** C56: the documented bounds (9.101, 18.202 and 36.404 bits per entry) are not met: every
    Fuse8 filter of 3676 keys takes more than 9.101 bits per key, and likewise Fuse16 and
    Fuse32. *)
Theorem C56_fuse_bits_per_entry_refuted : forall max_iter w dbg rnd keys f, length keys = Z.to_nat 3676 ->
  fuse_from_impl max_iter w dbg rnd keys = Ok f ->
  let len := Z.of_nat (length (ff_fingerprints f)) in
  9101 * 3676 < 1000 * (8 * len) /\ 18202 * 3676 < 1000 * (16 * len) /\ 36404 * 3676 < 1000 * (32 * len).
Proof. exact fuse_bits_per_entry_refuted. Qed.
Print Assumptions C56_fuse_bits_per_entry_refuted.

(** C49: whatever the item type and hasher, an item given to a proxy that was built is
    reported as contained, provided the wrapped filter has no false negatives. *)
Theorem C49_proxy_no_false_negatives : forall T F (hash : T -> Z) (from : list Z -> res F) (contains : F -> Z -> res bool),
  (forall keys f key, from keys = Ok f -> In key keys -> contains f key = Ok true) ->
  forall items f item, proxy_from hash from items = Ok f -> In item items ->
    proxy_contains hash contains f item = Ok true.
Proof. exact proxy_no_false_negatives. Qed.
Print Assumptions C49_proxy_no_false_negatives.

(** C49: in particular for the Xor filters, unconditionally. *)
Theorem C49_xor_proxy_no_false_negatives : forall T (hash : T -> Z) tries w dbg items f, Z.of_nat (length items) < 2 ^ 32 ->
  xor_proxy_from hash tries w dbg items = Ok f ->
  forall dbg' item, In item items -> xor_proxy_contains hash w dbg' f item = Ok true.
Proof. exact xor_proxy_no_false_negatives. Qed.
Print Assumptions C49_xor_proxy_no_false_negatives.

(** C49: two items with the same hash (equal or not) make a release build never return and
    a debug build panic. *)
Theorem C49_xor_proxy_collision : forall T (hash : T -> Z) w items1 a items2 b items3,
  let items := items1 ++ a :: items2 ++ b :: items3 in
  Z.of_nat (length items) < 2 ^ 32 -> hash a = hash b ->
  forall tries, xor_proxy_from hash tries w false items = Hang /\ xor_proxy_from hash tries w true items = Panic.
Proof. exact xor_proxy_collision. Qed.
Print Assumptions C49_xor_proxy_collision.

(** C49: what is not an item is still reported as contained when it collides with one. *)
Theorem C49_xor_proxy_hash_only : forall T (hash : T -> Z) w dbg f a b, hash a = hash b ->
  xor_proxy_contains hash w dbg f a = xor_proxy_contains hash w dbg f b.
Proof. exact xor_proxy_hash_only. Qed.
Print Assumptions C49_xor_proxy_hash_only.

(** C49: *)
Example C49_proxy_example : exists f,
  xor_proxy_from (fun l => Z.of_nat (length l)) 3 8 true [[1]; [1; 2]; [1; 2; 3]] = Ok f /\
  xor_proxy_contains (fun l => Z.of_nat (length l)) 8 false f [1; 2] = Ok true /\
  xor_proxy_contains (fun l => Z.of_nat (length l)) 8 false f [1; 2; 3; 4] = Ok false.
Proof. exact proxy_example. Qed.
