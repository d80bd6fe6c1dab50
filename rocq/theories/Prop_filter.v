(** Property theorems; each restates a lemma proved in Claims_filter.v. *)
From Coq Require Import Permutation.
From Verif Require Import Base Spec Hash Fuse3 Bfusep SpecFilter Claims_filter.
Local Open Scope Z_scope.

(** C25: for every number of keys the size computation succeeds and gives a power-of-two
    segment length between 4 and 262144, the mask one below it, and a number of slots that
    is the count length plus two segments, at least the requested capacity and less than
    one segment (or the three-segment minimum) above it. *)
Theorem C25_geometry_shape : forall dbg fe n, sane_estimates fe n ->
  exists g e, geometry dbg fe n = Ok g /\
    2 <= e <= 18 /\ g_seglen g = 2 ^ e /\ g_mask g = g_seglen g - 1 /\
    (exists c, 1 <= c /\ g_scl g = c * g_seglen g) /\
    Z.of_nat (g_arrlen g) = g_scl g + 2 * g_seglen g /\
    Z.of_nat (g_arrlen g) < 2 ^ 32 /\
    let cap := (if (n <=? 1)%nat then 0 else fe_cap fe n) in
    cap <= Z.of_nat (g_arrlen g) <= Z.max (3 * g_seglen g) (cap + g_seglen g - 1).
Proof. exact geometry_shape. Qed.
Print Assumptions C25_geometry_shape.

(** C25: every filter that is built has exactly this geometry and that many fingerprints,
    and carries the seed and modulus it was given. *)
Theorem C25_filter_shape : forall max_iter dbg fe rnd seed keys data p label f,
  bfusep_from_impl max_iter dbg fe rnd seed keys data p label = Ok f ->
  exists g, geometry dbg fe (length keys) = Ok g /\
    bp_segment_length f = g_seglen g /\ bp_segment_length_mask f = g_mask g /\
    bp_segment_count_length f = g_scl g /\ length (bp_fingerprints f) = g_arrlen g /\
    bp_seed f = seed /\ bp_ptxt_mod f = p.
Proof. exact filter_shape. Qed.
Print Assumptions C25_filter_shape.

(** C25: the geometry is the same in debug and release builds. *)
Theorem C25_geometry_profile : forall fe n d1 d2, sane_estimates fe n ->
  geometry d1 fe n = geometry d2 fe n.
Proof. exact geometry_profile. Qed.
Print Assumptions C25_geometry_profile.

(** C25: *)
Example C25_geometry_example : sane_estimates (est 11 77753) (Z.to_nat 65536) /\
  geometry true (est 11 77753) (Z.to_nat 65536) =
  Ok {| g_seglen := 2048; g_mask := 2047; g_scl := 73728; g_segcount := 36; g_arrlen := Z.to_nat 77824 |}.
Proof. exact geometry_example. Qed.

(** C26: for every key and seed [hash_eval] on a constructor-made geometry returns three
    slots, in three consecutive segments (hence increasing and distinct), all inside the
    fingerprint array. *)
Theorem C26_three_slots : forall dbg dbg' fe n g key seed, sane_estimates fe n -> geometry dbg fe n = Ok g ->
  exists a b c, hash_eval dbg' key seed (g_seglen g) (g_mask g) (g_scl g) = Ok [a; b; c] /\
    (a < b < c)%nat /\ (c < g_arrlen g)%nat /\
    Z.of_nat b / g_seglen g = Z.of_nat a / g_seglen g + 1 /\
    Z.of_nat c / g_seglen g = Z.of_nat a / g_seglen g + 2.
Proof. exact three_slots. Qed.
Print Assumptions C26_three_slots.

(** C26: consequently a slot function in the sense of the other claims always exists. *)
Theorem C26_slots_exist : forall dbg dbg' fe n g seed, sane_estimates fe n -> geometry dbg fe n = Ok g ->
  exists slots, evaluates dbg' seed (g_seglen g) (g_mask g) (g_scl g) slots.
Proof. exact slots_exist. Qed.
Print Assumptions C26_slots_exist.

(** C26: *)
Example C26_three_slots_example :
  hash_eval true (key4 7) seed0 8 7 8 = Ok [6; 14; 22]%nat.
Proof. exact three_slots_example. Qed.

(** C27: whenever construction succeeds with modulus 2^k, every key that is the last one
    with its hash retrieves its own data modulo 2^k, in either build profile, whatever the
    random fill and however many attempts were allowed. In release builds this needs that
    no slot is shared by more than 63 keys; in debug builds an overload panics instead. *)
Theorem C27_retrieve_correct : forall max_iter dbg fe rnd seed keys data k label f,
  sane_estimates fe (length keys) -> (length keys <= length data)%nat -> 0 <= k <= 31 ->
  (dbg = true \/ exists slots,
     evaluates dbg seed (bp_segment_length f) (bp_segment_length_mask f) (bp_segment_count_length f) slots /\
     forall j, (load slots keys j <= 63)%nat) ->
  bfusep_from_impl max_iter dbg fe rnd seed keys data (2 ^ k) label = Ok f ->
  forall dbg' i key, last_with_hash seed keys i key ->
    retrieve dbg' f key label = Ok (nth i data 0 mod 2 ^ k).
Proof. exact retrieve_correct. Qed.
Print Assumptions C27_retrieve_correct.

(** C27: the same on what the PIR database exposes: the published fingerprints are reduced
    modulo 2^k, and the three at a key's [hash_eval] slots plus its fingerprint mask sum to
    the key's data modulo 2^k. *)
Theorem C27_fingerprint_sum : forall max_iter dbg fe rnd seed keys data k label f,
  sane_estimates fe (length keys) -> (length keys <= length data)%nat -> 0 <= k <= 31 ->
  (dbg = true \/ exists slots,
     evaluates dbg seed (bp_segment_length f) (bp_segment_length_mask f) (bp_segment_count_length f) slots /\
     forall j, (load slots keys j <= 63)%nat) ->
  bfusep_from_impl max_iter dbg fe rnd seed keys data (2 ^ k) label = Ok f ->
  exists F, get_fingerprints_mod f = Ok F /\ length F = length (bp_fingerprints f) /\
    Forall (fun x => 0 <= x < 2 ^ k) F /\
    forall dbg' i key a b c, last_with_hash seed keys i key ->
      hash_eval dbg' key seed (bp_segment_length f) (bp_segment_length_mask f) (bp_segment_count_length f) = Ok [a; b; c] ->
      (a < length F)%nat /\ (b < length F)%nat /\ (c < length F)%nat /\
      (nth a F 0 + nth b F 0 + nth c F 0 + get_key_fingerprint key seed label) mod 2 ^ k = nth i data 0 mod 2 ^ k.
Proof. exact fingerprint_sum. Qed.
Print Assumptions C27_fingerprint_sum.

(** C27: *)
Example C27_retrieve_example : exists f,
  from_slice true (est 3 12) rnd0 seed0 ex_keys ex_data 9 1024 = Ok f /\
  from_slice false (est 3 12) rnd0 seed0 ex_keys ex_data 9 1024 = Ok f /\
  sane_estimates (est 3 12) (length ex_keys) /\ length ex_data = length ex_keys /\
  last_with_hash seed0 ex_keys 1 (key4 2) /\
  retrieve true f (key4 2) 9 = Ok 5 /\ retrieve true f (key4 1) 9 = Ok 700 /\
  retrieve true f (key4 3) 9 = Ok 1023.
Proof. exact retrieve_example. Qed.

(** C55: refuted for release builds: 95 keys with 95 different hashes are accepted, the
    construction reports success, and retrieval of the 66th key returns 1008 instead of its
    value 66, although the modulus is a power of two: a u8 slot counter wrapped around and
    the key was taken for a duplicate. A debug build panics on the same input. *)
Theorem C55_release_overload_refuted : exists f,
  NoDup (map (fun key => mix256 key seed0) overload_keys) /\
  from_slice false (est 6 155) rnd0 seed0 overload_keys (map Z.of_nat (seq 1 95)) 9 1024 = Ok f /\
  retrieve false f (nth 65 overload_keys []) 9 = Ok 1008 /\
  from_slice true (est 6 155) rnd0 seed0 overload_keys (map Z.of_nat (seq 1 95)) 9 1024 = Panic.
Proof. exact release_overload_refuted. Qed.
Print Assumptions C55_release_overload_refuted.

(** C28: refuted: with modulus 1000 (accepted in both profiles) a one-key filter is built
    for data 0 and retrieval returns 296 = 2^32 mod 1000 in both profiles. *)
Theorem C28_any_modulus_refuted : exists f, forall dbg,
  from_slice dbg (est 2 0) (fun _ => 0) seed0 [key4 1] [0] 9 1000 = Ok f /\
  retrieve dbg f (key4 1) 9 = Ok 296.
Proof. exact any_modulus_refuted. Qed.
Print Assumptions C28_any_modulus_refuted.

(** C29: refuted, for every key and every seed: keys with the same words in another order
    have the same hash, so any filter, however built, returns the same value for both. *)
Theorem C29_permuted_keys_collide : forall key key', Permutation key key' -> forall seed,
  mix256 key seed = mix256 key' seed /\
  forall dbg f label, retrieve dbg f key label = retrieve dbg f key' label.
Proof. exact permuted_keys_collide. Qed.
Print Assumptions C29_permuted_keys_collide.

(** C29: refuted: two distinct keys with different data; construction succeeds silently and
    the first key returns the second key's data. *)
Theorem C29_silent_overwrite_refuted : exists f, forall dbg,
  [1; 2; 0; 0] <> [2; 1; 0; 0] /\
  from_slice dbg (est 2 12) rnd0 seed0 [[1; 2; 0; 0]; [2; 1; 0; 0]] [7; 8] 9 1024 = Ok f /\
  retrieve dbg f [1; 2; 0; 0] 9 = Ok 8 /\ retrieve dbg f [2; 1; 0; 0] 9 = Ok 8.
Proof. exact silent_overwrite_refuted. Qed.
Print Assumptions C29_silent_overwrite_refuted.

(** C30: with distinct key hashes and at most 63 keys per slot, construction returns a
    filter exactly when the keys are peelable, and the construction error otherwise: no
    panic, no endless loop, in both profiles, for every modulus the code can divide by. *)
Theorem C30_construct_iff_peelable : forall max_iter dbg fe rnd seed keys data p label g slots,
  geometry dbg fe (length keys) = Ok g -> sane_estimates fe (length keys) ->
  evaluates dbg seed (g_seglen g) (g_mask g) (g_scl g) slots ->
  (length keys <= length data)%nat -> 0 < p -> p mod 2 ^ 32 <> 0 -> (dbg = true -> 256 <= p) ->
  max_iter <> 0%nat ->
  NoDup (map (fun key => mix256 key seed) keys) -> (forall j, (load slots keys j <= 63)%nat) ->
  (peelable slots keys /\ exists f, bfusep_from_impl max_iter dbg fe rnd seed keys data p label = Ok f) \/
  (~ peelable slots keys /\ bfusep_from_impl max_iter dbg fe rnd seed keys data p label = Err EFilterFail).
Proof. exact construct_iff_peelable. Qed.
Print Assumptions C30_construct_iff_peelable.

(** C30: even with colliding hashes, success means that every subset of the keys with
    distinct hashes is peelable. *)
Theorem C30_construct_ok_peelable : forall max_iter dbg fe rnd seed keys data p label g slots f,
  geometry dbg fe (length keys) = Ok g -> sane_estimates fe (length keys) ->
  evaluates dbg seed (g_seglen g) (g_mask g) (g_scl g) slots ->
  (length keys <= length data)%nat -> 0 < p -> p mod 2 ^ 32 <> 0 ->
  (dbg = true \/ forall j, (load slots keys j <= 63)%nat) ->
  bfusep_from_impl max_iter dbg fe rnd seed keys data p label = Ok f ->
  forall keys', incl keys' keys -> NoDup (map (fun key => mix256 key seed) keys') -> peelable slots keys'.
Proof. exact construct_ok_peelable. Qed.
Print Assumptions C30_construct_ok_peelable.

(** C30: in a debug build, distinct hashes with more than 63 keys on a slot always panic. *)
Theorem C30_overload_panics : forall max_iter fe rnd seed keys data p label g slots j,
  geometry true fe (length keys) = Ok g -> sane_estimates fe (length keys) ->
  evaluates true seed (g_seglen g) (g_mask g) (g_scl g) slots ->
  (length keys <= length data)%nat -> 256 <= p -> p mod 2 ^ 32 <> 0 -> max_iter <> 0%nat ->
  NoDup (map (fun key => mix256 key seed) keys) -> (63 < load slots keys j)%nat ->
  bfusep_from_impl max_iter true fe rnd seed keys data p label = Panic.
Proof. exact overload_panics. Qed.
Print Assumptions C30_overload_panics.

(** C30: unequal numbers of keys and data: an error from [from_slice]; [from_vec] panics
    when data is missing (distinct keys, debug or release). *)
Theorem C30_from_slice_length : forall dbg fe rnd seed keys data label p,
  length data <> length keys -> from_slice dbg fe rnd seed keys data label p = Err EDataLen.
Proof. exact from_slice_length. Qed.
Print Assumptions C30_from_slice_length.

(** C30: [from_vec] has no such check: with fewer data than keys it panics. *)
Theorem C30_from_vec_short : forall dbg fe rnd seed keys data label p,
  sane_estimates fe (length keys) -> (length data < length keys)%nat ->
  from_vec dbg fe rnd seed keys data label p = Panic.
Proof. exact from_vec_short. Qed.
Print Assumptions C30_from_vec_short.

(** C30: *)
Example C30_construct_example : exists g slots,
  geometry true (est 3 12) (length ex_keys) = Ok g /\
  evaluates true seed0 (g_seglen g) (g_mask g) (g_scl g) slots /\
  NoDup (map (fun key => mix256 key seed0) ex_keys) /\
  peelable slots ex_keys /\ (forall j, (load slots ex_keys j <= 63)%nat).
Proof. exact construct_example. Qed.

(** C31: the bucketed insertion always ends, and leaves in the order array exactly the
    hashes it was given (with multiplicity, in some order), with the sentinel untouched,
    whatever the hashes: equal, zero, or all in one bucket. *)
Theorem C31_placement_permutes : forall bb hashes, (bb <= 64)%nat -> Forall is_u64 hashes ->
  let size := length hashes in
  exists order, place_all bb size hashes (repeat 0 size ++ [1]) = Ok order /\
    length order = S size /\ Permutation (firstn size order) hashes /\ nth_error order size = Some 1.
Proof. exact placement_permutes. Qed.
Print Assumptions C31_placement_permutes.

(** C31: *)
Example C31_placement_example :
  place_all 2 4 [0; 2 ^ 63; 0; 2 ^ 63] [0; 0; 0; 0; 1] = Ok [0; 0; 2 ^ 63; 2 ^ 63; 1].
Proof. exact placement_example. Qed.

(** C32: refuted: the outcome does not depend on the number of attempts allowed. *)
Theorem C32_retries_are_identical : forall m1 m2 dbg fe rnd seed keys data p label g slots,
  geometry dbg fe (length keys) = Ok g -> sane_estimates fe (length keys) ->
  evaluates dbg seed (g_seglen g) (g_mask g) (g_scl g) slots ->
  (length keys <= length data)%nat -> 0 < p -> p mod 2 ^ 32 <> 0 ->
  (dbg = true \/ forall j, (load slots keys j <= 63)%nat) ->
  m1 <> 0%nat -> m2 <> 0%nat ->
  bfusep_from_impl m1 dbg fe rnd seed keys data p label =
  bfusep_from_impl m2 dbg fe rnd seed keys data p label.
Proof. exact retries_are_identical. Qed.
Print Assumptions C32_retries_are_identical.

(** C32: refuted: two distinct keys that no number of attempts can ever put in a filter. *)
Theorem C32_hopeless_pair_refuted : forall max_iter rnd data p label dbg,
  length data = 2%nat -> 0 < p -> p mod 2 ^ 32 <> 0 -> (dbg = true -> 256 <= p) ->
  mix256 (key4 7) seed0 <> mix256 (key4 10) seed0 /\
  bfusep_from_impl max_iter dbg (est 2 12) rnd seed0 [key4 7; key4 10] data p label = Err EFilterFail.
Proof. exact hopeless_pair_refuted. Qed.
Print Assumptions C32_hopeless_pair_refuted.

(** C33: refuted: 64 distinct keys with distinct hashes for which construction never
    returns in a release build (and panics in a debug build). *)
Theorem C33_release_hang_refuted : length bad64 = 64%nat /\ NoDup bad64 /\
  NoDup (map (fun key => mix256 key seed0) bad64) /\
  from_slice false (est 5 109) rnd0 seed0 bad64 (map Z.of_nat (seq 0 64)) 9 1024 = Hang /\
  from_slice true (est 5 109) rnd0 seed0 bad64 (map Z.of_nat (seq 0 64)) 9 1024 = Panic.
Proof. exact release_hang_refuted. Qed.
Print Assumptions C33_release_hang_refuted.
