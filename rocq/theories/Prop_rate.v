(** Property theorems; each restates a lemma proved in Claims_rate.v. *)
From Coq Require Import Permutation.
From Verif Require Import Base Hash Fuse3 Xorf Bfuse Fuse Float64 Estimate SpecFilter SpecXorf SpecEst SpecRate Claims_filter Claims_xorf Claims_estimate Claims_rate.
Local Open Scope Z_scope.

(** C69: BinaryFuse filters of any fingerprint width up to 32 bits: of the 2^64 keys, the number
    that a built filter accepts differs from 2^64 / 2^width by at most
    (segment_count_length - 1) * 2^32, whatever the keys, the attempt that succeeded and the
    random fill (segments of at most 2^14 slots). *)
Theorem C69_bfuse_accepted_keys : forall max_iter w dbg fe rnd keys f dbg',
  sane_estimates fe (length keys) -> (w <= 32)%nat ->
  bfuse_from_impl max_iter w dbg fe rnd keys = Ok f -> bf_segment_length f <= 2 ^ 14 ->
  let accepted := how_many (fun key => says_yes (bfuse_contains w dbg' f key)) (2 ^ 64) in
  accepted <= 2 ^ (64 - Z.of_nat w) + (bf_segment_count_length f - 1) * 2 ^ 32 /\
  ((forall i, 0 <= rnd i < 2 ^ Z.of_nat w) ->
   2 ^ (64 - Z.of_nat w) - (bf_segment_count_length f - 1) * 2 ^ 32 <= accepted).
Proof. exact bfuse_accepted_keys. Qed.
Print Assumptions C69_bfuse_accepted_keys.

(** C69: BinaryFuse8, as documented: "a false positive rate of <0.4%". For up to 330000 keys, with
    the code's own size computation, fewer than 4 in 1000 of the keys outside the set are
    accepted, whatever the set and the random fill. (For large sets the claim is
    refuted: bfuse_documented_rate_refuted.) *)
Theorem C69_bfuse8_documented_rate_small : forall log max_iter dbg rnd keys f dbg',
  reasonable_log log -> Z.of_nat (length keys) <= 330000 ->
  bfuse_from_impl max_iter 8 dbg (f64_estimates log) rnd keys = Ok f ->
  1000 * false_positives (bfuse_contains 8 dbg' f) keys < 4 * (2 ^ 64 - Z.of_nat (length keys)).
Proof. exact bfuse8_documented_rate_small. Qed.
Print Assumptions C69_bfuse8_documented_rate_small.

(** C69: BinaryFuse16: "<0.002%", for up to 16000 keys. (Refuted for large
    sets: bfuse_documented_rate_refuted.) *)
Theorem C69_bfuse16_documented_rate_small : forall log max_iter dbg rnd keys f dbg',
  reasonable_log log -> Z.of_nat (length keys) <= 16000 ->
  bfuse_from_impl max_iter 16 dbg (f64_estimates log) rnd keys = Ok f ->
  100000 * false_positives (bfuse_contains 16 dbg' f) keys < 2 * (2 ^ 64 - Z.of_nat (length keys)).
Proof. exact bfuse16_documented_rate_small. Qed.
Print Assumptions C69_bfuse16_documented_rate_small.

(** C69: BinaryFuse filters, one key at a time: whether construction succeeds does not depend on
    the random fill, and for each key either the answer does not depend on it either, or there
    is a random word of which exactly one of the 2^width values makes the filter accept the
    key: a rate of exactly 2^-width over the fill. *)
Theorem C69_bfuse_random_fill : forall max_iter w dbg fe rnd0 keys f0 dbg' key,
  bfuse_from_impl max_iter w dbg fe rnd0 keys = Ok f0 ->
  exists fill, (forall rnd, bfuse_from_impl max_iter w dbg fe rnd keys = Ok (fill rnd)) /\
    ((forall rnd rnd', bfuse_contains w dbg' (fill rnd) key = bfuse_contains w dbg' (fill rnd') key) \/
     (exists i, forall rnd, (forall j, 0 <= rnd j < 2 ^ Z.of_nat w) ->
        exists v, 0 <= v < 2 ^ Z.of_nat w /\
          forall v', bfuse_contains w dbg' (fill (fun j => if Nat.eqb j i then v' else rnd j)) key = Ok true <-> v' = v)).
Proof. exact bfuse_random_fill. Qed.
Print Assumptions C69_bfuse_random_fill.

(** C69: The same for Fuse filters. *)
Theorem C69_fuse_random_fill : forall max_iter w dbg rnd0 keys f0 dbg' key,
  fuse_from_impl max_iter w dbg rnd0 keys = Ok f0 ->
  exists fill, (forall rnd, fuse_from_impl max_iter w dbg rnd keys = Ok (fill rnd)) /\
    ((forall rnd rnd', fuse_contains w dbg' (fill rnd) key = fuse_contains w dbg' (fill rnd') key) \/
     (exists i, forall rnd, (forall j, 0 <= rnd j < 2 ^ Z.of_nat w) ->
        exists v, 0 <= v < 2 ^ Z.of_nat w /\
          forall v', fuse_contains w dbg' (fill (fun j => if Nat.eqb j i then v' else rnd j)) key = Ok true <-> v' = v)).
Proof. exact fuse_random_fill. Qed.
Print Assumptions C69_fuse_random_fill.

(** C69: Refuted: "every key outside the set is accepted with probability below 0.4%". The filter of
    the single key 1 accepts 6986 (and with 16-bit fingerprints 1413564) whatever the random
    fill: same slots, same fingerprint. *)
Theorem C69_every_absent_key_refuted : forall dbg rnd,
  (exists f, bfuse_try_from 8 dbg (est 2 12) rnd [1] = Ok f /\ forall dbg', bfuse_contains 8 dbg' f 6986 = Ok true) /\
  (exists f, bfuse_try_from 16 dbg (est 2 12) rnd [1] = Ok f /\ forall dbg', bfuse_contains 16 dbg' f 1413564 = Ok true).
Proof. exact every_absent_key_refuted. Qed.
Print Assumptions C69_every_absent_key_refuted.

(** C69: example: the hypotheses are met by filters that are really built (8-bit fingerprints,
    three keys), and both cases of the dichotomy occur: with a fill of zeroes the absent key 7
    is rejected; with 141 as the second random word it is accepted. *)
Example C69_rate_example :
  let build v := bfuse_from_impl (Z.to_nat 1000) 8 true (est 3 12) (fun j => if Nat.eqb j 1 then v else 0) [5; 6; 9] in
  (exists f, build 0 = Ok f /\ bf_segment_length f <= 2 ^ 14 /\ bf_segment_count_length f = 8 /\
     bfuse_contains 8 true f 5 = Ok true /\ bfuse_contains 8 true f 7 = Ok false) /\
  (exists f, build 141 = Ok f /\ bfuse_contains 8 true f 5 = Ok true /\ bfuse_contains 8 true f 7 = Ok true) /\
  sane_estimates (est 3 12) 3.
Proof. exact rate_example. Qed.
