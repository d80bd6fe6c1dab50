(** * XorfTests: the filter crate's own test functions, as programs: a failed assertion or
    [unwrap] is a panic. What the tests draw (keys, seeds, random fingerprints) are arguments;
    the sample size is the length of the key list. The documentation examples of the filters
    (e.g. bff-modp/src/xor8.rs:19-46) make the same three checks. *)
From Coq Require Import ZArith Floats.SpecFloat.
From Verif Require Export Base Float64 Estimate Bfusep Bfuse Xor Fuse HashProxy Tests.
Local Open Scope Z_scope.

Definition SAMPLE_SIZE : nat := Z.to_nat 1000000.

(** The literals of the tests (nearest binary64 values). *)
Definition f_2_0 : f64 := S754_finite false 4503599627370496 (-51).
Definition f_10 : f64 := S754_finite false 5629499534213120 (-49).
Definition f_20 : f64 := S754_finite false 5629499534213120 (-48).
Definition f_40 : f64 := S754_finite false 5629499534213120 (-47).
Definition f_9_101 : f64 := S754_finite false 5123407526087361 (-49).
Definition f_18_202 : f64 := S754_finite false 5123407526087361 (-48).
Definition f_36_404 : f64 := S754_finite false 5123407526087361 (-47).
Definition f_9_1 : f64 := S754_finite false 5122844576133939 (-49).
Definition f_18_1 : f64 := S754_finite false 5094697078462874 (-48).
Definition f_36_2 : f64 := S754_finite false 5094697078462874 (-47).
Definition f_0_406 : f64 := S754_finite false 7313845794849686 (-54).
Definition f_0_0025 : f64 := S754_finite false 5764607523034235 (-61).
Definition f_1em16 : f64 := S754_finite false 8112963841460668 (-106).

(** [test_initialization]: xor8.rs:98-107, xor16.rs:98-107, xor32.rs:98-107, fuse8.rs:116-125,
    fuse16.rs:116-125, fuse32.rs:116-125, bfuse8.rs:113-122, bfuse16.rs:113-122,
    bfuse32.rs:114-123. [Xor8::from] cannot fail, so there is nothing to unwrap there; [unwrap]
    of a result that is never [Err] is the same. *)
Definition init_test {F} (build : list Z -> res F) (contains : F -> Z -> res bool) (keys : list Z) : res unit :=
  let* f := unwrap (build keys) in
  for_each keys (fun key => let* b := contains f key in assert_ b).

(** [test_bits_per_entry]: [(filter.len() as f64) * width / (SAMPLE_SIZE as f64) < bound]
    (xor8.rs:111-119, fuse8.rs:129-137, bfuse8.rs:126-134 and the 16 and 32-bit variants). *)
Definition bits_per_entry (len width n : nat) : f64 :=
  f64_div (f64_mul (f64_of_usize len) (f64_of_usize width)) (f64_of_usize n).
Definition bpe_test {F} (build : list Z -> res F) (len : F -> nat) (width : nat) (bound : f64) (keys : list Z) : res unit :=
  let* f := unwrap (build keys) in
  assert_ (SFltb (bits_per_entry (len f) width (length keys)) bound).

(** [test_false_positives]: [(false_positives * 100) as f64 / SAMPLE_SIZE as f64 < bound], where
    [draws] are the SAMPLE_SIZE random numbers that are looked up (xor8.rs:123-135,
    fuse8.rs:141-153, bfuse8.rs:138-150 and the 16 and 32-bit variants). *)
Definition fp_rate (hits n : nat) : f64 := f64_div (f64_of_usize (hits * 100)) (f64_of_usize n).
Definition fp_test {F} (build : list Z -> res F) (contains : F -> Z -> res bool) (bound : f64)
    (keys draws : list Z) : res unit :=
  let* f := unwrap (build keys) in
  let* found := mapM (contains f) draws in
  assert_ (SFltb (fp_rate (length (filter (fun b => b) found)) (length keys)) bound).

(** [test_fail_construction]: fuse8.rs:157-164, fuse16.rs:157-164, fuse32.rs:169-176. *)
Definition fail_test (build : list Z -> res fusef) (keys : list Z) : res unit :=
  match build keys with
  | Err EFuseFail => Ok tt
  | Err _ | Ok _ | Panic => Panic
  | Hang => Hang
  end.

(** [#[should_panic]]: bfuse8.rs:153-160, fuse8.rs:166-173, xor8.rs:138-145, bfusep32.rs:175-191. The
    panic message is not modelled. *)
Definition panic_test {A} (r : res A) : res unit :=
  match r with Panic => Ok tt | Ok _ | Err _ => Panic | Hang => Hang end.

(** bfuse8.rs:163-167 [test_build_failure_with_subtraction_overflow]. *)
Definition single_key_test (dbg : bool) (fe : fest) (rnd : nat -> Z) (key : Z) : res unit :=
  let* f := unwrap (bfuse_try_from 8 dbg fe rnd [key]) in
  let* b := bfuse_contains 8 dbg f key in
  assert_ b.

(** bfusep32.rs:124, 126: the keys [[rng.gen(); 4]] made of the random words [xs], and the data. *)
Definition p32_keys (xs : list Z) : list (list Z) := map (fun x => [x; x; x; x]) xs.
Definition p32_data (n : nat) : list Z := map (fun i => Z.of_nat i mod two32 mod 1024) (seq 0 n).
(** bfusep32.rs:120-135 [test_initialization]. *)
Definition p32_init_test (dbg : bool) (fe : fest) (rnd : nat -> Z) (seed xs : list Z) : res unit :=
  let keys := p32_keys xs in
  let data := p32_data (length xs) in
  let* f := unwrap (from_slice dbg fe rnd seed keys data 1 1024) in
  for_each (seq 0 (length keys)) (fun i =>
    let* d := idx data i in
    let* key := idx keys i in
    let* v := retrieve dbg f key 1 in
    assert_ (d =? v)).
(** bfusep32.rs:138-156 [test_hashes]. *)
Definition p32_hashes_test (dbg : bool) (fe : fest) (rnd : nat -> Z) (seed xs : list Z) : res unit :=
  let keys := p32_keys xs in
  let data := p32_data (length xs) in
  let* f := unwrap (from_slice dbg fe rnd seed keys data 1 1024) in
  for_each (seq 0 (length keys)) (fun i =>
    let* key := idx keys i in
    let* h := hash_eval dbg key seed (bp_segment_length f) (bp_segment_length_mask f) (bp_segment_count_length f) in
    let* entry := foldM (fun acc r => let* x := idx (bp_fingerprints f) r in Ok (wadd32 acc x)) h 0 in
    let mask := get_key_fingerprint key seed 1 in
    let* d := idx data i in
    let* v := remz (wadd32 entry (mask mod two32)) (bp_ptxt_mod f mod two32) in
    assert_ (d =? v)).
(** bfusep32.rs:159-173 [test_bits_per_entry]; [x.log(2.0)] is [x.ln() / 2.0.ln()], with [ln] the
    standard library's logarithm. *)
Definition f64_log2 (ln : f64 -> f64) (x : f64) : f64 := f64_div (ln x) (ln f_2_0).
Definition p32_bpe_test (ln : f64 -> f64) (dbg : bool) (fe : fest) (rnd : nat -> Z) (seed xs : list Z) : res unit :=
  let* f := unwrap (from_slice dbg fe rnd seed (p32_keys xs) (p32_data (length xs)) 1 1024) in
  let log_p := f64_log2 ln (f64_of_usize 1024) in
  let bpe := f64_div (f64_mul (f64_of_usize (length (bp_fingerprints f))) log_p) (f64_of_usize (length xs)) in
  assert_ (SFltb bpe (f64_add log_p f_2_0)).
(** bfusep32.rs:181-182, 190-191: the two [should_panic] tests. *)
Definition p32_duplicates_test (fe : fest) (rnd : nat -> Z) : res unit :=
  panic_test (from_vec true fe rnd (repeat 1 32) [[1; 1; 1; 1]; [2; 2; 2; 2]; [1; 1; 1; 1]] [0; 0; 0] 0 1024).
Definition p32_modulus_test (fe : fest) (rnd : nat -> Z) : res unit :=
  panic_test (from_vec true fe rnd (repeat 1 32) [[1; 1; 1; 1]; [2; 2; 2; 2]] [0; 0] 0 128).

(** hash_proxy.rs:167-192 [test_initialization_from], for one of the three filters: [hash] is
    [DefaultHasher] on strings. *)
Definition proxy_test {T} (hash : T -> Z) (tries w : nat) (dbg : bool) (keys : list T) : res unit :=
  let* f := unwrap (xor_proxy_from hash tries w dbg keys) in
  for_each keys (fun key => let* b := xor_proxy_contains hash w dbg f key in assert_ b).
