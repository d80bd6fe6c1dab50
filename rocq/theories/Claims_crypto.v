(** C84: the digest and the generator the program runs with. *)
From Coq Require Import String.
Import String.
From Verif Require Import Base Spec SpecFilter SpecFiles SpecJson SpecMsg Experiment Fmt Base64 Bincode Mat Lwe Hash Bfusep Db Api Json Files Refusal Lookup Msg Sha256 ChaCha Base_facts Fmt_facts Codec_facts Filter_facts Crypto_facts JsonSpec_facts Claims_filter Claims_keys Claims_kv Claims_refusal Claims_prob Claims_tests Claims_json Claims_lookup Claims_msg.
Local Open Scope Z_scope.
Local Open Scope list_scope.

(** The first primes, and the first bits of the fraction of a root. *)
Definition is_prime (p : nat) : bool := (2 <=? p)%nat && forallb (fun d => negb (p mod d =? 0)%nat) (seq 2 (p - 2)).
Definition first_primes (n bound : nat) : list Z := firstn n (map Z.of_nat (filter is_prime (seq 0 bound))).
(** [c] is the first 32 bits of the fraction of the [r]-th root of [p]. *)
Definition root_fraction (r p c : Z) : Prop :=
  exists whole, 0 <= c < 2 ^ 32 /\ (whole * 2 ^ 32 + c) ^ r <= p * 2 ^ (32 * r) < (whole * 2 ^ 32 + c + 1) ^ r.

Definition root_check (r p c : Z) : bool :=
  let whole := fold_left (fun a n => if Z.of_nat n ^ r <=? p then Z.of_nat n else a) (seq 0 20) 0 in
  ((0 <=? c) && (c <? 2 ^ 32) && ((whole * 2 ^ 32 + c) ^ r <=? p * 2 ^ (32 * r)) && (p * 2 ^ (32 * r) <? (whole * 2 ^ 32 + c + 1) ^ r))%bool.
Lemma root_check_sound r p c : root_check r p c = true -> root_fraction r p c.
Proof.
  unfold root_check. cbv zeta. rewrite !Bool.andb_true_iff, !Z.leb_le, !Z.ltb_lt. intros (((A & B) & C) & D).
  eexists. split; [split; [exact A|exact B]|]. split; [exact C|exact D].
Qed.
Lemma roots_sound r ps cs : length ps = length cs -> forallb (fun pc => root_check r (fst pc) (snd pc)) (combine ps cs) = true -> Forall2 (root_fraction r) ps cs.
Proof.
  revert cs. induction ps as [|p ps IH]; intros [|c cs] L H; try discriminate L; [constructor|].
  cbn [combine forallb fst snd] in H. apply Bool.andb_true_iff in H as [H1 H2]. constructor; [apply root_check_sound, H1|]. apply IH; [injection L as L; exact L|exact H2].
Qed.

(** @C84 The digest of any string of bytes is 32 bytes. *)
Lemma digest_is_32_bytes : forall m, length (sha256 m) = 32%nat /\ Forall is_u8 (sha256 m).
Proof. intros m. split; [apply digest_length|apply digest_u8]. Qed.

(** @C84 The constants of the digest are the ones the standard derives: the first 32 bits of the
    fractions of the cube roots of the first 64 primes and of the square roots of the first 8. *)
Lemma digest_constants :
  Forall2 (root_fraction 3) (first_primes 64 312) sha_k /\ Forall2 (root_fraction 2) (first_primes 8 312) sha_h0.
Proof. split; apply roots_sound; vm_compute; reflexivity. Qed.

(** @C84 The padded message is a whole number of 64-byte blocks, and (below 2^64 bits) two messages
    with the same padding are equal: nothing that is hashed is ambiguous before the compression. *)
Lemma digest_padding : forall m, (length (sha_pad m) mod 64 = 0)%nat /\
  forall m', 8 * Z.of_nat (length m) < 2 ^ 64 -> 8 * Z.of_nat (length m') < 2 ^ 64 -> sha_pad m = sha_pad m' -> m = m'.
Proof. intros m. split; [apply pad_length|]. intros m'. apply pad_inj. Qed.

Lemma key_exists k : exists ws, sha256_into_u64_sized sha256 k = Ok ws /\ length ws = 4%nat /\ Forall is_u64 ws /\
    forall i, (i < 32)%nat -> nth i (sha256 k) 0 = nth (i / 8) ws 0 / 256 ^ Z.of_nat (i mod 8) mod 256.
Proof. apply key_words; [apply digest_length|apply digest_u8]. Qed.

(** @C84 Every key string, whatever its length, has a filter key of four 64-bit words holding its
    SHA-256; two strings have the same filter key exactly if their SHA-256 are equal. *)
Lemma keys_are_digests : forall a b,
  (exists ws, sha256_into_u64_sized sha256 a = Ok ws /\ length ws = 4%nat /\ Forall is_u64 ws /\
    forall i, (i < 32)%nat -> nth i (sha256 a) 0 = nth (i / 8) ws 0 / 256 ^ Z.of_nat (i mod 8) mod 256) /\
  (sha256_into_u64_sized sha256 a = sha256_into_u64_sized sha256 b <-> sha256 a = sha256 b).
Proof.
  intros a b. split; [apply key_exists|]. split.
  - intros E. destruct (key_exists a) as (wa & Ea & _). apply (key_words_injective sha256 a b wa); try apply digest_length; try apply digest_u8; [exact Ea|congruence].
  - intros E. unfold sha256_into_u64_sized. rewrite E. reflexivity.
Qed.

(** @C84 Entry (row [i], column [j]) of the public matrix of any seed is a 32-bit word: word
    [(i * dim + j) mod 16] of block [(i * dim + j) / 16] of the ChaCha12 stream of the seed. *)
Lemma matrix_is_chacha12 : forall seed dim width i j, (i < width)%nat -> (j < dim)%nat ->
  let k := (i * dim + j)%nat in
  is_u32 (nth j (nth i (generate_lwe_matrix_from_seed std_rng seed dim width) []) 0) /\
  nth j (nth i (generate_lwe_matrix_from_seed std_rng seed dim width) []) 0 = nth (k mod 16) (chacha_block 6 seed (Z.of_nat (k / 16))) 0.
Proof.
  intros seed dim width i j Hi Hj k.
  assert (E : nth j (nth i (generate_lwe_matrix_from_seed std_rng seed dim width) []) 0 = std_rng seed k).
  { unfold generate_lwe_matrix_from_seed. rewrite nth_map_seq by exact Hi. rewrite nth_map_seq by exact Hj. reflexivity. }
  rewrite E. split; [apply std_rng_u32|reflexivity].
Qed.

Lemma keys_exist keys : exists hkeys, mapM (sha256_into_u64_sized sha256) keys = Ok hkeys.
Proof.
  induction keys as [|k keys [hkeys IH]]; [exists []; reflexivity|]. destruct (key_exists k) as (w & E & _).
  exists (w :: hkeys). cbn [mapM]. rewrite E. cbn [bind]. rewrite IH. reflexivity.
Qed.

(** @C84 With this digest and this generator, a keyword lookup from a file to the text (C79) needs no
    assumption about either: the keys always exist, and for the documented parameters a client
    gets a wrong text for at most one tape in [2 ^ bits]. *)
Lemma lookup_with_sha256_chacha12 : forall dbg fe rnd fseed pseed d path text keys blocks dim m es pb sh mz ez pz bits,
  In (mz, ez, pz, bits) kv_configs -> Z.of_nat (kp_m (ks_params sh)) <= mz -> Z.of_nat es = ez -> Z.of_nat pb = pz ->
  (es mod pb <> 0)%nat -> length keys = length blocks -> blocks_of es blocks ->
  d path = Some text -> kvs_file text (combine keys (map b64_encode blocks)) ->
  sane_estimates fe (length keys) ->
  kv_shard_from_json_file sha256 std_rng dbg fe rnd fseed pseed d path dim m es pb = Ok sh ->
  exists hkeys, mapM (sha256_into_u64_sized sha256) keys = Ok hkeys /\
    forall i key,
    (dbg = true \/ exists slots,
       (forall key, get_hash_evals dbg (kd_filter_params (ks_db sh)) key = Ok (slots key)) /\
       forall j, (load slots hkeys j <= 63)%nat) ->
    last_with_hash fseed hkeys i key ->
    count_tapes (fun tape => wrong_text (b64_encode (nth i blocks [])) (kv_lookup sha256 std_rng dbg sh (nth i keys []) tape))
        (dim + kp_m (ks_params sh)) * 2 ^ bits
    <= count_tapes (fun _ => true) (dim + kp_m (ks_params sh)).
Proof.
  intros dbg fe rnd fseed pseed d path text keys blocks dim m es pb sh mz ez pz bits H1 H2 H3 H4 H5 H6 H7 H8 H9 H10 H11.
  destruct (keys_exist keys) as [hkeys Hh]. exists hkeys. split; [exact Hh|]. intros i key Hl Hi.
  exact (kv_text_back sha256 std_rng dbg fe rnd fseed pseed d path text keys blocks hkeys dim m es pb sh i key mz ez pz bits
    H1 H2 H3 H4 H5 H6 H7 H8 H9 H10 H11 Hh Hl Hi).
Qed.

(** @C84 published vectors: SHA-256 of "abc", of the empty string, and of 56 letters (two blocks);
    the first words of ChaCha20 and ChaCha12 under the zero key. *)
Example vectors :
  sha256 (bytes_of "abc") =
    [186; 120; 22; 191; 143; 1; 207; 234; 65; 65; 64; 222; 93; 174; 34; 35; 176; 3; 97; 163; 150; 23; 122; 156;
     180; 16; 255; 97; 242; 0; 21; 173] /\
  sha256 [] =
    [227; 176; 196; 66; 152; 252; 28; 20; 154; 251; 244; 200; 153; 111; 185; 36; 39; 174; 65; 228; 100; 155; 147; 76;
     164; 149; 153; 27; 120; 82; 184; 85] /\
  sha256 (bytes_of "abcdbcdecdefdefgefghfghighijhijkijkljklmklmnlmnomnopnopq") =
    [36; 141; 106; 97; 210; 6; 56; 184; 229; 192; 38; 147; 12; 62; 96; 57; 163; 60; 228; 89; 100; 255; 33; 103;
     246; 236; 237; 212; 25; 219; 6; 193] /\
  firstn 4 (chacha_block 10 (repeat 0 32) 0) = [2917185654; 2419978656; 3848953152; 683509331] /\
  firstn 4 (map (std_rng (repeat 0 32)) (seq 0 16)) = [1788540059; 1408849159; 315498369; 3582142047] /\
  firstn 4 (chacha_start (repeat 0 32) 0) = map (fun i => of_le_bytes (firstn 4 (skipn (4 * i) (bytes_of "expand 32-byte k")))) (seq 0 4).
Proof. repeat (split; [vm_compute; reflexivity|]). vm_compute. reflexivity. Qed.

(** @C84 a shard built from a file of two key-value pairs with SHA-256 and ChaCha12, and looked up. *)
Example lookup_runs :
  let kfile := bytes_of "[{""key"":""a"",""value"":""AQI=""}, {""key"":""b"",""value"":""/wA=""}]" in
  let seed := map Z.of_nat (seq 1 32) in
  exists sh, kv_shard_from_json_file sha256 std_rng true (est 3 12) ex_rnd seed0 seed (fun _ => Some kfile) [] 2 2 16 10 = Ok sh /\
     kv_lookup sha256 std_rng true sh (bytes_of "a") ex_tape = Ok (bytes_of "AQI=") /\
     kv_lookup sha256 std_rng true sh (bytes_of "b") ex_tape = Ok (bytes_of "/wA=").
Proof. cbv zeta. eexists. split; [vm_compute; reflexivity|]. split; vm_compute; reflexivity. Qed.

(** @C84 RFC 8439, A.1 (keys that are not zero, blocks that are not the first), and the test that the
    crate rand 0.8 keeps for the stability of its [StdRng] ([test_stdrng_construction]: one 64-bit
    number of a generator, and one of the generator seeded with the next 32 bytes of the first). *)
Example more_vectors :
  let le x := [x mod 256; x / 256 mod 256; x / 65536 mod 256; x / 16777216] in
  let seed := [1; 0; 0; 0; 23; 0; 0; 0; 200; 1; 0; 0; 210; 30; 0; 0] ++ repeat 0 16 in
  flat_map le (firstn 4 (chacha_block 10 (repeat 0 32) 1)) =
    [159; 7; 231; 190; 85; 81; 56; 122; 152; 186; 151; 124; 115; 45; 8; 13] /\
  flat_map le (firstn 4 (chacha_block 10 (repeat 0 31 ++ [1]) 1)) =
    [58; 235; 82; 36; 236; 248; 73; 146; 155; 157; 130; 141; 177; 206; 212; 221] /\
  flat_map le (firstn 4 (chacha_block 10 ([0; 255] ++ repeat 0 30) 2)) =
    [114; 213; 77; 251; 241; 46; 196; 75; 54; 38; 146; 223; 148; 19; 127; 50] /\
  std_rng seed 0 + 2 ^ 32 * std_rng seed 1 = 10719222850664546238 /\
  (let next := flat_map le (map (std_rng seed) (seq 2 8)) in
   std_rng next 0 + 2 ^ 32 * std_rng next 1 = 14064965282130556830).
Proof. cbv zeta. repeat (split; [vm_compute; reflexivity|]). vm_compute. reflexivity. Qed.
