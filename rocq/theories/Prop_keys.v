(** Property theorems; each restates a lemma proved in Claims_keys.v. *)
From Coq Require Import Permutation.
From Verif Require Import Base Spec Fmt Mat Lwe Db Api Claims_keys.
Local Open Scope Z_scope.

(** C57: a key string is hashed to the four little-endian 64-bit words of its digest: word
    w holds bytes 8w .. 8w+7, least significant first. *)
Theorem C57_key_words : forall sha256 input, length (sha256 input) = 32%nat -> Forall is_u8 (sha256 input) ->
  exists ws, sha256_into_u64_sized sha256 input = Ok ws /\ length ws = 4%nat /\ Forall is_u64 ws /\
    forall i, (i < 32)%nat ->
      nth i (sha256 input) 0 = nth (i / 8) ws 0 / 256 ^ Z.of_nat (i mod 8) mod 256.
Proof. exact key_words. Qed.
Print Assumptions C57_key_words.

(** C57: so two key strings get the same filter key only if their digests are equal. *)
Theorem C57_key_words_injective : forall sha256 a b ws,
  length (sha256 a) = 32%nat -> Forall is_u8 (sha256 a) ->
  length (sha256 b) = 32%nat -> Forall is_u8 (sha256 b) ->
  sha256_into_u64_sized sha256 a = Ok ws -> sha256_into_u64_sized sha256 b = Ok ws ->
  sha256 a = sha256 b.
Proof. exact key_words_injective. Qed.
Print Assumptions C57_key_words_injective.

(** C57: *)
Example C57_key_words_example : let sha := fun s => map Z.of_nat (seq (length s) 32) in
  length (sha []) = 32%nat /\
  sha256_into_u64_sized sha [] = Ok [506097522914230528; 1084818905618843912; 1663540288323457296; 2242261671028070680] /\
  sha256_into_u64_sized sha [7] <> sha256_into_u64_sized sha [].
Proof. exact key_words_example. Qed.

(** C58: the public matrix a client derives from the seed consists of m rows of dim words
    and uses the words of the seeded stream one after the other, each exactly once. *)
Theorem C58_public_matrix_stream : forall prg p,
  concat (index_common_params prg p) = map (prg (ip_public_seed p)) (seq 0 (ip_m p * ip_dim p)) /\
  shape (index_common_params prg p) (ip_m p) (ip_dim p).
Proof. exact public_matrix_stream. Qed.
Print Assumptions C58_public_matrix_stream.

(** C58: likewise for a keyword shard. *)
Theorem C58_kv_public_matrix_stream : forall prg p,
  concat (kv_common_params prg p) = map (prg (kp_public_seed p)) (seq 0 (kp_m p * kp_dim p)) /\
  shape (kv_common_params prg p) (kp_m p) (kp_dim p).
Proof. exact kv_public_matrix_stream. Qed.
Print Assumptions C58_kv_public_matrix_stream.

(** C58: *)
Example C58_public_matrix_stream_example :
  index_common_params (fun s i => hd 0 s + Z.of_nat i)
    {| ip_dim := 3; ip_m := 2; ip_rhs := []; ip_public_seed := [7]; ip_elem_size := 0; ip_plaintext_bits := 0 |}
  = [[7; 8; 9]; [10; 11; 12]].
Proof. exact public_matrix_stream_example. Qed.

(** C60: a client holding parameters whose plaintext_bits (as a u32) is 32 or more panics, in
    both build profiles, as soon as it generates a query or parses a response. *)
Theorem C60_plaintext_bits_too_large : forall dbg qp, 32 <= Z.of_nat (qp_plaintext_bits qp) mod two32 ->
  (forall resp, index_parse_resp_as_row dbg qp resp = Panic) /\
  (forall resp key, kv_parse_resp_as_row dbg qp resp key = Panic) /\
  (qp_used qp = false ->
   (forall i, snd (index_generate_query dbg qp i) = Panic) /\
   (forall key, snd (kv_generate_query dbg qp key) = Panic)).
Proof. exact plaintext_bits_too_large. Qed.
Print Assumptions C60_plaintext_bits_too_large.

(** C60: with fewer than 32 plaintext bits an index query for a row in range never panics. *)
Theorem C60_plaintext_bits_fine : forall dbg qp i, Z.of_nat (qp_plaintext_bits qp) mod two32 < 32 ->
  (i < length (qp_lhs qp))%nat -> snd (index_generate_query dbg qp i) <> Panic.
Proof. exact plaintext_bits_fine. Qed.
Print Assumptions C60_plaintext_bits_fine.

(** C60: the server does not reject such a value: a shard with 32-bit plaintexts is built and
    its parameters handed out, and every query then panics. *)
Theorem C60_plaintext_bits_32_accepted :
  exists prg sh qp rest,
    (forall dbg, shard_from_base64_strings prg dbg [1] [[65; 65; 69; 67; 65; 119; 61; 61]] 1 1 32 32 = Ok sh) /\
    generate_index_query_params (index_common_params prg (sh_params sh)) (sh_params sh) [0; 0; 0; 0] = Ok (qp, rest) /\
    qp_used qp = false /\
    forall dbg, snd (index_generate_query dbg qp 0) = Panic.
Proof. exact plaintext_bits_32_accepted. Qed.
Print Assumptions C60_plaintext_bits_32_accepted.
