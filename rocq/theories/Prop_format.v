(** Property theorems; each restates a lemma proved in Claims_format.v. *)
From Coq Require Import Permutation.
From Verif Require Import Base Fmt Base64 Bincode Db Api Spec Claims_format.
Local Open Scope Z_scope.

(** C01: [bytes_to_bits_le] lists the bits of the byte string in order: bit i of the result
    is bit (i mod 8) of byte (i / 8). *)
Theorem C01_bytes_to_bits_positions :
  forall bytes : list Z,
    length (bytes_to_bits_le bytes) = (8 * length bytes)%nat /\
    forall i, (i < 8 * length bytes)%nat ->
      nth_error (bytes_to_bits_le bytes) i
      = Some (Z.testbit (nth (i / 8) bytes 0) (Z.of_nat (i mod 8))).
Proof. exact bytes_to_bits_positions. Qed.
Print Assumptions C01_bytes_to_bits_positions.

(** C01: bytes -> bits -> bytes is the identity, in both build profiles. *)
Theorem C01_bytes_bits_bytes :
  forall (dbg : bool) (bytes : list Z),
    Forall is_u8 bytes -> bits_to_bytes_le dbg (bytes_to_bits_le bytes) = Ok bytes.
Proof. exact bytes_bits_bytes. Qed.
Print Assumptions C01_bytes_bits_bytes.

(** C01: bits -> bytes -> bits restores the bits, padded with [false] to whole bytes. *)
Theorem C01_bits_bytes_bits :
  forall (dbg : bool) (bits : list bool),
    exists bytes, bits_to_bytes_le dbg bits = Ok bytes /\ Forall is_u8 bytes /\
      length bytes = ((length bits + 7) / 8)%nat /\
      bytes_to_bits_le bytes = bits ++ repeat false (8 * length bytes - length bits).
Proof. exact bits_bytes_bits. Qed.
Print Assumptions C01_bits_bytes_bits.

(** C01: example: the byte hypothesis is met and the functions compute. *)
Example C01_bytes_bits_example :
  Forall is_u8 [5; 255] /\
  bytes_to_bits_le [5; 255] = [true; false; true; false; false; false; false; false;
                               true; true; true; true; true; true; true; true] /\
  bits_to_bytes_le true [true; false; true] = Ok [5].
Proof. exact bytes_bits_example. Qed.

(** C02: [bits_to_u32_le] accepts exactly the bit strings of at most 32 bits and returns the
    sum of 2^i over the set bits; longer ones are the size error, never a panic. *)
Theorem C02_bits_to_u32_exact :
  forall (dbg : bool) (bits : list bool),
    ((length bits <= 32)%nat -> bits_to_u32_le dbg bits = Ok (bits_value bits)) /\
    ((32 < length bits)%nat -> bits_to_u32_le dbg bits = Err EInputSize).
Proof. exact bits_to_u32_exact. Qed.
Print Assumptions C02_bits_to_u32_exact.

(** C02: [u32_to_bits_le x n] is the list of the n low bits for n <= 32, a panic otherwise. *)
Theorem C02_u32_to_bits_exact :
  forall (x : Z) (n : nat),
    ((n <= 32)%nat -> u32_to_bits_le x n = Ok (low_bits x n)) /\
    ((32 < n)%nat -> u32_to_bits_le x n = Panic).
Proof. exact u32_to_bits_exact. Qed.
Print Assumptions C02_u32_to_bits_exact.

(** C02: The two conversions are mutually inverse. *)
Theorem C02_u32_bits_inverse :
  forall (dbg : bool),
    (forall (x : Z) (n : nat), (n <= 32)%nat -> 0 <= x < 2 ^ Z.of_nat n ->
       (let* bits := u32_to_bits_le x n in bits_to_u32_le dbg bits) = Ok x) /\
    (forall bits : list bool, (length bits <= 32)%nat ->
       (let* x := bits_to_u32_le dbg bits in u32_to_bits_le x (length bits)) = Ok bits).
Proof. exact u32_bits_inverse. Qed.
Print Assumptions C02_u32_bits_inverse.

(** C02: example. *)
Example C02_u32_bits_example :
  bits_to_u32_le true [true; false; true; true] = Ok 13 /\
  u32_to_bits_le 13 5 = Ok [true; false; true; true; false] /\
  bits_to_u32_le false (repeat true 33) = Err EInputSize.
Proof. exact u32_bits_example. Qed.

(** C03: Row width is the least w with w * plaintext_bits >= elem_size; zero plaintext bits
    panic. *)
Theorem C03_row_width_is_ceiling :
  forall es pb : nat,
    (pb <> 0%nat -> exists w, get_row_width es pb = Ok w /\ is_ceil_div es pb w) /\
    (pb = 0%nat -> get_row_width es pb = Panic).
Proof. exact row_width_is_ceiling. Qed.
Print Assumptions C03_row_width_is_ceiling.

(** C03: Index and key-value databases with the same parameters report the same width. *)
Theorem C03_row_width_agrees :
  forall (d : index_db) (k : kv_db),
    id_elem_size d = kd_elem_size k -> id_plaintext_bits d = kd_plaintext_bits k ->
    index_row_width_self d = kv_row_width_self k.
Proof. exact row_width_agrees. Qed.
Print Assumptions C03_row_width_agrees.

(** C03: example: 256 bits in 11-bit chunks take 24 chunks. *)
Example C03_row_width_example : get_row_width 256 11 = Ok 24%nat /\ is_ceil_div 256 11 24.
Proof. exact row_width_example. Qed.

(** C04: Index databases: when plaintext_bits does not divide elem_size, entry i read back is
    exactly elem_size bits of element i (cut, or extended with zeros), as whole bytes. *)
Theorem C04_store_and_read :
  forall (dbg : bool) (strs : list (list Z)) (m es pb : nat) (db : index_db)
         (i : nat) (elem : list Z),
    (1 <= pb <= 32)%nat -> (es mod pb <> 0)%nat ->
    index_db_new dbg strs m es pb = Ok db ->
    (i < m)%nat -> b64_decode (nth i strs []) = Ok elem ->
    exists out, index_get_db_entry dbg db i = Ok (b64_encode out) /\
      Forall is_u8 out /\ length out = ((es + 7) / 8)%nat /\
      byte_string_bits out = fit es (byte_string_bits elem) ++ repeat false (8 * length out - es).
Proof. exact store_and_read. Qed.
Print Assumptions C04_store_and_read.

(** C04: Key-value elements: the same for the row produced from a value string. *)
Theorem C04_kv_store_and_read :
  forall (sha : list Z -> list Z) (dbg : bool) (k v : list Z) (es pb : nat)
         (kv : key_value) (elem : list Z),
    (1 <= pb <= 32)%nat -> (es mod pb <> 0)%nat ->
    kv_from_base64_strings sha dbg k v es pb = Ok kv -> b64_decode v = Ok elem ->
    exists out, bytes_from_u32_slice dbg (kv_value kv) pb es = Ok out /\
      Forall is_u8 out /\ length out = ((es + 7) / 8)%nat /\
      byte_string_bits out = fit es (byte_string_bits elem) ++ repeat false (8 * length out - es).
Proof. exact kv_store_and_read. Qed.
Print Assumptions C04_kv_store_and_read.

(** C04: Construction is total on long enough elements: if the first m strings decode to
    elements reaching at least into the last chunk, a database is built (m > 0). *)
Theorem C04_construction_succeeds :
  forall (dbg : bool) (strs elems : list (list Z)) (m es pb w : nat),
    (1 <= pb <= 32)%nat -> is_ceil_div es pb w -> (0 < m <= length strs)%nat ->
    length elems = m ->
    (forall i, (i < m)%nat -> b64_decode (nth i strs []) = Ok (nth i elems []) /\
                              (w * pb <= 8 * length (nth i elems []) + pb)%nat) ->
    exists db, index_db_new dbg strs m es pb = Ok db.
Proof. exact construction_succeeds. Qed.
Print Assumptions C04_construction_succeeds.

(** C04: An element that ends before its last chunk starts makes construction panic (when the
    strings before it are fine). *)
Theorem C04_short_element_panics :
  forall (dbg : bool) (strs elems : list (list Z)) (m es pb w k : nat) (short : list Z),
    (1 <= pb <= 32)%nat -> is_ceil_div es pb w -> (k < m <= length strs)%nat ->
    (forall i, (i < k)%nat -> b64_decode (nth i strs []) = Ok (nth i elems []) /\
                              (w * pb <= 8 * length (nth i elems []) + pb)%nat) ->
    b64_decode (nth k strs []) = Ok short -> (8 * length short + pb < w * pb)%nat ->
    index_db_new dbg strs m es pb = Panic.
Proof. exact short_element_panics. Qed.
Print Assumptions C04_short_element_panics.

(** C04: A string that is not base64 makes construction return the decode error (when the
    strings before it are fine). *)
Theorem C04_undecodable_element_err :
  forall (dbg : bool) (strs elems : list (list Z)) (m es pb w k : nat),
    (1 <= pb <= 32)%nat -> is_ceil_div es pb w -> (k < m <= length strs)%nat ->
    (forall i, (i < k)%nat -> b64_decode (nth i strs []) = Ok (nth i elems []) /\
                              (w * pb <= 8 * length (nth i elems []) + pb)%nat) ->
    b64_decode (nth k strs []) = Err EBase64 ->
    index_db_new dbg strs m es pb = Err EBase64.
Proof. exact undecodable_element_err. Qed.
Print Assumptions C04_undecodable_element_err.

(** C04: example: 16-bit elements in 10-bit chunks. *)
Example C04_store_and_read_example :
  exists db, index_db_new true [b64_encode [1; 2]; b64_encode [255; 128]] 2 16 10 = Ok db /\
    (16 mod 10 <> 0)%nat /\ b64_decode (b64_encode [255; 128]) = Ok [255; 128] /\
    index_get_db_entry true db 1 = Ok (b64_encode [255; 128]).
Proof. exact store_and_read_example. Qed.

(** C04: example: a 1-byte element where three 10-bit chunks are needed panics; a string with a
    foreign symbol is an error. *)
Example C04_short_and_bad_example :
  index_db_new true [b64_encode [7; 7; 7]; b64_encode [7]] 2 24 10 = Panic /\
  index_db_new true [b64_encode [7; 7; 7]; [33; 33; 33; 33]] 2 24 10 = Err EBase64.
Proof. exact short_and_bad_example. Qed.

(** C05: When plaintext_bits divides elem_size, the last chunk of every element is dropped:
    only elem_size - plaintext_bits bits come back, whatever the element. *)
Theorem C05_divisible_loses_last_chunk :
  forall (dbg : bool) (strs : list (list Z)) (m es pb : nat) (db : index_db)
         (i : nat) (elem : list Z),
    (1 <= pb <= 32)%nat -> (es mod pb = 0)%nat -> (0 < es)%nat ->
    index_db_new dbg strs m es pb = Ok db ->
    (i < m)%nat -> b64_decode (nth i strs []) = Ok elem ->
    exists out, index_get_db_entry dbg db i = Ok (b64_encode out) /\
      length out = ((es - pb + 7) / 8)%nat /\
      byte_string_bits out =
        fit (es - pb) (byte_string_bits elem) ++ repeat false (8 * length out - (es - pb)).
Proof. exact divisible_loses_last_chunk. Qed.
Print Assumptions C05_divisible_loses_last_chunk.

(** C05: Refuted: a database accepts an element of exactly elem_size bits and returns a
    different one. *)
Theorem C05_divisible_roundtrip_refuted :
  exists (strs : list (list Z)) (es pb : nat) (db : index_db) (elem : list Z),
    (es mod pb = 0)%nat /\ (8 * length elem = es)%nat /\ strs = [b64_encode elem] /\
    (forall dbg, index_db_new dbg strs 1 es pb = Ok db) /\
    (forall dbg, exists got, index_get_db_entry dbg db 0 = Ok got /\ got <> b64_encode elem).
Proof. exact divisible_roundtrip_refuted. Qed.
Print Assumptions C05_divisible_roundtrip_refuted.

(** C05: example: the repository's own configurations 819200/10 and 245760/10 are divisible. *)
Example C05_repo_configs_divisible :
  (Z.to_nat 819200 mod 10 = 0)%nat /\ (Z.to_nat 245760 mod 10 = 0)%nat.
Proof. exact repo_configs_divisible. Qed.

(** C06: Rows enumerate the inputs: with canonical base64 strings of elem_size bits and
    plaintext_bits not dividing elem_size, the shard exists, [into_row_iter] is the list of
    the first m strings, and [get_db_entry i] is the i-th. *)
Theorem C06_rows_are_inputs :
  forall (prg : list Z -> nat -> Z) (dbg : bool) (seed : list Z) (elems : list (list Z))
         (dim m es pb : nat),
    (1 <= pb <= 32)%nat -> (es mod pb <> 0)%nat ->
    (0 < m <= length elems)%nat ->
    Forall (fun b => Forall is_u8 b /\ (8 * length b = es)%nat) elems ->
    exists sh,
      shard_from_base64_strings prg dbg seed (map b64_encode elems) dim m es pb = Ok sh /\
      shard_into_row_iter dbg sh = Ok (firstn m (map b64_encode elems)) /\
      forall i, (i < m)%nat ->
        index_get_db_entry dbg (sh_db sh) i = Ok (nth i (map b64_encode elems) []).
Proof. exact rows_are_inputs. Qed.
Print Assumptions C06_rows_are_inputs.

(** C06: example: hypotheses are met by two 16-bit elements with 10-bit chunks; extra elements
    beyond m are ignored. *)
Example C06_rows_are_inputs_example :
  (16 mod 10 <> 0)%nat /\
  Forall (fun b => Forall is_u8 b /\ (8 * length b = 16)%nat) [[1; 2]; [3; 200]; [9; 9]] /\
  (0 < 2 <= length [[1; 2]; [3; 200]; [9; 9]])%nat.
Proof. exact rows_are_inputs_example. Qed.

(** C07: Deserialising a serialised response gives the vector back; trailing bytes are ignored. *)
Theorem C07_response_roundtrip :
  forall (v tail : list Z),
    Forall is_u32 v -> Z.of_nat (length v) < 2 ^ 64 ->
    bincode_de_vec_u32 (bincode_ser_vec_u32 v ++ tail) = Ok v /\
    length (bincode_ser_vec_u32 v) = (8 + 4 * length v)%nat.
Proof. exact response_roundtrip. Qed.
Print Assumptions C07_response_roundtrip.

(** C07: Every strict prefix of an encoding is rejected. *)
Theorem C07_response_prefix_rejected :
  forall (v : list Z) (n : nat),
    Z.of_nat (length v) < 2 ^ 64 -> (n < length (bincode_ser_vec_u32 v))%nat ->
    bincode_de_vec_u32 (firstn n (bincode_ser_vec_u32 v)) = Err EDeserialize.
Proof. exact response_prefix_rejected. Qed.
Print Assumptions C07_response_prefix_rejected.

(** C07: Conversely, every byte string that deserialises starts with the canonical encoding of
    the vector it yields (so two vectors never share an encoding). *)
Theorem C07_response_decoding_canonical :
  forall (bytes v : list Z),
    Forall is_u8 bytes -> bincode_de_vec_u32 bytes = Ok v ->
    Forall is_u32 v /\ exists tail, bytes = bincode_ser_vec_u32 v ++ tail.
Proof. exact response_decoding_canonical. Qed.
Print Assumptions C07_response_decoding_canonical.

(** C07: example. *)
Example C07_response_example :
  bincode_de_vec_u32 (bincode_ser_vec_u32 [1; 4294967295] ++ [9]) = Ok [1; 4294967295].
Proof. exact response_example. Qed.
