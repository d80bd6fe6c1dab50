(** Property theorems; each restates a lemma proved in Claims_lookup.v. *)
From Coq Require Import String Permutation.
From Verif Require Import Base Spec SpecFilter SpecFiles SpecJson Experiment Fmt Base64 Bincode Mat Lwe Hash Bfusep Db Api Json Files Refusal Lookup Claims_format Claims_filter Claims_index Claims_kv Claims_prob Claims_refusal Claims_tests Claims_json Claims_lookup.
Local Open Scope Z_scope.

(** C79: Index mode, every configuration of the Makefile in which plaintext_bits does not divide
    elem_size: from any file (any formatting) of m texts of elem_size-bit blocks the shard is
    built, and for every row the client's randomness that makes it hold a text other than the
    one in the file is a fraction below 2^-bits of all. *)
Theorem C79_index_text_back : forall prg dbg seed d path text blocks dim m es pb mz ez pz bits,
  In (mz, ez, pz, bits) index_configs -> Z.of_nat m = mz -> Z.of_nat es = ez -> Z.of_nat pb = pz ->
  (es mod pb <> 0)%nat -> length blocks = m -> blocks_of es blocks ->
  d path = Some text -> strings_file text (map b64_encode blocks) ->
  exists sh, shard_from_json_file prg dbg seed d path dim m es pb = Ok sh /\
    forall r, (r < m)%nat ->
      count_tapes (fun tape => wrong_text (b64_encode (nth r blocks [])) (index_lookup prg dbg sh r tape)) (dim + m) * 2 ^ bits
      <= count_tapes (fun _ => true) (dim + m).
Proof. exact index_text_back. Qed.
Print Assumptions C79_index_text_back.

(** C79: Refuted when plaintext_bits (at least 8) divides elem_size, as in two of the
    configurations: from every such file the shard is built without complaint, and no query for
    any row, whatever the randomness, gives the client the text in the file: what it obtains is
    the text of (elem_size - plaintext_bits + 7) / 8 bytes. *)
Theorem C79_index_text_never_back_refuted : forall prg dbg seed d path text blocks dim m es pb,
  (8 <= pb <= 31)%nat -> (es mod pb = 0)%nat -> (0 < es)%nat -> (0 < m)%nat ->
  length blocks = m -> blocks_of es blocks ->
  d path = Some text -> strings_file text (map b64_encode blocks) ->
  exists sh, shard_from_json_file prg dbg seed d path dim m es pb = Ok sh /\
    forall r tape s, (r < m)%nat -> index_lookup prg dbg sh r tape = Ok s ->
      s <> b64_encode (nth r blocks []) /\ exists out, s = b64_encode out /\ length out = ((es - pb + 7) / 8)%nat.
Proof. exact index_text_never_back_refuted. Qed.
Print Assumptions C79_index_text_never_back_refuted.

(** C79: Keyword mode, every configuration of the Makefile in which plaintext_bits does not
    divide elem_size: if a shard is built from a file (any formatting) of keys and texts of
    elem_size-bit blocks, with a filter of the size the arithmetic gives, then for every key
    (the last of its digest) the client's randomness that makes a lookup of the key's text end
    with anything but the text in the file is a fraction below 2^-bits of all. *)
Theorem C79_kv_text_back : forall sha prg dbg fe rnd fseed pseed d path text keys blocks hkeys dim m es pb sh i key mz ez pz bits,
  In (mz, ez, pz, bits) kv_configs -> Z.of_nat (kp_m (ks_params sh)) <= mz -> Z.of_nat es = ez -> Z.of_nat pb = pz ->
  (es mod pb <> 0)%nat -> length keys = length blocks -> blocks_of es blocks ->
  d path = Some text -> kvs_file text (combine keys (map b64_encode blocks)) ->
  sane_estimates fe (length keys) ->
  kv_shard_from_json_file sha prg dbg fe rnd fseed pseed d path dim m es pb = Ok sh ->
  mapM (sha256_into_u64_sized sha) keys = Ok hkeys ->
  (dbg = true \/ exists slots,
     (forall key, get_hash_evals dbg (kd_filter_params (ks_db sh)) key = Ok (slots key)) /\
     forall j, (load slots hkeys j <= 63)%nat) ->
  last_with_hash fseed hkeys i key ->
  count_tapes (fun tape => wrong_text (b64_encode (nth i blocks [])) (kv_lookup sha prg dbg sh (nth i keys []) tape))
      (dim + kp_m (ks_params sh)) * 2 ^ bits
  <= count_tapes (fun _ => true) (dim + kp_m (ks_params sh)).
Proof. exact kv_text_back. Qed.
Print Assumptions C79_kv_text_back.

(** C79: Refuted when plaintext_bits (at least 8) divides elem_size, as in two of the
    configurations: if a shard is built from such a file, no lookup, whatever the key text and
    the randomness, gives any of the texts in the file. *)
Theorem C79_kv_text_never_back_refuted : forall sha prg dbg fe rnd fseed pseed d path text keys blocks dim m es pb sh,
  (8 <= pb <= 31)%nat -> (es mod pb = 0)%nat -> (0 < es)%nat -> length keys = length blocks -> blocks_of es blocks ->
  d path = Some text -> kvs_file text (combine keys (map b64_encode blocks)) ->
  kv_shard_from_json_file sha prg dbg fe rnd fseed pseed d path dim m es pb = Ok sh ->
  forall key_text tape s, kv_lookup sha prg dbg sh key_text tape = Ok s ->
    (forall b, In b blocks -> s <> b64_encode b) /\ exists out, s = b64_encode out /\ length out = ((es - pb + 7) / 8)%nat.
Proof. exact kv_text_never_back_refuted. Qed.
Print Assumptions C79_kv_text_never_back_refuted.

(** C79: example: files of two 16-bit blocks with 10 bits per entry (both texts come back) and of
    40-bit blocks (the client gets the text of 30 of the 40 bits), in both modes. *)
Example C79_lookup_example :
  let file := bytes_of "[""AQI="", ""/wA=""]" in
  let sfile := bytes_of "[""AQIDBAU="", ""//////8=""]" in
  let kfile := bytes_of "[{""key"":""a"",""value"":""AQI=""}, {""key"":""b"",""value"":""/wA=""}]" in
  let skfile := bytes_of "[{""key"":""a"",""value"":""AQIDBAU=""}, {""key"":""b"",""value"":""//////8=""}]" in
  let blocks := [[1; 2]; [255; 0]] in let sblocks := [[1; 2; 3; 4; 5]; repeat 255 5] in
  let keys := [bytes_of "a"; bytes_of "b"] in
  let sha k := firstn 32 (k ++ repeat 7 32) in
  blocks_of 16 blocks /\ blocks_of 40 sblocks /\
  strings_file file (map b64_encode blocks) /\ strings_file sfile (map b64_encode sblocks) /\
  kvs_file kfile (combine keys (map b64_encode blocks)) /\ kvs_file skfile (combine keys (map b64_encode sblocks)) /\
  (exists sh, shard_from_json_file ex_prg true [] (fun _ => Some file) [] 2 2 16 10 = Ok sh /\
     index_lookup ex_prg true sh 0 ex_tape = Ok (bytes_of "AQI=") /\ index_lookup ex_prg true sh 1 ex_tape = Ok (bytes_of "/wA=")) /\
  (exists sh, shard_from_json_file ex_prg true [] (fun _ => Some sfile) [] 2 2 40 10 = Ok sh /\
     index_lookup ex_prg true sh 0 ex_tape = Ok (bytes_of "AQIDBA==") /\ index_lookup ex_prg true sh 1 ex_tape = Ok (bytes_of "////Pw==")) /\
  (exists sh hkeys, kv_shard_from_json_file sha ex_prg true (est 3 12) ex_rnd seed0 [] (fun _ => Some kfile) [] 2 2 16 10 = Ok sh /\
     sane_estimates (est 3 12) 2 /\ mapM (sha256_into_u64_sized sha) keys = Ok hkeys /\
     (forall i, (i < 2)%nat -> last_with_hash seed0 hkeys i (nth i hkeys [])) /\
     kv_lookup sha ex_prg true sh (bytes_of "a") ex_tape = Ok (bytes_of "AQI=") /\
     kv_lookup sha ex_prg true sh (bytes_of "b") ex_tape = Ok (bytes_of "/wA=")) /\
  (exists sh, kv_shard_from_json_file sha ex_prg true (est 3 12) ex_rnd seed0 [] (fun _ => Some skfile) [] 2 2 40 10 = Ok sh /\
     kv_lookup sha ex_prg true sh (bytes_of "a") ex_tape = Ok (bytes_of "AQIDBA==")).
Proof. exact lookup_example. Qed.
