(** Property theorems; each restates a lemma proved in Claims_b64.v. *)
From Coq Require Import String Permutation.
From Verif Require Import Base Spec SpecMsg SpecB64 Base64 Fmt Mat Lwe Hash Bfusep Db Api Files Msg B64Msg Sha256 ChaCha Claims_wire Claims_msg Claims_b64.
Local Open Scope Z_scope.

(** C85: A text decodes exactly if there is no error, and every error is one of three. *)
Theorem C85_errors_are_exact : forall s,
  (b64_error s = None <-> exists bytes, b64_decode s = Ok bytes) /\
  (b64_error s = Some InvalidLength -> (length s mod 4 = 1)%nat /\ forall t, (length t mod 4 = 1)%nat -> forall bytes, b64_decode t <> Ok bytes).
Proof. exact errors_are_exact. Qed.
Print Assumptions C85_errors_are_exact.

(** C85: A foreign byte: the byte at the offset is the one that is named, it is not in the alphabet,
    and it is no padding in its place; it is the first such byte, unless the text has an
    impossible length, when it is the last one. Whatever else is changed, a text with this byte
    (if it is not "=") at this offset does not decode. *)
Theorem C85_foreign_byte : forall s i c, b64_error s = Some (InvalidByte i c) ->
  foreign s c i /\
  ((length s mod 4 <> 1)%nat -> forall j, (j < i)%nat -> symbol_at s j) /\
  ((length s mod 4 = 1)%nat -> i = (length s - 1)%nat /\ c <> equals_sign) /\
  (c <> equals_sign -> forall t bytes, nth_error t i = Some c -> b64_decode t <> Ok bytes).
Proof. exact foreign_byte. Qed.
Print Assumptions C85_foreign_byte.

(** C85: A last symbol with bits that no byte takes up: it is the last symbol, only padding follows,
    and with another symbol in its place the text decodes. *)
Theorem C85_last_symbol : forall s i c, b64_error s = Some (InvalidLastSymbol i c) ->
  spare (fun t => exists bytes, b64_decode t = Ok bytes) s c i.
Proof. exact last_symbol. Qed.
Print Assumptions C85_last_symbol.

(** C85: The three kinds of text, for every text that fails to decode. *)
Theorem C85_decode_texts : forall s f, Forall is_u8 s -> is_length (length s) -> m_b64_decode b64_texts s = TErr f ->
  says (fun t => exists bytes, b64_decode t = Ok bytes) s (f_display f) /\
  says_inside (fun t => exists bytes, b64_decode t = Ok bytes) s (f_debug f).
Proof. exact decode_texts. Qed.
Print Assumptions C85_decode_texts.

(** C85: From a text, and from one inside another error, the kind, the byte and the offset can be
    read back. *)
Theorem C85_texts_are_readable : forall c i c' i', is_u8 c -> is_u8 c' -> is_length i -> is_length i' ->
  (foreign_text c i = foreign_text c' i' -> c = c' /\ i = i') /\ (spare_text c i = spare_text c' i' -> c = c' /\ i = i') /\
  (foreign_debug c i = foreign_debug c' i' -> c = c' /\ i = i') /\ (spare_debug c i = spare_debug c' i' -> c = c' /\ i = i') /\
  foreign_text c i <> spare_text c' i' /\ foreign_text c i <> length_text /\ spare_text c i <> length_text /\
  foreign_debug c i <> spare_debug c' i' /\ foreign_debug c i <> length_debug /\ spare_debug c i <> length_debug.
Proof. exact texts_are_readable. Qed.
Print Assumptions C85_texts_are_readable.

(** C85: A failed build from strings says what is wrong with the first element whose row fails:
    the offending byte and its offset in the string, an impossible length, or (with more than 32
    bits per entry) the size of a chunk. *)
Theorem C85_build_names_the_byte : forall prg dbg seed strs dim m es pb f,
  (forall s, In s strs -> Forall is_u8 s /\ is_length (length s)) ->
  (forall s e, In s strs -> b64_decode s = Ok e -> is_length (8 * length e + 7)) ->
  m_shard_from_base64_strings b64_texts prg dbg seed strs dim m es pb = TErr f ->
  exists i w, (i < m)%nat /\ (i < length strs)%nat /\ get_row_width es pb = Ok w /\
    (forall j, (j < i)%nat -> exists row, index_construct_row dbg (nth j strs []) pb w = Ok row) /\
    let s := nth i strs [] in
    (says (fun t => exists bytes, b64_decode t = Ok bytes) s (f_display f) \/
     exists e n, b64_decode s = Ok e /\ (32 < pb)%nat /\ (4 < n <= length e)%nat /\ f_display f = size_text (wide_details n)).
Proof. exact build_names_the_byte. Qed.
Print Assumptions C85_build_names_the_byte.

(** C85: The same for key-value pairs, with SHA-256: the text inside. *)
Theorem C85_pairs_name_the_byte : forall prg dbg fe rnd fseed seed keys values dim m es pb f,
  (forall s, In s values -> Forall is_u8 s /\ is_length (length s)) ->
  (forall s e, In s values -> b64_decode s = Ok e -> is_length (8 * length e + 7)) ->
  length keys = length values -> m_kv_shard b64_texts sha256 prg dbg fe rnd fseed seed keys values dim m es pb = TErr f ->
  exists i, (i < length values)%nat /\
    (forall j, (j < i)%nat -> exists row, kv_construct_row dbg (nth j values []) pb es = Ok row) /\
    let s := nth i values [] in
    ((exists t, says_inside (fun t => exists bytes, b64_decode t = Ok bytes) s t /\ f_display f = pairs_text t) \/
     exists e n, b64_decode s = Ok e /\ (32 < pb)%nat /\ (4 < n <= length e)%nat /\ f_display f = pairs_text (wide_debug n)).
Proof. exact pairs_name_the_byte. Qed.
Print Assumptions C85_pairs_name_the_byte.

(** C85: the texts of some strings that do not decode, and the two failed builds. *)
Example C85_b64_texts_example :
  fst (b64_texts (bytes_of "AA!A")) = bytes_of "Invalid byte 33, offset 2." /\
  fst (b64_texts (bytes_of "A=AA")) = bytes_of "Invalid byte 61, offset 1." /\
  fst (b64_texts (bytes_of "AQI=AQI=")) = bytes_of "Invalid byte 61, offset 3." /\
  fst (b64_texts (bytes_of "AQI")) = [] /\ fst (b64_texts (bytes_of "AQI=")) = [] /\ fst (b64_texts (bytes_of "AQ=")) = [] /\
  fst (b64_texts (bytes_of "AAAAA")) = bytes_of "Encoded text cannot have a 6-bit remainder." /\
  fst (b64_texts (bytes_of "A!AA ")) = bytes_of "Invalid byte 32, offset 4." /\
  fst (b64_texts (bytes_of "AQJ=")) = bytes_of "Invalid last symbol 74, offset 2." /\
  m_shard_from_base64_strings b64_texts std_rng true [] [bytes_of "AQI="; bytes_of "AQ?="] 1 2 16 8 =
    TErr {| f_kind := EBase64; f_display := bytes_of "Invalid byte 63, offset 2."; f_debug := bytes_of "InvalidByte(2, 63)" |} /\
  (exists f, m_kv_shard b64_texts sha256 std_rng true {| fe_exp := fun _ => 3; fe_cap := fun _ => 12 |} (fun _ _ => 0) [] [] [[1]; [2]] [bytes_of "AQI="; bytes_of "AQ?="] 1 2 16 8 = TErr f /\
     f_display f = bytes_of "Error occurred constructing KVs: Some(InvalidByte(2, 63))").
Proof. exact b64_texts_example. Qed.
