(** Property theorems; each restates a lemma proved in Claims_msg.v. *)
From Coq Require Import String Permutation.
From Verif Require Import Base Spec SpecMsg Fmt Mat Lwe Hash Bfusep Base64 Db Api Files Msg Claims_format Claims_wire Claims_msg.
Local Open Scope Z_scope.

(** C83: The texts belong to the errors: without them, the calls below are the ones of the rest of
    the model, for every argument. *)
Theorem C83_texts_belong :
  (forall row col, forget (m_vec_mult row col) = vec_mult_u32_u32 row col) /\
  (forall dbg bits, forget (m_bits_to_u32 dbg bits) = bits_to_u32_le dbg bits) /\
  (forall b64 prg dbg seed strs dim m es pb,
     forget (m_shard_from_base64_strings b64 prg dbg seed strs dim m es pb) = shard_from_base64_strings prg dbg seed strs dim m es pb) /\
  (forall b64 sha prg dbg fe rnd fseed seed keys values dim m es pb,
     forget (m_kv_shard b64 sha prg dbg fe rnd fseed seed keys values dim m es pb) =
     kv_shard_from_base64_strings sha prg dbg fe rnd fseed seed keys values dim m es pb) /\
  (forall cp p tape, forget (m_index_query_params cp p tape) = generate_index_query_params cp p tape) /\
  (forall cp p tape, forget (m_kv_query_params cp p tape) = generate_kv_query_params cp p tape) /\
  (forall dbg qp row, forget (m_index_query dbg qp row) = snd (index_generate_query dbg qp row)) /\
  (forall dbg qp key, forget (m_kv_query dbg qp key) = snd (kv_generate_query dbg qp key)) /\
  (forall dbg qp resp key, forget (m_kv_parse_row dbg qp resp key) = kv_parse_resp_as_row dbg qp resp key).
Proof. exact texts_belong. Qed.
Print Assumptions C83_texts_belong.

(** C83: A row times a column of another length: the text gives both lengths, and from the text
    both can be told. *)
Theorem C83_product_text : forall row col, is_length (length row) -> is_length (length col) ->
  (length row <> length col -> exists f, m_vec_mult row col = TErr f /\ f_display f = lengths_text (length row) (length col)) /\
  forall a b, is_length a -> is_length b -> lengths_text (length row) (length col) = lengths_text a b -> length row = a /\ length col = b.
Proof. exact product_text. Qed.
Print Assumptions C83_product_text.

(** C83: Parameters whose dimension does not fit their matrices: the text gives the dimension and
    the length of the first column that differs, of the public matrix or of the right-hand side. *)
Theorem C83_params_text :
  (forall cp p tape f, is_length (ip_dim p) -> Forall (fun c => is_length (length c)) (cp ++ ip_rhs p) -> m_index_query_params cp p tape = TErr f ->
     exists c, (first_with (fun c => length c <> ip_dim p) cp c \/ first_with (fun c => length c <> ip_dim p) (ip_rhs p) c) /\
       f_display f = lengths_text (ip_dim p) (length c)) /\
  (forall cp p tape f, is_length (kp_dim p) -> Forall (fun c => is_length (length c)) (cp ++ kp_rhs p) -> m_kv_query_params cp p tape = TErr f ->
     exists c, (first_with (fun c => length c <> kp_dim p) cp c \/ first_with (fun c => length c <> kp_dim p) (kp_rhs p) c) /\
       f_display f = lengths_text (kp_dim p) (length c)).
Proof. exact params_text. Qed.
Print Assumptions C83_params_text.

(** C83: Unequal numbers of keys and values: the text gives both, and from it both can be told. *)
Theorem C83_counts_are_told : forall b64 sha prg dbg fe rnd fseed seed keys values dim m es pb,
  is_length (length keys) -> is_length (length values) -> length keys <> length values ->
  (exists f, m_kv_shard b64 sha prg dbg fe rnd fseed seed keys values dim m es pb = TErr f /\
             f_display f = counts_text (length keys) (length values)) /\
  forall a b, is_length a -> is_length b -> counts_text (length keys) (length values) = counts_text a b ->
    length keys = a /\ length values = b.
Proof. exact counts_are_told. Qed.
Print Assumptions C83_counts_are_told.

(** C83: What a wide chunk is told: the number of its bytes, and that it does not fit a u16. That
    is not the limit (refuted): every chunk of 17 to 32 bits is accepted, so that the text, which
    only appears above 32 bits, names a limit of half the real one. *)
Theorem C83_wide_text_refuted : forall dbg bits, is_length (length bits) ->
  ((16 < length bits <= 32)%nat -> m_bits_to_u32 dbg bits = TOk (bits_value bits)) /\
  ((32 < length bits)%nat -> exists f, m_bits_to_u32 dbg bits = TErr f /\
     f_display f = size_text (txt "bytes are too long to parse as u16, length: " ++ SpecWire.count ((length bits + 7) / 8))).
Proof. exact wide_text_refuted. Qed.
Print Assumptions C83_wide_text_refuted.

(** C83: A failed build from strings: the text is about the first element whose own row fails, and
    is a function of that element: the base64 text if it does not decode, otherwise the number of
    bytes of a chunk of it that is too wide. *)
Theorem C83_build_text : forall b64 prg dbg seed strs dim m es pb f,
  (forall s e, In s strs -> b64_decode s = Ok e -> is_length (8 * length e + 7)) ->
  m_shard_from_base64_strings b64 prg dbg seed strs dim m es pb = TErr f ->
  exists i w, (i < m)%nat /\ (i < length strs)%nat /\ get_row_width es pb = Ok w /\
    (forall j, (j < i)%nat -> exists row, index_construct_row dbg (nth j strs []) pb w = Ok row) /\
    let s := nth i strs [] in
    ((forall e, b64_decode s <> Ok e) /\ f_display f = fst (b64 s) \/
     exists e n, b64_decode s = Ok e /\ (32 < pb)%nat /\ (4 < n <= length e)%nat /\ f_display f = size_text (wide_details n)).
Proof. exact build_text. Qed.
Print Assumptions C83_build_text.

(** C83: A failed key-value build from as many keys as values: the text is about the first value
    whose row fails, wrapped, and again a function of that value. *)
Theorem C83_pairs_are_told : forall b64 sha prg dbg fe rnd fseed seed keys values dim m es pb f,
  (forall k, length (sha k) = 32%nat) -> (forall s e, In s values -> b64_decode s = Ok e -> is_length (8 * length e + 7)) ->
  length keys = length values -> m_kv_shard b64 sha prg dbg fe rnd fseed seed keys values dim m es pb = TErr f ->
  exists i, (i < length values)%nat /\
    (forall j, (j < i)%nat -> exists row, kv_construct_row dbg (nth j values []) pb es = Ok row) /\
    let s := nth i values [] in
    ((forall e, b64_decode s <> Ok e) /\ f_display f = pairs_text (snd (b64 s)) \/
     exists e n, b64_decode s = Ok e /\ (32 < pb)%nat /\ (4 < n <= length e)%nat /\ f_display f = pairs_text (wide_debug n)).
Proof. exact pairs_are_told. Qed.
Print Assumptions C83_pairs_are_told.

(** C83: The texts say which element is bad (refuted): two inputs whose bad element is at
    different places give the same error, in both modes and whatever base64 says. *)
Theorem C83_bad_element_refuted : forall b64 prg dbg seed sha fe rnd fseed k1 k2, length (sha k1) = 32%nat -> length (sha k2) = 32%nat ->
  let good := b64_encode [1; 2] in
  let bad := [33] in
  exists f g,
    m_shard_from_base64_strings b64 prg dbg seed [good; bad] 1 2 16 8 = TErr f /\
    m_shard_from_base64_strings b64 prg dbg seed [bad; good] 1 2 16 8 = TErr f /\
    m_kv_shard b64 sha prg dbg fe rnd fseed seed [k1; k2] [good; bad] 1 2 16 8 = TErr g /\
    m_kv_shard b64 sha prg dbg fe rnd fseed seed [k1; k2] [bad; good] 1 2 16 8 = TErr g.
Proof. exact bad_element_refuted. Qed.
Print Assumptions C83_bad_element_refuted.

(** C83: The queries: the text is one of three constants, it tells the reason, and it says nothing
    else: neither the row, nor the key, nor the secret behind the parameters has a part in it. *)
Theorem C83_query_texts :
  (forall dbg qp row f, m_index_query dbg qp row = TErr f ->
     qp_used qp = true /\ f_display f = reused_text \/
     qp_used qp = false /\ f_display f = overflow_text /\
       exists x, nth_error (qp_lhs qp) row = Some x /\ exists d, get_rounding_factor dbg (qp_plaintext_bits qp) = Ok d /\ 2 ^ 32 <= x + d) /\
  (forall dbg qp key f, m_kv_query dbg qp key = TErr f ->
     qp_used qp = true /\ f_display f = reused_text \/
     qp_used qp = false /\ qp_extra qp = None /\ f_display f = no_filter_text) /\
  (forall dbg qp resp key f, m_kv_parse_row dbg qp resp key = TErr f -> qp_extra qp = None /\ f_display f = no_filter_text) /\
  NoDup [reused_text; overflow_text; no_filter_text].
Proof. exact query_texts. Qed.
Print Assumptions C83_query_texts.

(** C83: example: what a user reads: a product of three by two words, a 40-bit chunk, a database
    of a bad string, three keys for one value, a query made twice. *)
Example C83_texts_example : forall b64 prg sha fe rnd qp,
  m_vec_mult [1; 2; 3] [4; 5] = TErr (unexpected_input_size (txt "row_len: 3, col_len:2,")) /\
  m_bits_to_u32 true (repeat true 40) = TErr (unexpected_input_size (txt "bytes are too long to parse as u16, length: 5")) /\
  m_shard_from_base64_strings b64 prg true [] [[33]] 1 1 16 8 = TErr {| f_kind := EBase64; f_display := fst (b64 [33]); f_debug := snd (b64 [33]) |} /\
  m_shard_from_base64_strings b64 prg true [] [b64_encode [1; 2; 3; 4; 5]] 1 1 40 40 =
    TErr (unexpected_input_size (txt "bytes are too long to parse as u16, length: 5")) /\
  m_kv_shard b64 sha prg true fe rnd [] [] [[1]; [2]; [3]] [[4]] 1 1 16 8 =
    TErr (string_error EKeyValueCount (txt "Number of keys (3) does not match number of values (1)")) /\
  (forall f, m_index_query true (set_used true qp) 0 = TErr f -> f_display f = reused_text) /\
  m_index_query true (set_used true qp) 0 = TErr query_params_reused.
Proof. exact texts_example. Qed.
