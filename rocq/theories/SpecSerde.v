(** * SpecSerde: which values fit their Rust types, and what a serialisation format owes.
    Written without the codecs: only field types (src/api.rs:21-25, 102-116, 249-258, 452-470;
    src/db/index.rs:13-19, 121-129; src/db/kv.rs:16-20, 84-90, 111-118, 267-276; bff-modp). *)
From Verif Require Export Base Db Api SpecJson Bfusep Bfuse Xor Fuse.
Local Open Scope Z_scope.

(** A [usize] (64 bits), a [Vec<u32>], a [Vec<Vec<u32>>], a [[u8; 32]], a [String]. *)
Definition wt_usize (n : nat) : Prop := Z.of_nat n < 2 ^ 64.
Definition wt_vec {A} (P : A -> Prop) (l : list A) : Prop := Forall P l /\ wt_usize (length l).
Definition wt_words (l : list Z) : Prop := wt_vec is_u32 l.
Definition wt_matrix (m : list (list Z)) : Prop := wt_vec wt_words m.
Definition wt_seed (s : list Z) : Prop := length s = 32%nat /\ Forall is_u8 s.
Definition wt_string (s : list Z) : Prop := utf8_text s /\ wt_usize (length s).

Definition wt_filter_params (p : filter_params) : Prop :=
  wt_seed (fp_seed p) /\ is_u32 (fp_segment_length p) /\ is_u32 (fp_segment_length_mask p) /\
  is_u32 (fp_segment_count_length p).
Definition wt_index_db (d : index_db) : Prop :=
  wt_matrix (id_entries d) /\ wt_usize (id_m d) /\ wt_usize (id_elem_size d) /\ wt_usize (id_plaintext_bits d).
Definition wt_index_params (p : index_params) : Prop :=
  wt_usize (ip_dim p) /\ wt_usize (ip_m p) /\ wt_seed (ip_public_seed p) /\ wt_matrix (ip_rhs p) /\
  wt_usize (ip_elem_size p) /\ wt_usize (ip_plaintext_bits p).
Definition wt_shard (s : shard) : Prop := wt_index_db (sh_db s) /\ wt_index_params (sh_params s).
Definition wt_key_value (x : key_value) : Prop :=
  (length (kv_key x) = 4%nat /\ Forall is_u64 (kv_key x)) /\ wt_words (kv_value x).
Definition wt_kv_db (d : kv_db) : Prop :=
  wt_matrix (kd_entries d) /\ wt_usize (kd_m d) /\ wt_usize (kd_elem_size d) /\
  wt_usize (kd_plaintext_bits d) /\ wt_filter_params (kd_filter_params d).
Definition wt_kv_params (p : kv_params) : Prop :=
  wt_usize (kp_dim p) /\ wt_usize (kp_m p) /\ wt_seed (kp_public_seed p) /\ wt_matrix (kp_rhs p) /\
  wt_usize (kp_elem_size p) /\ wt_usize (kp_plaintext_bits p) /\ wt_filter_params (kp_filter_params p).
Definition wt_kv_shard (s : kv_shard) : Prop := wt_kv_db (ks_db s) /\ wt_kv_params (ks_params s).
Definition wt_encoded_kv (kv : list Z * list Z) : Prop := wt_string (fst kv) /\ wt_string (snd kv).
Definition wt_query_params (q : query_params) : Prop :=
  wt_words (qp_lhs q) /\ wt_words (qp_rhs q) /\ wt_usize (qp_elem_size q) /\ wt_usize (qp_plaintext_bits q) /\
  match qp_extra q with Some f => wt_filter_params f | None => True end.
Definition wt_bfusep (f : bfusep) : Prop :=
  wt_seed (bp_seed f) /\ is_u32 (bp_segment_length f) /\ is_u32 (bp_segment_length_mask f) /\
  is_u32 (bp_segment_count_length f) /\ wt_words (bp_fingerprints f) /\ is_u64 (bp_ptxt_mod f).
(** [k] bytes per fingerprint. *)
Definition wt_prints (k : nat) (l : list Z) : Prop := wt_vec (fun x => 0 <= x < 256 ^ Z.of_nat k) l.
Definition wt_bfuse (k : nat) (f : bfuse) : Prop :=
  is_u64 (bf_seed f) /\ is_u32 (bf_segment_length f) /\ is_u32 (bf_segment_length_mask f) /\
  is_u32 (bf_segment_count_length f) /\ wt_prints k (bf_fingerprints f).
Definition wt_xor (k : nat) (f : xorf) : Prop :=
  is_u64 (xf_seed f) /\ wt_usize (xf_block_length f) /\ wt_prints k (xf_fingerprints f).
Definition wt_fuse (k : nat) (f : fusef) : Prop :=
  is_u64 (ff_seed f) /\ wt_usize (ff_segment_length f) /\ wt_prints k (ff_fingerprints f).

(** What a binary format owes for a type whose values are those of [ok]: a byte string is
    accepted exactly when it starts with the encoding of a value of the type, which is then
    the result; anything else is an error (never a panic). *)
Definition exact_binary {A} (ok : A -> Prop) (ser : A -> list Z) (des : list Z -> res A) : Prop :=
  forall s, Forall is_u8 s ->
    (forall a, des s = Ok a <-> ok a /\ exists rest, s = ser a ++ rest) /\
    ((forall a rest, ok a -> s <> ser a ++ rest) -> des s = Err EDeserialize).
(** What a text format owes: the text of a value reads back as that value. *)
Definition text_round_trip {A} (ok : A -> Prop) (ser : A -> list Z) (des : list Z -> res A) : Prop :=
  forall a, ok a -> utf8_text (ser a) /\ des (ser a) = Ok a.
(** A proper beginning of a value's bytes (or text) is an error, not another value. *)
Definition torn_is_error {A} (ok : A -> Prop) (ser : A -> list Z) (des : list Z -> res A) : Prop :=
  forall a cut rest, ok a -> ser a = cut ++ rest -> rest <> [] -> des cut = Err EDeserialize.
