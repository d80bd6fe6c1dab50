(** * SpecRead: which JSON values denote a value of each serialisable type, field by field, with
    the names of the struct declarations (src/api.rs:21-25, 102-116, 249-258, 452-470;
    src/db/index.rs:13-19, 121-129; src/db/kv.rs:16-20, 84-90, 111-118, 267-276;
    src/db/mod.rs:77-78; bff-modp/src/bfusep32.rs:49-62, bfuse8.rs:56-66, xor8.rs:51-59,
    fuse8.rs:61-70). Relations, written without the codecs of [Serde]; [record_is] of [SpecJson]
    says what a record is (members in any order, unknown members ignored, or the array of the
    field values). *)
From Coq Require Import String Permutation.
From Verif Require Export Base Db Api Json Files SpecJson Bfusep Bfuse Xor Fuse.
Local Open Scope Z_scope.

(** An unsigned integer of [k] bytes; a [usize]; a list; an array of [n]; a string. *)
Definition d_uint (k : nat) (v : json) (x : Z) : Prop := v = JInt x /\ 0 <= x < 256 ^ Z.of_nat k.
Definition d_size (v : json) (n : nat) : Prop := v = JInt (Z.of_nat n) /\ Z.of_nat n < 2 ^ 64.
Definition d_list {A} (d : json -> A -> Prop) (v : json) (l : list A) : Prop :=
  exists vs, v = JArr vs /\ Forall2 d vs l.
Definition d_array {A} (n : nat) (d : json -> A -> Prop) (v : json) (l : list A) : Prop :=
  d_list d v l /\ length l = n.
Definition d_string (v : json) (s : list Z) : Prop := v = JStr s.
Definition d_seed := d_array 32 (d_uint 1).
Definition d_words := d_list (d_uint 4).
Definition d_matrix := d_list d_words.
Definition names (l : list string) : list (list Z) := map bytes_of l.

Definition d_filter_params (v : json) (p : filter_params) : Prop := exists s a b c,
  record_is (names ["seed"; "segment_length"; "segment_length_mask"; "segment_count_length"]%string) [s; a; b; c] v /\
  d_seed s (fp_seed p) /\ d_uint 4 a (fp_segment_length p) /\ d_uint 4 b (fp_segment_length_mask p) /\
  d_uint 4 c (fp_segment_count_length p).
Definition d_index_db (v : json) (q : index_db) : Prop := exists e m s p,
  record_is (names ["entries"; "m"; "elem_size"; "plaintext_bits"]%string) [e; m; s; p] v /\
  d_matrix e (id_entries q) /\ d_size m (id_m q) /\ d_size s (id_elem_size q) /\ d_size p (id_plaintext_bits q).
Definition d_index_params (v : json) (q : index_params) : Prop := exists d m s r e p,
  record_is (names ["dim"; "m"; "public_seed"; "rhs"; "elem_size"; "plaintext_bits"]%string) [d; m; s; r; e; p] v /\
  d_size d (ip_dim q) /\ d_size m (ip_m q) /\ d_seed s (ip_public_seed q) /\ d_matrix r (ip_rhs q) /\
  d_size e (ip_elem_size q) /\ d_size p (ip_plaintext_bits q).
Definition d_shard (v : json) (q : shard) : Prop := exists d p,
  record_is (names ["db"; "base_params"]%string) [d; p] v /\ d_index_db d (sh_db q) /\ d_index_params p (sh_params q).
Definition d_key_value (v : json) (q : key_value) : Prop := exists k x,
  record_is (names ["key"; "value"]%string) [k; x] v /\ d_array 4 (d_uint 8) k (kv_key q) /\ d_words x (kv_value q).
Definition d_kv_db (v : json) (q : kv_db) : Prop := exists e m s p f,
  record_is (names ["entries"; "m"; "elem_size"; "plaintext_bits"; "filter_params"]%string) [e; m; s; p; f] v /\
  d_matrix e (kd_entries q) /\ d_size m (kd_m q) /\ d_size s (kd_elem_size q) /\ d_size p (kd_plaintext_bits q) /\
  d_filter_params f (kd_filter_params q).
Definition d_kv_params (v : json) (q : kv_params) : Prop := exists d m s r e p f,
  record_is (names ["dim"; "m"; "public_seed"; "rhs"; "elem_size"; "plaintext_bits"; "filter_params"]%string)
    [d; m; s; r; e; p; f] v /\
  d_size d (kp_dim q) /\ d_size m (kp_m q) /\ d_seed s (kp_public_seed q) /\ d_matrix r (kp_rhs q) /\
  d_size e (kp_elem_size q) /\ d_size p (kp_plaintext_bits q) /\ d_filter_params f (kp_filter_params q).
Definition d_kv_shard (v : json) (q : kv_shard) : Prop := exists d p,
  record_is (names ["db"; "base_params"]%string) [d; p] v /\ d_kv_db d (ks_db q) /\ d_kv_params p (ks_params q).
Definition d_encoded_kv (v : json) (q : list Z * list Z) : Prop := exists k x,
  record_is (names ["key"; "value"]%string) [k; x] v /\ d_string k (fst q) /\ d_string x (snd q).

(** Query parameters: the marker [db] is null; [extra_params] may be null or, in an object, left
    out, or a value of the shard kind's own type. *)
Definition d_query_params (extra : json -> option filter_params -> Prop) (v : json) (q : query_params) : Prop :=
  exists l r e p x u,
  let fields := names ["lhs"; "rhs"; "elem_size"; "plaintext_bits"; "db"; "extra_params"; "used"]%string in
  let vals := [l; r; e; p; JNull; x; JBool u] in
  (record_is fields vals v \/
   exists ms, v = JObj ms /\ ~ In (bytes_of "extra_params") (map fst ms) /\
              record_is fields vals (JObj ((bytes_of "extra_params", JNull) :: ms))) /\
  d_words l (qp_lhs q) /\ d_words r (qp_rhs q) /\ d_size e (qp_elem_size q) /\ d_size p (qp_plaintext_bits q) /\
  (x = JNull /\ qp_extra q = None \/ x <> JNull /\ extra x (qp_extra q)) /\ qp_used q = u.
Definition d_kv_query_params :=
  d_query_params (fun x o => exists f, o = Some f /\ d_filter_params x f).
(** The index kind's own type has no fields. *)
Definition d_index_query_params :=
  d_query_params (fun x o => o = None /\ (x = JArr [] \/ exists ms, x = JObj ms)).

(** [k] bytes per fingerprint. *)
Definition d_bfusep (v : json) (q : bfusep) : Prop := exists s a b c f p,
  record_is (names ["seed"; "segment_length"; "segment_length_mask"; "segment_count_length"; "fingerprints"; "ptxt_mod"]%string)
    [s; a; b; c; f; p] v /\
  d_seed s (bp_seed q) /\ d_uint 4 a (bp_segment_length q) /\ d_uint 4 b (bp_segment_length_mask q) /\
  d_uint 4 c (bp_segment_count_length q) /\ d_words f (bp_fingerprints q) /\ d_uint 8 p (bp_ptxt_mod q).
Definition d_bfuse (k : nat) (v : json) (q : bfuse) : Prop := exists s a b c f,
  record_is (names ["seed"; "segment_length"; "segment_length_mask"; "segment_count_length"; "fingerprints"]%string)
    [s; a; b; c; f] v /\
  d_uint 8 s (bf_seed q) /\ d_uint 4 a (bf_segment_length q) /\ d_uint 4 b (bf_segment_length_mask q) /\
  d_uint 4 c (bf_segment_count_length q) /\ d_list (d_uint k) f (bf_fingerprints q).
Definition d_xor (k : nat) (v : json) (q : xorf) : Prop := exists s b f,
  record_is (names ["seed"; "block_length"; "fingerprints"]%string) [s; b; f] v /\
  d_uint 8 s (xf_seed q) /\ d_size b (xf_block_length q) /\ d_list (d_uint k) f (xf_fingerprints q).
Definition d_fuse (k : nat) (v : json) (q : fusef) : Prop := exists s b f,
  record_is (names ["seed"; "segment_length"; "fingerprints"]%string) [s; b; f] v /\
  d_uint 8 s (ff_seed q) /\ d_size b (ff_segment_length q) /\ d_list (d_uint k) f (ff_fingerprints q).

(** What a reader of text owes: it gives a value exactly when the text is a JSON document that
    denotes it, it gives an error for every other text; so a text denotes at most one value. *)
Definition exact_text {A} (d : json -> A -> Prop) (des : list Z -> res A) : Prop :=
  forall s,
    (forall a, des s = Ok a <-> exists v, json_document s v /\ d v a) /\
    ((forall v a, json_document s v -> ~ d v a) -> des s = Err EDeserialize).

(** Two objects that differ in the order of their members, and in members whose names are not
    among [ns], read the same. *)
Definition members_free {A} (ns : list string) (des : list Z -> res A) : Prop :=
  forall s s' l l' unknown, json_document s (JObj l) -> json_document s' (JObj l') ->
    Permutation (l ++ unknown) l' -> Forall (fun kv => ~ In (fst kv) (names ns)) unknown -> des s = des s'.

(** Every value read from a text (which is UTF-8 and in memory has fewer than 2^64 bytes) is one of [ok], and
    its own text reads back as it. *)
Definition settles {A} (ok : A -> Prop) (ser : A -> list Z) (des : list Z -> res A) : Prop :=
  forall s a, utf8_text s -> Z.of_nat (length s) < 2 ^ 64 -> des s = Ok a -> ok a /\ des (ser a) = Ok a.
