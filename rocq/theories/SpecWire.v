(** * SpecWire: how values are laid out as bytes (bincode 1.3, default options) and as compact
    JSON text, field by field, in the order and with the names of the struct declarations
    (src/api.rs:21-25, 102-116, 249-258, 452-470; src/db/index.rs:13-19, 121-129; src/db/kv.rs:16-20,
    84-90, 111-118, 267-276; src/db/mod.rs:77-78; bff-modp/src/bfusep32.rs:49-62, bfuse8.rs:56-66,
    xor8.rs:51-59, fuse8.rs:61-70). Written without the codecs of [Serde]. *)
From Coq Require Import String Ascii.
From Verif Require Export Base Db Api Bfusep Bfuse Xor Fuse.
Local Open Scope Z_scope.

(** ** Bytes *)

(** An unsigned integer of [k] bytes: byte [i] has weight [256^i]. *)
Definition uint_le (k : nat) (x : Z) : list Z := map (fun i => x / 256 ^ Z.of_nat i mod 256) (seq 0 k).
Definition u32 := uint_le 4. Definition u64 := uint_le 8.
Definition w_size (n : nat) : list Z := u64 (Z.of_nat n).
(** A vector: its length, then its elements. An array: its elements. *)
Definition w_array {A} (f : A -> list Z) (l : list A) : list Z := concat (map f l).
Definition w_vector {A} (f : A -> list Z) (l : list A) : list Z := w_size (length l) ++ w_array f l.
Definition bytes32 := w_array (uint_le 1).
Definition w_words := w_vector u32.
Definition w_matrix := w_vector w_words.

Definition w_filter_params (p : filter_params) : list Z :=
  bytes32 (fp_seed p) ++ u32 (fp_segment_length p) ++ u32 (fp_segment_length_mask p) ++ u32 (fp_segment_count_length p).
Definition w_index_db (d : index_db) : list Z :=
  w_matrix (id_entries d) ++ w_size (id_m d) ++ w_size (id_elem_size d) ++ w_size (id_plaintext_bits d).
Definition w_index_params (p : index_params) : list Z :=
  w_size (ip_dim p) ++ w_size (ip_m p) ++ bytes32 (ip_public_seed p) ++ w_matrix (ip_rhs p) ++
  w_size (ip_elem_size p) ++ w_size (ip_plaintext_bits p).
Definition w_key_value (x : key_value) : list Z := w_array u64 (kv_key x) ++ w_words (kv_value x).
Definition w_kv_db (d : kv_db) : list Z :=
  w_matrix (kd_entries d) ++ w_size (kd_m d) ++ w_size (kd_elem_size d) ++ w_size (kd_plaintext_bits d) ++
  w_filter_params (kd_filter_params d).
Definition w_kv_params (p : kv_params) : list Z :=
  w_size (kp_dim p) ++ w_size (kp_m p) ++ bytes32 (kp_public_seed p) ++ w_matrix (kp_rhs p) ++
  w_size (kp_elem_size p) ++ w_size (kp_plaintext_bits p) ++ w_filter_params (kp_filter_params p).
(** [PhantomData] takes no bytes; an [Option] is a byte 0, or a byte 1 and the value; a [bool] is
    a byte. *)
Definition w_query_params (extra : option (list Z)) (q : query_params) : list Z :=
  w_words (qp_lhs q) ++ w_words (qp_rhs q) ++ w_size (qp_elem_size q) ++ w_size (qp_plaintext_bits q) ++
  match extra with None => [0] | Some e => 1 :: e end ++ [if qp_used q then 1 else 0].
Definition w_bfusep (f : bfusep) : list Z :=
  bytes32 (bp_seed f) ++ u32 (bp_segment_length f) ++ u32 (bp_segment_length_mask f) ++
  u32 (bp_segment_count_length f) ++ w_words (bp_fingerprints f) ++ u64 (bp_ptxt_mod f).
(** [k] bytes per fingerprint. *)
Definition w_bfuse (k : nat) (f : bfuse) : list Z :=
  u64 (bf_seed f) ++ u32 (bf_segment_length f) ++ u32 (bf_segment_length_mask f) ++
  u32 (bf_segment_count_length f) ++ w_vector (uint_le k) (bf_fingerprints f).
Definition w_xor (k : nat) (f : xorf) : list Z :=
  u64 (xf_seed f) ++ w_size (xf_block_length f) ++ w_vector (uint_le k) (xf_fingerprints f).
Definition w_fuse (k : nat) (f : fusef) : list Z :=
  u64 (ff_seed f) ++ w_size (ff_segment_length f) ++ w_vector (uint_le k) (ff_fingerprints f).

(** ** Text *)
Definition txt (s : string) : list Z :=
  map (fun c => Z.of_nat (nat_of_ascii c)) (list_ascii_of_string s).

(** Decimal digits, most significant first, no leading zero: the digit of weight [10^i] is
    [x / 10^i mod 10], for the places below the first power of ten above [x] (a u64 has at most
    twenty). *)
Definition places (x : Z) : nat := S (length (filter (fun i => 10 ^ Z.of_nat i <=? x) (seq 1 19))).
Definition number (x : Z) : list Z := rev (map (fun i => 48 + x / 10 ^ Z.of_nat i mod 10) (seq 0 (places x))).
Definition count (n : nat) : list Z := number (Z.of_nat n).
Fixpoint commas (l : list (list Z)) : list Z :=
  match l with [] => [] | [x] => x | x :: t => x ++ txt "," ++ commas t end.
Definition t_list {A} (f : A -> list Z) (l : list A) : list Z := txt "[" ++ commas (map f l) ++ txt "]".
Definition t_numbers := t_list number.
Definition t_matrix := t_list t_numbers.
Definition t_object (l : list (string * list Z)) : list Z :=
  txt "{" ++ commas (map (fun kv => txt """" ++ txt (fst kv) ++ txt """:" ++ snd kv) l) ++ txt "}".

Definition t_filter_params (p : filter_params) : list Z :=
  t_object [("seed"%string, t_numbers (fp_seed p)); ("segment_length"%string, number (fp_segment_length p));
            ("segment_length_mask"%string, number (fp_segment_length_mask p));
            ("segment_count_length"%string, number (fp_segment_count_length p))].
Definition t_index_db (d : index_db) : list Z :=
  t_object [("entries"%string, t_matrix (id_entries d)); ("m"%string, count (id_m d));
            ("elem_size"%string, count (id_elem_size d)); ("plaintext_bits"%string, count (id_plaintext_bits d))].
Definition t_index_params (p : index_params) : list Z :=
  t_object [("dim"%string, count (ip_dim p)); ("m"%string, count (ip_m p)); ("public_seed"%string, t_numbers (ip_public_seed p));
            ("rhs"%string, t_matrix (ip_rhs p)); ("elem_size"%string, count (ip_elem_size p));
            ("plaintext_bits"%string, count (ip_plaintext_bits p))].
Definition t_key_value (x : key_value) : list Z :=
  t_object [("key"%string, t_numbers (kv_key x)); ("value"%string, t_numbers (kv_value x))].
Definition t_kv_db (d : kv_db) : list Z :=
  t_object [("entries"%string, t_matrix (kd_entries d)); ("m"%string, count (kd_m d));
            ("elem_size"%string, count (kd_elem_size d)); ("plaintext_bits"%string, count (kd_plaintext_bits d));
            ("filter_params"%string, t_filter_params (kd_filter_params d))].
Definition t_kv_params (p : kv_params) : list Z :=
  t_object [("dim"%string, count (kp_dim p)); ("m"%string, count (kp_m p)); ("public_seed"%string, t_numbers (kp_public_seed p));
            ("rhs"%string, t_matrix (kp_rhs p)); ("elem_size"%string, count (kp_elem_size p));
            ("plaintext_bits"%string, count (kp_plaintext_bits p)); ("filter_params"%string, t_filter_params (kp_filter_params p))].
Definition t_query_params (extra : list Z) (q : query_params) : list Z :=
  t_object [("lhs"%string, t_numbers (qp_lhs q)); ("rhs"%string, t_numbers (qp_rhs q));
            ("elem_size"%string, count (qp_elem_size q)); ("plaintext_bits"%string, count (qp_plaintext_bits q));
            ("db"%string, txt "null"); ("extra_params"%string, extra);
            ("used"%string, if qp_used q then txt "true" else txt "false")].
Definition t_bfusep (f : bfusep) : list Z :=
  t_object [("seed"%string, t_numbers (bp_seed f)); ("segment_length"%string, number (bp_segment_length f));
            ("segment_length_mask"%string, number (bp_segment_length_mask f));
            ("segment_count_length"%string, number (bp_segment_count_length f));
            ("fingerprints"%string, t_numbers (bp_fingerprints f)); ("ptxt_mod"%string, number (bp_ptxt_mod f))].
Definition t_bfuse (f : bfuse) : list Z :=
  t_object [("seed"%string, number (bf_seed f)); ("segment_length"%string, number (bf_segment_length f));
            ("segment_length_mask"%string, number (bf_segment_length_mask f));
            ("segment_count_length"%string, number (bf_segment_count_length f));
            ("fingerprints"%string, t_numbers (bf_fingerprints f))].
Definition t_xor (f : xorf) : list Z :=
  t_object [("seed"%string, number (xf_seed f)); ("block_length"%string, count (xf_block_length f));
            ("fingerprints"%string, t_numbers (xf_fingerprints f))].
Definition t_fuse (f : fusef) : list Z :=
  t_object [("seed"%string, number (ff_seed f)); ("segment_length"%string, count (ff_segment_length f));
            ("fingerprints"%string, t_numbers (ff_fingerprints f))].
