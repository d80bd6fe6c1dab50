(** * Serde: [#[derive(Serialize, Deserialize)]] of the library's structures, through the two
    formats the code base uses: bincode 1.3.3 ([serialize] / [deserialize]: fixed-width
    little-endian integers, u64 lengths, trailing bytes allowed) and serde_json. External
    crates: modelled from their documented behaviour. The derives are at src/db/kv.rs:16, 35,
    84, 111, 267, src/db/index.rs:13, 121, src/db/mod.rs:77, src/api.rs:21, 102, 112, 249,
    452, 461, 469 and, with feature "serde", on every filter of bff-modp. *)
From Coq Require Import String.
From Verif Require Export Base Db Api Json Files Bfusep Bfuse Xor Fuse.
Local Open Scope Z_scope.

(** ** bincode *)
Record bcodec (A : Type) : Type := { benc : A -> list Z; bdec : list Z -> option (A * list Z) }.
Arguments benc {A}. Arguments bdec {A}.

(** An unsigned integer of [k] bytes: u8, u32, u64. *)
Definition b_uint (k : nat) : bcodec Z :=
  {| benc := le_bytes k;
     bdec := fun s => if (length s <? k)%nat then None else Some (of_le_bytes (firstn k s), skipn k s) |}.
(** Change of representation (struct from its fields, newtype from its content). *)
Definition b_iso {A B} (f : A -> B) (g : B -> A) (c : bcodec A) : bcodec B :=
  {| benc := fun b : B => benc c (g b);
     bdec := fun s => match bdec c s with Some (a, r) => Some (f a, r) | None => None end |}.
(** [usize] travels as u64. *)
Definition b_usize : bcodec nat := b_iso Z.to_nat Z.of_nat (b_uint 8).
(** One byte, 0 or 1; anything else is an error. *)
Definition b_bool : bcodec bool :=
  {| benc := fun b : bool => [if b then 1 else 0];
     bdec := fun s => match s with
                      | x :: r => if x =? 0 then Some (false, r) else if x =? 1 then Some (true, r) else None
                      | [] => None end |}.
Definition b_opt {A} (c : bcodec A) : bcodec (option A) :=
  {| benc := fun o : option A => match o with None => [0] | Some a => 1 :: benc c a end;
     bdec := fun s => match s with
                      | x :: r => if x =? 0 then Some (None, r)
                                  else if x =? 1 then
                                    match bdec c r with Some (a, r) => Some (Some a, r) | None => None end
                                  else None
                      | [] => None end |}.
(** [PhantomData], structs without fields: no bytes. *)
Definition b_unit : bcodec unit := {| benc := fun _ : unit => []; bdec := fun s => Some (tt, s) |}.
Definition b_pair {A B} (c : bcodec A) (d : bcodec B) : bcodec (A * B) :=
  {| benc := fun ab : A * B => (benc c (fst ab) ++ benc d (snd ab))%list;
     bdec := fun s => match bdec c s with
                      | Some (a, r) => match bdec d r with Some (b, r) => Some ((a, b), r) | None => None end
                      | None => None end |}.
Fixpoint bdec_n {A} (c : bcodec A) (n : nat) (s : list Z) : option (list A * list Z) :=
  match n with
  | O => Some ([], s)
  | S k => match bdec c s with
           | Some (a, r) => match bdec_n c k r with Some (l, r) => Some (a :: l, r) | None => None end
           | None => None end
  end.
(** [[T; n]]: the elements; [Vec<T>], [Box<[T]>]: a u64 length, then the elements. *)
Definition b_arr {A} (n : nat) (c : bcodec A) : bcodec (list A) :=
  {| benc := flat_map (benc c); bdec := bdec_n c n |}.
Definition b_vec {A} (c : bcodec A) : bcodec (list A) :=
  {| benc := fun l : list A => (benc b_usize (length l) ++ flat_map (benc c) l)%list;
     bdec := fun s => match bdec b_usize s with Some (n, r) => bdec_n c n r | None => None end |}.
(** [String]: a u64 length, then bytes that must be UTF-8. *)
Definition b_str : bcodec (list Z) :=
  {| benc := benc (b_vec (b_uint 1));
     bdec := fun s => match bdec (b_vec (b_uint 1)) s with
                      | Some (l, r) => if is_utf8 l then Some (l, r) else None
                      | None => None end |}.

(** [bincode::serialize], [bincode::deserialize]. *)
Definition bin_serialize {A} (c : bcodec A) (a : A) : list Z := benc c a.
Definition bin_deserialize {A} (c : bcodec A) (s : list Z) : res A :=
  match bdec c s with Some (a, _) => Ok a | None => Err EDeserialize end.

Definition b_u8 := b_uint 1. Definition b_u32 := b_uint 4. Definition b_u64 := b_uint 8.
Definition b_seed : bcodec (list Z) := b_arr 32 b_u8.
Definition b_words : bcodec (list Z) := b_vec b_u32.
Definition b_matrix : bcodec (list (list Z)) := b_vec (b_vec b_u32).

(** src/api.rs:452-466 [Query], [Response]; src/db/mod.rs:77-78 [CommonParams]: newtypes. *)
Definition b_query := b_words. Definition b_response := b_words. Definition b_common_params := b_matrix.
(** src/db/kv.rs:84-90 [FilterParams]. *)
Definition b_filter_params : bcodec filter_params :=
  b_iso (fun '(s, (a, (b, c))) => {| fp_seed := s; fp_segment_length := a; fp_segment_length_mask := b; fp_segment_count_length := c |})
        (fun p => (fp_seed p, (fp_segment_length p, (fp_segment_length_mask p, fp_segment_count_length p))))
        (b_pair b_seed (b_pair b_u32 (b_pair b_u32 b_u32))).
(** src/db/index.rs:13-19 [IndexDatabase]. *)
Definition b_index_db : bcodec index_db :=
  b_iso (fun '(e, (m, (s, p))) => {| id_entries := e; id_m := m; id_elem_size := s; id_plaintext_bits := p |})
        (fun d => (id_entries d, (id_m d, (id_elem_size d, id_plaintext_bits d))))
        (b_pair b_matrix (b_pair b_usize (b_pair b_usize b_usize))).
(** src/db/index.rs:121-129 [IndexParams]. *)
Definition b_index_params : bcodec index_params :=
  b_iso (fun '(d, (m, (s, (r, (e, p))))) => {| ip_dim := d; ip_m := m; ip_public_seed := s; ip_rhs := r; ip_elem_size := e; ip_plaintext_bits := p |})
        (fun q => (ip_dim q, (ip_m q, (ip_public_seed q, (ip_rhs q, (ip_elem_size q, ip_plaintext_bits q))))))
        (b_pair b_usize (b_pair b_usize (b_pair b_seed (b_pair b_matrix (b_pair b_usize b_usize))))).
(** src/api.rs:21-25 [Shard]. *)
Definition b_shard : bcodec shard :=
  b_iso (fun '(d, p) => {| sh_db := d; sh_params := p |}) (fun s => (sh_db s, sh_params s)) (b_pair b_index_db b_index_params).
(** src/db/kv.rs:16-20 [KeyValue]. *)
Definition b_key_value : bcodec key_value :=
  b_iso (fun '(k, v) => {| kv_key := k; kv_value := v |}) (fun x => (kv_key x, kv_value x)) (b_pair (b_arr 4 b_u64) b_words).
(** src/db/kv.rs:111-118 [KVDatabase]. *)
Definition b_kv_db : bcodec kv_db :=
  b_iso (fun '(e, (m, (s, (p, f)))) => {| kd_entries := e; kd_m := m; kd_elem_size := s; kd_plaintext_bits := p; kd_filter_params := f |})
        (fun d => (kd_entries d, (kd_m d, (kd_elem_size d, (kd_plaintext_bits d, kd_filter_params d)))))
        (b_pair b_matrix (b_pair b_usize (b_pair b_usize (b_pair b_usize b_filter_params)))).
(** src/db/kv.rs:267-276 [KVParams]. *)
Definition b_kv_params : bcodec kv_params :=
  b_iso (fun '(d, (m, (s, (r, (e, (p, f)))))) => {| kp_dim := d; kp_m := m; kp_public_seed := s; kp_rhs := r; kp_elem_size := e; kp_plaintext_bits := p; kp_filter_params := f |})
        (fun q => (kp_dim q, (kp_m q, (kp_public_seed q, (kp_rhs q, (kp_elem_size q, (kp_plaintext_bits q, kp_filter_params q)))))))
        (b_pair b_usize (b_pair b_usize (b_pair b_seed (b_pair b_matrix (b_pair b_usize (b_pair b_usize b_filter_params)))))).
(** src/api.rs:112-116 [KVShard]. *)
Definition b_kv_shard : bcodec kv_shard :=
  b_iso (fun '(d, p) => {| ks_db := d; ks_params := p |}) (fun s => (ks_db s, ks_params s)) (b_pair b_kv_db b_kv_params).
(** src/api.rs:102-106 [EncodedKV]. *)
Definition b_encoded_kv : bcodec (list Z * list Z) := b_pair b_str b_str.
(** src/api.rs:249-258 [QueryParams<KVDatabase, FilterParams>]; the [PhantomData] field comes
    before [extra_params]. *)
Definition b_kv_query_params : bcodec query_params :=
  b_iso (fun '(l, (r, (e, (p, (_, (x, u)))))) => {| qp_lhs := l; qp_rhs := r; qp_elem_size := e; qp_plaintext_bits := p; qp_extra := x; qp_used := u |})
        (fun q => (qp_lhs q, (qp_rhs q, (qp_elem_size q, (qp_plaintext_bits q, (tt, (qp_extra q, qp_used q)))))))
        (b_pair b_words (b_pair b_words (b_pair b_usize (b_pair b_usize (b_pair b_unit (b_pair (b_opt b_filter_params) b_bool)))))).
(** [QueryParams<IndexDatabase, EmptyAuxParams>]: [extra_params] is [None] or [Some(EmptyAuxParams {})];
    the model keeps no trace of the second, which behaves the same. *)
Definition b_index_query_params : bcodec query_params :=
  b_iso (fun '(l, (r, (e, (p, (_, (_, u)))))) => {| qp_lhs := l; qp_rhs := r; qp_elem_size := e; qp_plaintext_bits := p; qp_extra := None; qp_used := u |})
        (fun q => (qp_lhs q, (qp_rhs q, (qp_elem_size q, (qp_plaintext_bits q, (tt, (None, qp_used q)))))))
        (b_pair b_words (b_pair b_words (b_pair b_usize (b_pair b_usize (b_pair b_unit (b_pair (b_opt b_unit) b_bool)))))).
(** bff-modp/src/bfusep32.rs:49-62 [BinaryFuseP32]. *)
Definition b_bfusep : bcodec bfusep :=
  b_iso (fun '(s, (a, (b, (c, (f, p))))) => {| bp_seed := s; bp_segment_length := a; bp_segment_length_mask := b; bp_segment_count_length := c; bp_fingerprints := f; bp_ptxt_mod := p |})
        (fun q => (bp_seed q, (bp_segment_length q, (bp_segment_length_mask q, (bp_segment_count_length q, (bp_fingerprints q, bp_ptxt_mod q))))))
        (b_pair b_seed (b_pair b_u32 (b_pair b_u32 (b_pair b_u32 (b_pair b_words b_u64))))).
(** bff-modp/src/bfuse{8,16,32}.rs:56-66; [k] bytes per fingerprint. *)
Definition b_bfuse (k : nat) : bcodec bfuse :=
  b_iso (fun '(s, (a, (b, (c, f)))) => {| bf_seed := s; bf_segment_length := a; bf_segment_length_mask := b; bf_segment_count_length := c; bf_fingerprints := f |})
        (fun q => (bf_seed q, (bf_segment_length q, (bf_segment_length_mask q, (bf_segment_count_length q, bf_fingerprints q)))))
        (b_pair b_u64 (b_pair b_u32 (b_pair b_u32 (b_pair b_u32 (b_vec (b_uint k)))))).
(** bff-modp/src/xor{8,16,32}.rs:51-59, fuse{8,16,32}.rs:61-70. *)
Definition b_xor (k : nat) : bcodec xorf :=
  b_iso (fun '(s, (a, f)) => {| xf_seed := s; xf_block_length := a; xf_fingerprints := f |})
        (fun q => (xf_seed q, (xf_block_length q, xf_fingerprints q)))
        (b_pair b_u64 (b_pair b_usize (b_vec (b_uint k)))).
Definition b_fuse (k : nat) : bcodec fusef :=
  b_iso (fun '(s, (a, f)) => {| ff_seed := s; ff_segment_length := a; ff_fingerprints := f |})
        (fun q => (ff_seed q, (ff_segment_length q, ff_fingerprints q)))
        (b_pair b_u64 (b_pair b_usize (b_vec (b_uint k)))).

(** ** serde_json *)
Record jcodec (A : Type) : Type := { jenc : A -> json; jdec : json -> option A }.
Arguments jenc {A}. Arguments jdec {A}.
Definition j_iso {A B} (f : A -> B) (g : B -> A) (c : jcodec A) : jcodec B :=
  {| jenc := fun b : B => jenc c (g b);
     jdec := fun v => match jdec c v with Some a => Some (f a) | None => None end |}.
Definition j_uint (k : nat) : jcodec Z := {| jenc := JInt; jdec := de_uint (256 ^ Z.of_nat k) |}.
Definition j_usize : jcodec nat := j_iso Z.to_nat Z.of_nat (j_uint 8).
Definition j_bool : jcodec bool := {| jenc := JBool; jdec := fun v => match v with JBool b => Some b | _ => None end |}.
Definition j_null : jcodec unit := {| jenc := fun _ : unit => JNull; jdec := fun v => match v with JNull => Some tt | _ => None end |}.
(** [Option]: null, or the value itself. *)
Definition j_opt {A} (c : jcodec A) : jcodec (option A) :=
  {| jenc := fun o : option A => match o with None => JNull | Some a => jenc c a end;
     jdec := fun v => match v with JNull => Some None | _ => match jdec c v with Some a => Some (Some a) | None => None end end |}.
Definition j_vec {A} (c : jcodec A) : jcodec (list A) :=
  {| jenc := fun l : list A => JArr (map (jenc c) l); jdec := de_vec (jdec c) |}.
Definition j_arr {A} (n : nat) (c : jcodec A) : jcodec (list A) :=
  {| jenc := fun l : list A => JArr (map (jenc c) l);
     jdec := fun v => match de_vec (jdec c) v with
                      | Some l => if (length l =? n)%nat then Some l else None
                      | None => None end |}.
Definition j_str : jcodec (list Z) := {| jenc := JStr; jdec := de_string |}.
(** The fields of a struct: names, names of the [Option] fields, values. *)
Record fcodec (A : Type) : Type :=
  { fnames : list (list Z); foptional : list (list Z); fenc : A -> list json; fdec : list json -> option A }.
Arguments fnames {A}. Arguments foptional {A}. Arguments fenc {A}. Arguments fdec {A}.
Definition f_nil : fcodec unit :=
  {| fnames := []; foptional := []; fenc := fun _ : unit => []; fdec := fun l => match l with [] => Some tt | _ => None end |}.
Definition f_cons {A B} (name : string) (c : jcodec A) (d : fcodec B) : fcodec (A * B) :=
  {| fnames := bytes_of name :: fnames d; foptional := foptional d;
     fenc := fun ab : A * B => jenc c (fst ab) :: fenc d (snd ab);
     fdec := fun l => match l with
                      | v :: t => match jdec c v, fdec d t with Some a, Some b => Some (a, b) | _, _ => None end
                      | [] => None end |}.
(** A field of [Option] type. *)
Definition f_opt {A B} (name : string) (c : jcodec A) (d : fcodec B) : fcodec (option A * B) :=
  let e := f_cons name (j_opt c) d in
  {| fnames := fnames e; foptional := bytes_of name :: foptional d; fenc := fenc e; fdec := fdec e |}.
(** In an object (not in a sequence), an [Option] field that is absent is read as [None], as
    if it were there with the value null. *)
Definition null_missing (names : list (list Z)) (v : json) : json :=
  match v with
  | JObj l => JObj (l ++ map (fun k => (k, JNull)) (filter (fun k => negb (existsb (fun kv => beq (fst kv) k) l)) names))
  | _ => v
  end.
Definition j_struct {A} (c : fcodec A) : jcodec A :=
  {| jenc := fun a => JObj (combine (fnames c) (fenc c a));
     jdec := fun v => match struct_fields (fnames c) (null_missing (foptional c) v) with Some l => fdec c l | None => None end |}.

(** [serde_json::to_string] (or [to_writer]), [serde_json::from_str]. *)
Definition json_to_string {A} (c : jcodec A) (a : A) : list Z := write_json (jenc c a).
Definition json_from_str {A} (c : jcodec A) (s : list Z) : res A :=
  of_opt (match parse_text s with Some v => jdec c v | None => None end).

Definition j_u8 := j_uint 1. Definition j_u32 := j_uint 4. Definition j_u64 := j_uint 8.
Definition j_seed : jcodec (list Z) := j_arr 32 j_u8.
Definition j_words : jcodec (list Z) := j_vec j_u32.
Definition j_matrix : jcodec (list (list Z)) := j_vec (j_vec j_u32).
Definition j_query := j_words. Definition j_response := j_words. Definition j_common_params := j_matrix.
Definition j_filter_params : jcodec filter_params :=
  j_iso (fun '(s, (a, (b, (c, _)))) => {| fp_seed := s; fp_segment_length := a; fp_segment_length_mask := b; fp_segment_count_length := c |})
        (fun p => (fp_seed p, (fp_segment_length p, (fp_segment_length_mask p, (fp_segment_count_length p, tt)))))
        (j_struct (f_cons "seed"%string j_seed (f_cons "segment_length"%string j_u32 (f_cons "segment_length_mask"%string j_u32
          (f_cons "segment_count_length"%string j_u32 f_nil))))).
Definition j_index_db : jcodec index_db :=
  j_iso (fun '(e, (m, (s, (p, _)))) => {| id_entries := e; id_m := m; id_elem_size := s; id_plaintext_bits := p |})
        (fun d => (id_entries d, (id_m d, (id_elem_size d, (id_plaintext_bits d, tt)))))
        (j_struct (f_cons "entries"%string j_matrix (f_cons "m"%string j_usize (f_cons "elem_size"%string j_usize (f_cons "plaintext_bits"%string j_usize f_nil))))).
Definition j_index_params : jcodec index_params :=
  j_iso (fun '(d, (m, (s, (r, (e, (p, _)))))) => {| ip_dim := d; ip_m := m; ip_public_seed := s; ip_rhs := r; ip_elem_size := e; ip_plaintext_bits := p |})
        (fun q => (ip_dim q, (ip_m q, (ip_public_seed q, (ip_rhs q, (ip_elem_size q, (ip_plaintext_bits q, tt)))))))
        (j_struct (f_cons "dim"%string j_usize (f_cons "m"%string j_usize (f_cons "public_seed"%string j_seed (f_cons "rhs"%string j_matrix
          (f_cons "elem_size"%string j_usize (f_cons "plaintext_bits"%string j_usize f_nil))))))).
Definition j_shard : jcodec shard :=
  j_iso (fun '(d, (p, _)) => {| sh_db := d; sh_params := p |}) (fun s => (sh_db s, (sh_params s, tt)))
        (j_struct (f_cons "db"%string j_index_db (f_cons "base_params"%string j_index_params f_nil))).
Definition j_key_value : jcodec key_value :=
  j_iso (fun '(k, (v, _)) => {| kv_key := k; kv_value := v |}) (fun x => (kv_key x, (kv_value x, tt)))
        (j_struct (f_cons "key"%string (j_arr 4 j_u64) (f_cons "value"%string j_words f_nil))).
Definition j_kv_db : jcodec kv_db :=
  j_iso (fun '(e, (m, (s, (p, (f, _))))) => {| kd_entries := e; kd_m := m; kd_elem_size := s; kd_plaintext_bits := p; kd_filter_params := f |})
        (fun d => (kd_entries d, (kd_m d, (kd_elem_size d, (kd_plaintext_bits d, (kd_filter_params d, tt))))))
        (j_struct (f_cons "entries"%string j_matrix (f_cons "m"%string j_usize (f_cons "elem_size"%string j_usize (f_cons "plaintext_bits"%string j_usize
          (f_cons "filter_params"%string j_filter_params f_nil)))))).
Definition j_kv_params : jcodec kv_params :=
  j_iso (fun '(d, (m, (s, (r, (e, (p, (f, _))))))) => {| kp_dim := d; kp_m := m; kp_public_seed := s; kp_rhs := r; kp_elem_size := e; kp_plaintext_bits := p; kp_filter_params := f |})
        (fun q => (kp_dim q, (kp_m q, (kp_public_seed q, (kp_rhs q, (kp_elem_size q, (kp_plaintext_bits q, (kp_filter_params q, tt))))))))
        (j_struct (f_cons "dim"%string j_usize (f_cons "m"%string j_usize (f_cons "public_seed"%string j_seed (f_cons "rhs"%string j_matrix
          (f_cons "elem_size"%string j_usize (f_cons "plaintext_bits"%string j_usize (f_cons "filter_params"%string j_filter_params f_nil)))))))).
Definition j_kv_shard : jcodec kv_shard :=
  j_iso (fun '(d, (p, _)) => {| ks_db := d; ks_params := p |}) (fun s => (ks_db s, (ks_params s, tt)))
        (j_struct (f_cons "db"%string j_kv_db (f_cons "base_params"%string j_kv_params f_nil))).
Definition j_encoded_kv : jcodec (list Z * list Z) :=
  j_iso (fun '(k, (v, _)) => (k, v)) (fun x => (fst x, (snd x, tt))) (j_struct (f_cons "key"%string j_str (f_cons "value"%string j_str f_nil))).
Definition j_kv_query_params : jcodec query_params :=
  j_iso (fun '(l, (r, (e, (p, (_, (x, (u, _))))))) => {| qp_lhs := l; qp_rhs := r; qp_elem_size := e; qp_plaintext_bits := p; qp_extra := x; qp_used := u |})
        (fun q => (qp_lhs q, (qp_rhs q, (qp_elem_size q, (qp_plaintext_bits q, (tt, (qp_extra q, (qp_used q, tt))))))))
        (j_struct (f_cons "lhs"%string j_words (f_cons "rhs"%string j_words (f_cons "elem_size"%string j_usize (f_cons "plaintext_bits"%string j_usize
          (f_cons "db"%string j_null (f_opt "extra_params"%string j_filter_params (f_cons "used"%string j_bool f_nil)))))))).
Definition j_index_query_params : jcodec query_params :=
  j_iso (fun '(l, (r, (e, (p, (_, (_, (u, _))))))) => {| qp_lhs := l; qp_rhs := r; qp_elem_size := e; qp_plaintext_bits := p; qp_extra := None; qp_used := u |})
        (fun q => (qp_lhs q, (qp_rhs q, (qp_elem_size q, (qp_plaintext_bits q, (tt, (None, (qp_used q, tt))))))))
        (j_struct (f_cons "lhs"%string j_words (f_cons "rhs"%string j_words (f_cons "elem_size"%string j_usize (f_cons "plaintext_bits"%string j_usize
          (f_cons "db"%string j_null (f_opt "extra_params"%string (j_struct f_nil) (f_cons "used"%string j_bool f_nil)))))))).
Definition j_bfusep : jcodec bfusep :=
  j_iso (fun '(s, (a, (b, (c, (f, (p, _)))))) => {| bp_seed := s; bp_segment_length := a; bp_segment_length_mask := b; bp_segment_count_length := c; bp_fingerprints := f; bp_ptxt_mod := p |})
        (fun q => (bp_seed q, (bp_segment_length q, (bp_segment_length_mask q, (bp_segment_count_length q, (bp_fingerprints q, (bp_ptxt_mod q, tt)))))))
        (j_struct (f_cons "seed"%string j_seed (f_cons "segment_length"%string j_u32 (f_cons "segment_length_mask"%string j_u32 (f_cons "segment_count_length"%string j_u32
          (f_cons "fingerprints"%string j_words (f_cons "ptxt_mod"%string j_u64 f_nil))))))).
Definition j_bfuse (k : nat) : jcodec bfuse :=
  j_iso (fun '(s, (a, (b, (c, (f, _))))) => {| bf_seed := s; bf_segment_length := a; bf_segment_length_mask := b; bf_segment_count_length := c; bf_fingerprints := f |})
        (fun q => (bf_seed q, (bf_segment_length q, (bf_segment_length_mask q, (bf_segment_count_length q, (bf_fingerprints q, tt))))))
        (j_struct (f_cons "seed"%string j_u64 (f_cons "segment_length"%string j_u32 (f_cons "segment_length_mask"%string j_u32 (f_cons "segment_count_length"%string j_u32
          (f_cons "fingerprints"%string (j_vec (j_uint k)) f_nil)))))).
Definition j_xor (k : nat) : jcodec xorf :=
  j_iso (fun '(s, (a, (f, _))) => {| xf_seed := s; xf_block_length := a; xf_fingerprints := f |})
        (fun q => (xf_seed q, (xf_block_length q, (xf_fingerprints q, tt))))
        (j_struct (f_cons "seed"%string j_u64 (f_cons "block_length"%string j_usize (f_cons "fingerprints"%string (j_vec (j_uint k)) f_nil)))).
Definition j_fuse (k : nat) : jcodec fusef :=
  j_iso (fun '(s, (a, (f, _))) => {| ff_seed := s; ff_segment_length := a; ff_fingerprints := f |})
        (fun q => (ff_seed q, (ff_segment_length q, (ff_fingerprints q, tt))))
        (j_struct (f_cons "seed"%string j_u64 (f_cons "segment_length"%string j_usize (f_cons "fingerprints"%string (j_vec (j_uint k)) f_nil)))).
