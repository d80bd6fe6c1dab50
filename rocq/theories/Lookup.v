(** * Lookup: one complete lookup, from the client's randomness to the text the client
    obtains. Not a function of the repository: the calls every user of src/api.rs makes in
    this order (benches/bench.rs:183-190, 236-240, 275-282, 328-332; the tests src/api.rs:496-503,
    544-555). *)
From Verif Require Export Base Api.
Local Open Scope Z_scope.

(** src/api.rs:434-439 [generate_index_query_params], 276-294 [generate_query], 71-81
    [respond], 327-330 [parse_resp_as_base64]. *)
Definition index_lookup (prg : list Z -> nat -> Z) (dbg : bool) (sh : shard) (r : nat)
    (tape : list Z) : res (list Z) :=
  let* (qp, _) := generate_index_query_params (index_common_params prg (sh_params sh)) (sh_params sh) tape in
  let (qp, q) := index_generate_query dbg qp r in
  let* q := q in
  let* bytes := shard_respond sh q in
  let* resp := bincode_de_vec_u32 bytes in
  index_parse_resp_as_base64 dbg qp resp.

(** src/utils.rs:255-283 (the digest of the key text), src/api.rs:442-447, 348-364, 218-227,
    418-430. *)
Definition kv_lookup (sha256 : list Z -> list Z) (prg : list Z -> nat -> Z) (dbg : bool)
    (sh : kv_shard) (key_text tape : list Z) : res (list Z) :=
  let* key := sha256_into_u64_sized sha256 key_text in
  let* (qp, _) := generate_kv_query_params (kv_common_params prg (ks_params sh)) (ks_params sh) tape in
  let (qp, q) := kv_generate_query dbg qp key in
  let* q := q in
  let* bytes := kv_shard_respond sh q in
  let* resp := bincode_de_vec_u32 bytes in
  kv_parse_resp_as_base64 dbg qp resp key.

(** The client holds a text different from [expected]. An index query may also be refused
    (src/api.rs:288-293, see C74): then the client holds nothing and may try again. *)
Definition wrong_text (expected : list Z) (r : res (list Z)) : bool :=
  match r with
  | Ok s => if list_eq_dec Z.eq_dec s expected then false else true
  | Err EOverflownAdd => false
  | _ => true
  end.
