(** Property theorems; each restates a lemma proved in Claims_index.v. *)
From Coq Require Import Permutation.
From Verif Require Import Base Spec Fmt Base64 Bincode Mat Lwe Db Api History SpecHist Claims_format Claims_index.
Local Open Scope Z_scope.

(** C14: End-to-end index retrieval. A shard built from base64 strings, common params and query
    params derived from its public params with any OsRng tape, a successful query for row r,
    the server's serialized answer: the client decodes a row, and that row is exactly the
    plaintext chunks of element r if and only if, for every column, the inner product of the
    drawn error (the m ternary draws after the secret's dim draws) with the column is
    congruent mod 2^32 to a number in (-delta/2, delta/2]. *)
Theorem C14_index_retrieval :
  forall (prg : list Z -> nat -> Z) (dbg : bool) (seed : list Z) (strs elems : list (list Z))
         (dim m es pb w : nat) (sh : shard) (tape rest : list Z) (qp qp' : query_params)
         (r : nat) (q : list Z),
    (1 <= pb <= 31)%nat -> is_ceil_div es pb w -> Z.of_nat es < 2 ^ 64 ->
    shard_from_base64_strings prg dbg seed strs dim m es pb = Ok sh ->
    length elems = m ->
    (forall i, (i < m)%nat -> b64_decode (nth i strs []) = Ok (nth i elems [])) ->
    generate_index_query_params (index_common_params prg (sh_params sh)) (sh_params sh) tape
      = Ok (qp, rest) ->
    index_generate_query dbg qp r = (qp', Ok q) ->
    exists bytes resp row,
      shard_respond sh q = Ok bytes /\ bincode_de_vec_u32 bytes = Ok resp /\
      index_parse_resp_as_row dbg qp' resp = Ok row /\ length row = w /\
      (row = map (chunk (nth r elems []) pb) (seq 0 w) <->
       forall c, (c < w)%nat ->
         congruent_in (dot (firstn m (skipn dim (draws tape))) (column elems pb c))
                      (- 2 ^ (31 - Z.of_nat pb)) (2 ^ (31 - Z.of_nat pb))).
Proof. exact index_retrieval. Qed.
Print Assumptions C14_index_retrieval.

(** C14: The same at the level of bytes and base64: under the noise condition and with
    plaintext_bits not dividing elem_size, the client obtains elem_size bits of element r. *)
Theorem C14_index_retrieval_bytes :
  forall (prg : list Z -> nat -> Z) (dbg : bool) (seed : list Z) (strs elems : list (list Z))
         (dim m es pb w : nat) (sh : shard) (tape rest : list Z) (qp qp' : query_params)
         (r : nat) (q : list Z),
    (1 <= pb <= 31)%nat -> is_ceil_div es pb w -> Z.of_nat es < 2 ^ 64 -> (es mod pb <> 0)%nat ->
    shard_from_base64_strings prg dbg seed strs dim m es pb = Ok sh ->
    length elems = m ->
    (forall i, (i < m)%nat -> b64_decode (nth i strs []) = Ok (nth i elems [])) ->
    generate_index_query_params (index_common_params prg (sh_params sh)) (sh_params sh) tape
      = Ok (qp, rest) ->
    index_generate_query dbg qp r = (qp', Ok q) ->
    (forall c, (c < w)%nat ->
       congruent_in (dot (firstn m (skipn dim (draws tape))) (column elems pb c))
                    (- 2 ^ (31 - Z.of_nat pb)) (2 ^ (31 - Z.of_nat pb))) ->
    exists bytes resp out,
      shard_respond sh q = Ok bytes /\ bincode_de_vec_u32 bytes = Ok resp /\
      index_parse_resp_as_bytes dbg qp' resp = Ok out /\
      index_parse_resp_as_base64 dbg qp' resp = Ok (b64_encode out) /\
      length out = ((es + 7) / 8)%nat /\
      byte_string_bits out =
        fit es (byte_string_bits (nth r elems [])) ++ repeat false (8 * length out - es).
Proof. exact index_retrieval_bytes. Qed.
Print Assumptions C14_index_retrieval_bytes.

(** C15: Below the worst-case bound m * (2^plaintext_bits - 1) < 2^(31 - plaintext_bits), every
    successful query decodes to the right row whatever the randomness (secret, error, seed,
    generator). *)
Theorem C15_index_retrieval_unconditional :
  forall (prg : list Z -> nat -> Z) (dbg : bool) (seed : list Z) (strs elems : list (list Z))
         (dim m es pb w : nat) (sh : shard) (tape rest : list Z) (qp qp' : query_params)
         (r : nat) (q : list Z),
    (1 <= pb <= 31)%nat -> is_ceil_div es pb w -> Z.of_nat es < 2 ^ 64 ->
    Z.of_nat m * (2 ^ Z.of_nat pb - 1) < 2 ^ (31 - Z.of_nat pb) ->
    shard_from_base64_strings prg dbg seed strs dim m es pb = Ok sh ->
    length elems = m ->
    (forall i, (i < m)%nat -> b64_decode (nth i strs []) = Ok (nth i elems [])) ->
    generate_index_query_params (index_common_params prg (sh_params sh)) (sh_params sh) tape
      = Ok (qp, rest) ->
    index_generate_query dbg qp r = (qp', Ok q) ->
    exists bytes resp,
      shard_respond sh q = Ok bytes /\ bincode_de_vec_u32 bytes = Ok resp /\
      index_parse_resp_as_row dbg qp' resp = Ok (map (chunk (nth r elems []) pb) (seq 0 w)).
Proof. exact index_retrieval_unconditional. Qed.
Print Assumptions C15_index_retrieval_unconditional.

(** C15: example: the bound is met by m = 2000 rows of 10-bit
    chunks (2000 * 1023 < 2^21) and by a concrete run with 3 rows. *)
Example C15_unconditional_example :
  2000 * (2 ^ 10 - 1) < 2 ^ (31 - 10) /\
  let prg := fun (s : list Z) (k : nat) => (Z.of_nat k * 2654435761 + 12345) mod 2 ^ 32 in
  let strs := map b64_encode [[1; 2]; [255; 128]; [7; 9]] in
  exists sh qp rest qp' q bytes resp,
    shard_from_base64_strings prg true [] strs 2 3 16 10 = Ok sh /\
    generate_index_query_params (index_common_params prg (sh_params sh)) (sh_params sh)
       [5; 3000000000; 4294967295; 0; 4000000000; 2000000000] = Ok (qp, rest) /\
    index_generate_query true qp 1 = (qp', Ok q) /\
    shard_respond sh q = Ok bytes /\ bincode_de_vec_u32 bytes = Ok resp /\
    index_parse_resp_as_bytes true qp' resp = Ok [255; 128].
Proof. exact unconditional_example. Qed.

(** C16: Refuted: a shard the constructor accepts, a query that succeeds, and a decoded element
    different from the stored one: nothing relates m and plaintext_bits to the noise. *)
Theorem C16_index_always_correct_refuted :
  exists (prg : list Z -> nat -> Z) (elem tape : list Z) (dim m es pb : nat),
    (1 <= pb <= 31)%nat /\ (es mod pb <> 0)%nat /\ (8 * length elem = es)%nat /\
    forall dbg, exists sh qp rest qp' q bytes resp out,
      shard_from_base64_strings prg dbg [] [b64_encode elem] dim m es pb = Ok sh /\
      generate_index_query_params (index_common_params prg (sh_params sh)) (sh_params sh) tape
        = Ok (qp, rest) /\
      index_generate_query dbg qp 0 = (qp', Ok q) /\
      shard_respond sh q = Ok bytes /\ bincode_de_vec_u32 bytes = Ok resp /\
      index_parse_resp_as_bytes dbg qp' resp = Ok out /\ out <> elem.
Proof. exact index_always_correct_refuted. Qed.
Print Assumptions C16_index_always_correct_refuted.

(** C17: Index: over every history of queries, clones and assignments to [used] starting from
    one object, the number of queries produced is at most 1 + clones + resets. *)
Theorem C17_index_queries_bounded :
  forall (dbg : bool) (qp : query_params) (acts : list (action nat))
         (objs : list query_params) (outs : list (res (list Z))),
    hist_run (index_generate_query dbg) [qp] acts = (objs, outs) ->
    (length (filter (fun o => match o with Ok _ => true | _ => false end) outs) <=
     1 + length (filter (fun a => match a with AClone _ => true | _ => false end) acts)
       + length (filter (fun a => match a with ASetUsed _ false => true | _ => false end) acts))%nat.
Proof. exact index_queries_bounded. Qed.
Print Assumptions C17_index_queries_bounded.

(** C17: Key-value: the same bound. *)
Theorem C17_kv_queries_bounded :
  forall (dbg : bool) (qp : query_params) (acts : list (action (list Z)))
         (objs : list query_params) (outs : list (res (list Z))),
    hist_run (kv_generate_query dbg) [qp] acts = (objs, outs) ->
    (length (filter (fun o => match o with Ok _ => true | _ => false end) outs) <=
     1 + length (filter (fun a => match a with AClone _ => true | _ => false end) acts)
       + length (filter (fun a => match a with ASetUsed _ false => true | _ => false end) acts))%nat.
Proof. exact kv_queries_bounded. Qed.
Print Assumptions C17_kv_queries_bounded.

(** C17: Without clones or resets only the first call can produce a query, whatever it returned
    (query, error or panic): every later call is refused and changes nothing. *)
Theorem C17_index_single_use :
  forall (dbg : bool) (qp : query_params) (x : nat) (xs : list nat),
    exists r, snd (index_generate_query dbg qp x) = r /\
      hist_run (index_generate_query dbg) [qp] (map (AQuery 0) (x :: xs)) =
      ([set_used true qp], r :: repeat (Err EParamsReused) (length xs)).
Proof. exact index_single_use. Qed.
Print Assumptions C17_index_single_use.

(** C17: The same for key-value query params. *)
Theorem C17_kv_single_use :
  forall (dbg : bool) (qp : query_params) (x : list Z) (xs : list (list Z)),
    exists r, snd (kv_generate_query dbg qp x) = r /\
      hist_run (kv_generate_query dbg) [qp] (map (AQuery 0) (x :: xs)) =
      ([set_used true qp], r :: repeat (Err EParamsReused) (length xs)).
Proof. exact kv_single_use. Qed.
Print Assumptions C17_kv_single_use.

(** C17: Every outcome of every history is determined: the objects held at the end differ from
    the original in nothing but the flag, each flag is what the single-use reading says, a query
    on a spent object is refused with the reuse error, and a query on an unspent one gives exactly
    what the original gives when fresh. *)
Theorem C17_index_history_exact :
  forall (dbg : bool) (qp : query_params) (acts : list (action nat)),
    let told := single_use (fun x => snd (index_generate_query dbg (set_used false qp) x))
                  [qp_used qp] acts in
    hist_run (index_generate_query dbg) [qp] acts =
    (map (fun b => set_used b qp) (fst told), snd told).
Proof. exact index_history_exact. Qed.
Print Assumptions C17_index_history_exact.

(** C17: The same for key-value query params. *)
Theorem C17_kv_history_exact :
  forall (dbg : bool) (qp : query_params) (acts : list (action (list Z))),
    let told := single_use (fun x => snd (kv_generate_query dbg (set_used false qp) x))
                  [qp_used qp] acts in
    hist_run (kv_generate_query dbg) [qp] acts =
    (map (fun b => set_used b qp) (fst told), snd told).
Proof. exact kv_history_exact. Qed.
Print Assumptions C17_kv_history_exact.

(** C17: example: the bound is reached: one fresh object, one clone made before use, one reset:
    three queries; a fourth is refused. *)
Example C17_single_use_example :
  let qp := {| qp_lhs := [1; 2; 3]; qp_rhs := []; qp_elem_size := 8; qp_plaintext_bits := 8;
               qp_extra := None; qp_used := false |} in
  snd (hist_run (index_generate_query true) [qp]
        [AClone 0; AQuery 0 1%nat; AQuery 1 2%nat; ASetUsed 0 false; AQuery 0 0%nat; AQuery 0 0%nat])
  = [Ok [1; 16777218; 3]; Ok [1; 2; 16777219]; Ok [16777217; 2; 3]; Err EParamsReused].
Proof. exact single_use_example. Qed.

(** C18: Refuted: fresh params, a row in range, and an error. *)
Theorem C18_fresh_query_succeeds_refuted :
  exists (prg : list Z -> nat -> Z) (strs : list (list Z)) (tape : list Z) (dim m es pb r : nat),
    (r < m)%nat /\
    forall dbg, exists sh qp rest,
      shard_from_base64_strings prg dbg [] strs dim m es pb = Ok sh /\
      generate_index_query_params (index_common_params prg (sh_params sh)) (sh_params sh) tape
        = Ok (qp, rest) /\ qp_used qp = false /\
      index_generate_query dbg qp r = (set_used true qp, Err EOverflownAdd).
Proof. exact fresh_query_succeeds_refuted. Qed.
Print Assumptions C18_fresh_query_succeeds_refuted.

(** C18: Exactly when: on fresh params with the row in range, the overflow error is returned iff
    lhs[r] >= 2^32 - delta, and the params are used up either way. *)
Theorem C18_overflow_error_iff :
  forall (dbg : bool) (qp : query_params) (r : nat),
    (1 <= qp_plaintext_bits qp <= 31)%nat -> qp_used qp = false -> (r < length (qp_lhs qp))%nat ->
    (snd (index_generate_query dbg qp r) = Err EOverflownAdd <->
     2 ^ 32 - 2 ^ (32 - Z.of_nat (qp_plaintext_bits qp)) <= nth r (qp_lhs qp) 0) /\
    qp_used (fst (index_generate_query dbg qp r)) = true.
Proof. exact overflow_error_iff. Qed.
Print Assumptions C18_overflow_error_iff.

(** C19: Shape of index queries on fresh params: success exactly when the row is in range and
    lhs[r] + delta < 2^32; then the query is lhs with entry r larger by exactly delta and no
    other entry changed; an out-of-range row panics. *)
Theorem C19_index_query_shape :
  forall (dbg : bool) (qp : query_params) (r : nat),
    (1 <= qp_plaintext_bits qp <= 31)%nat -> qp_used qp = false -> Forall is_u32 (qp_lhs qp) ->
    ((exists q, snd (index_generate_query dbg qp r) = Ok q) <->
     (r < length (qp_lhs qp))%nat /\
     nth r (qp_lhs qp) 0 + 2 ^ (32 - Z.of_nat (qp_plaintext_bits qp)) < 2 ^ 32) /\
    (forall q, snd (index_generate_query dbg qp r) = Ok q ->
       length q = length (qp_lhs qp) /\ Forall is_u32 q /\
       nth r q 0 = nth r (qp_lhs qp) 0 + 2 ^ (32 - Z.of_nat (qp_plaintext_bits qp)) /\
       forall i, i <> r -> nth i q 0 = nth i (qp_lhs qp) 0) /\
    ((length (qp_lhs qp) <= r)%nat -> snd (index_generate_query dbg qp r) = Panic).
Proof. exact index_query_shape. Qed.
Print Assumptions C19_index_query_shape.

(** C19: example: success, overflow and panic are all reached. *)
Example C19_index_query_example :
  let qp := {| qp_lhs := [7; 4294967000]; qp_rhs := []; qp_elem_size := 8; qp_plaintext_bits := 8;
               qp_extra := None; qp_used := false |} in
  Forall is_u32 (qp_lhs qp) /\
  snd (index_generate_query true qp 0) = Ok [16777223; 4294967000] /\
  snd (index_generate_query true qp 1) = Err EOverflownAdd /\
  snd (index_generate_query true qp 2) = Panic.
Proof. exact index_query_example. Qed.

(** C20: What a server learns from one query: entry r of a query for row r is at least delta. *)
Theorem C20_query_entry_large :
  forall (dbg : bool) (qp : query_params) (r : nat) (q : list Z),
    (1 <= qp_plaintext_bits qp <= 31)%nat -> Forall is_u32 (qp_lhs qp) ->
    snd (index_generate_query dbg qp r) = Ok q ->
    2 ^ (32 - Z.of_nat (qp_plaintext_bits qp)) <= nth r q 0.
Proof. exact query_entry_large. Qed.
Print Assumptions C20_query_entry_large.

(** C20: Refuted: a query vector that some mask produces for row 1 and that no mask at all
    produces for row 0 (all other fields equal): the query excludes row 0. *)
Theorem C20_index_hides_row_refuted :
  exists (q : list Z) (mk : list Z -> query_params),
    (forall lhs, qp_lhs (mk lhs) = lhs /\ qp_used (mk lhs) = false) /\
    (forall dbg, exists lhs, Forall is_u32 lhs /\ snd (index_generate_query dbg (mk lhs) 1) = Ok q) /\
    (forall dbg lhs, Forall is_u32 lhs -> snd (index_generate_query dbg (mk lhs) 0) <> Ok q).
Proof. exact index_hides_row_refuted. Qed.
Print Assumptions C20_index_hides_row_refuted.

(** C22: Two index queries from the same mask (a clone or a reset of [used]) reveal the rows:
    entry i of the first exceeds entry i of the second by delta exactly when i is the first
    row and the rows differ; the queries are equal iff the rows are. *)
Theorem C22_mask_reuse_reveals_rows :
  forall (dbg : bool) (qp : query_params) (r1 r2 : nat) (q1 q2 : list Z),
    (1 <= qp_plaintext_bits qp <= 31)%nat -> Forall is_u32 (qp_lhs qp) ->
    snd (index_generate_query dbg (set_used false qp) r1) = Ok q1 ->
    snd (index_generate_query dbg (set_used false qp) r2) = Ok q2 ->
    (q1 = q2 <-> r1 = r2) /\
    (forall i, nth i q1 0 - nth i q2 0 = 2 ^ (32 - Z.of_nat (qp_plaintext_bits qp)) <->
               i = r1 /\ r1 <> r2) /\
    (forall i, nth i q2 0 - nth i q1 0 = 2 ^ (32 - Z.of_nat (qp_plaintext_bits qp)) <->
               i = r2 /\ r1 <> r2).
Proof. exact mask_reuse_reveals_rows. Qed.
Print Assumptions C22_mask_reuse_reveals_rows.

(** C22: example. *)
Example C22_mask_reuse_example :
  let qp := {| qp_lhs := [11; 22; 33]; qp_rhs := []; qp_elem_size := 8; qp_plaintext_bits := 8;
               qp_extra := None; qp_used := true |} in
  snd (index_generate_query true (set_used false qp) 0) = Ok [16777227; 22; 33] /\
  snd (index_generate_query true (set_used false qp) 2) = Ok [11; 22; 16777249].
Proof. exact mask_reuse_example. Qed.

(** C23: The index server answers a query of the right length with one word per column, the
    inner product of query and column, correctly serialized; it never returns an error. *)
Theorem C23_respond_shape :
  forall (prg : list Z -> nat -> Z) (dbg : bool) (seed : list Z) (strs elems : list (list Z))
         (dim m es pb w : nat) (sh : shard) (q : list Z),
    (1 <= pb <= 32)%nat -> is_ceil_div es pb w -> Z.of_nat es < 2 ^ 64 ->
    shard_from_base64_strings prg dbg seed strs dim m es pb = Ok sh -> length elems = m ->
    (forall i, (i < m)%nat -> b64_decode (nth i strs []) = Ok (nth i elems [])) ->
    length q = m ->
    exists bytes v, shard_respond sh q = Ok bytes /\ bincode_de_vec_u32 bytes = Ok v /\
      length v = w /\ length bytes = (8 + 4 * w)%nat /\
      forall c, (c < w)%nat -> nth c v 0 = dot q (column elems pb c) mod 2 ^ 32.
Proof. exact respond_shape. Qed.
Print Assumptions C23_respond_shape.

(** C23: A query of any other length makes the server panic (it does not return an error). *)
Theorem C23_respond_wrong_length_panics :
  forall (prg : list Z -> nat -> Z) (dbg : bool) (seed : list Z) (strs : list (list Z))
         (dim m es pb : nat) (sh : shard) (q : list Z),
    (1 <= pb <= 32)%nat -> (0 < es)%nat ->
    shard_from_base64_strings prg dbg seed strs dim m es pb = Ok sh ->
    length q <> m -> shard_respond sh q = Panic.
Proof. exact respond_wrong_length_panics. Qed.
Print Assumptions C23_respond_wrong_length_panics.

(** C23: example. *)
Example C23_respond_example :
  let prg := fun (s : list Z) (k : nat) => Z.of_nat k in
  let strs := map b64_encode [[1; 2]; [255; 128]] in
  exists sh, shard_from_base64_strings prg true [] strs 2 2 16 10 = Ok sh /\
    shard_respond sh [3; 4294967295] = Ok (bincode_ser_vec_u32 [1284; 4294967264]) /\
    shard_respond sh [3] = Panic /\ shard_respond sh [3; 4; 5] = Panic.
Proof. exact respond_example. Qed.

(** C24: Index parsing: reads only the first row_width words, returns that many values below
    2^plaintext_bits; it panics exactly on shorter responses. *)
Theorem C24_parse_total :
  forall (dbg : bool) (qp : query_params) (pb w : nat),
    qp_plaintext_bits qp = pb -> (1 <= pb <= 31)%nat -> is_ceil_div (qp_elem_size qp) pb w ->
    (w <= length (qp_rhs qp))%nat ->
    (forall resp, (w <= length resp)%nat ->
       exists row, index_parse_resp_as_row dbg qp resp = Ok row /\ length row = w /\
         Forall (fun x => 0 <= x < 2 ^ Z.of_nat pb) row /\
         forall resp', (w <= length resp')%nat -> firstn w resp' = firstn w resp ->
           index_parse_resp_as_row dbg qp resp' = Ok row) /\
    (forall resp, index_parse_resp_as_row dbg qp resp = Panic <-> (length resp < w)%nat).
Proof. exact parse_total. Qed.
Print Assumptions C24_parse_total.

(** C24: Outside 1..=31 plaintext bits the client cannot parse anything: it panics in both
    build profiles. *)
Theorem C24_parse_bad_bits_panics :
  forall (dbg : bool) (qp : query_params) (resp : list Z),
    qp_plaintext_bits qp = 0%nat \/ (32 <= Z.of_nat (qp_plaintext_bits qp) < 2 ^ 32) ->
    index_parse_resp_as_row dbg qp resp = Panic.
Proof. exact parse_bad_bits_panics. Qed.
Print Assumptions C24_parse_bad_bits_panics.

(** C24: example. *)
Example C24_parse_example :
  let qp := {| qp_lhs := []; qp_rhs := [0; 0]; qp_elem_size := 16; qp_plaintext_bits := 10;
               qp_extra := None; qp_used := true |} in
  is_ceil_div 16 10 2 /\ index_parse_resp_as_row true qp [4294967295; 4194304; 77] = Ok [0; 1] /\
  index_parse_resp_as_row true qp [1] = Panic.
Proof. exact parse_example. Qed.

(** C38: Index construction looks at the first m strings only. *)
Theorem C38_extra_elements_ignored :
  forall (prg : list Z -> nat -> Z) (dbg : bool) (seed : list Z) (strs extra : list (list Z))
         (dim m es pb : nat),
    (m <= length strs)%nat ->
    shard_from_base64_strings prg dbg seed (strs ++ extra) dim m es pb =
    shard_from_base64_strings prg dbg seed strs dim m es pb.
Proof. exact extra_elements_ignored. Qed.
Print Assumptions C38_extra_elements_ignored.

(** C38: m larger than the number of strings panics when the strings themselves are fine. *)
Theorem C38_too_large_m_panics :
  forall (prg : list Z -> nat -> Z) (dbg : bool) (seed : list Z) (strs elems : list (list Z))
         (dim m es pb w : nat),
    (1 <= pb <= 32)%nat -> is_ceil_div es pb w -> (length strs < m)%nat ->
    (forall i, (i < length strs)%nat -> b64_decode (nth i strs []) = Ok (nth i elems []) /\
                              (w * pb <= 8 * length (nth i elems []) + pb)%nat) ->
    shard_from_base64_strings prg dbg seed strs dim m es pb = Panic.
Proof. exact too_large_m_panics. Qed.
Print Assumptions C38_too_large_m_panics.

(** C38: An undecodable string among the first m gives an error and no shard (when the strings
    before it are fine). *)
Theorem C38_undecodable_gives_error :
  forall (prg : list Z -> nat -> Z) (dbg : bool) (seed : list Z) (strs elems : list (list Z))
         (dim m es pb w k : nat),
    (1 <= pb <= 32)%nat -> is_ceil_div es pb w -> (k < m <= length strs)%nat ->
    (forall i, (i < k)%nat -> b64_decode (nth i strs []) = Ok (nth i elems []) /\
                              (w * pb <= 8 * length (nth i elems []) + pb)%nat) ->
    (forall b, b64_decode (nth k strs []) <> Ok b) ->
    shard_from_base64_strings prg dbg seed strs dim m es pb = Err EBase64.
Proof. exact undecodable_gives_error. Qed.
Print Assumptions C38_undecodable_gives_error.

(** C38: m = 0 panics (there is no first row to transpose). *)
Theorem C38_zero_m_panics :
  forall (prg : list Z -> nat -> Z) (dbg : bool) (seed : list Z) (strs : list (list Z))
         (dim es pb : nat),
    shard_from_base64_strings prg dbg seed strs dim 0 es pb = Panic.
Proof. exact zero_m_panics. Qed.
Print Assumptions C38_zero_m_panics.

(** C38: More than 32 plaintext bits is an error as soon as the first element has more than
    32 bits. *)
Theorem C38_wide_chunks_error :
  forall (prg : list Z -> nat -> Z) (dbg : bool) (seed : list Z) (s elem : list Z)
         (strs : list (list Z)) (dim m es pb : nat),
    (32 < pb)%nat -> (0 < es)%nat -> (0 < m)%nat ->
    b64_decode s = Ok elem -> (32 < 8 * length elem)%nat ->
    shard_from_base64_strings prg dbg seed (s :: strs) dim m es pb = Err EInputSize.
Proof. exact wide_chunks_error. Qed.
Print Assumptions C38_wide_chunks_error.

(** C38: example: hypotheses of the error cases are met. *)
Example C38_validation_example :
  let prg := fun (s : list Z) (k : nat) => Z.of_nat k in
  shard_from_base64_strings prg true [] [b64_encode [1; 2]] 2 2 16 10 = Panic /\
  shard_from_base64_strings prg true [] [b64_encode [1; 2]; [33]] 2 2 16 10 = Err EBase64 /\
  shard_from_base64_strings prg false [] [b64_encode [1; 2; 3; 4; 5]] 2 1 40 33 = Err EInputSize.
Proof. exact validation_example. Qed.

(** C39: Common params whose dimension differs from that of the params (index and KV): query
    params generation returns the input-size error (as soon as the secret can be sampled). *)
Theorem C39_mismatched_dimension_rejected :
  forall (cp : list (list Z)) (tape : list Z) (n d : nat),
    shape cp n d -> (0 < n)%nat ->
    (forall p : index_params, d <> ip_dim p -> (ip_dim p <= length (draws tape))%nat ->
       generate_index_query_params cp p tape = Err EInputSize) /\
    (forall p : kv_params, d <> kp_dim p -> (kp_dim p <= length (draws tape))%nat ->
       generate_kv_query_params cp p tape = Err EInputSize).
Proof. exact mismatched_dimension_rejected. Qed.
Print Assumptions C39_mismatched_dimension_rejected.

(** C39: In particular for common params derived from another shard's params. *)
Theorem C39_foreign_common_params_rejected :
  forall (prg : list Z -> nat -> Z) (p other : index_params) (tape : list Z),
    ip_dim other <> ip_dim p -> (0 < ip_m other)%nat -> (ip_dim p <= length (draws tape))%nat ->
    generate_index_query_params (index_common_params prg other) p tape = Err EInputSize.
Proof. exact foreign_common_params_rejected. Qed.
Print Assumptions C39_foreign_common_params_rejected.

(** C39: example: the hypotheses are met; with the right dimension the call succeeds. *)
Example C39_foreign_common_params_example :
  let prg := fun (s : list Z) (k : nat) => Z.of_nat k in
  let p d := {| ip_dim := d; ip_m := 2; ip_public_seed := []; ip_rhs := [[1; 2]];
                ip_elem_size := 8; ip_plaintext_bits := 10 |} in
  generate_index_query_params (index_common_params prg (p 3%nat)) (p 2%nat) [1; 2; 3; 4]
    = Err EInputSize /\
  exists qp rest,
  generate_index_query_params (index_common_params prg (p 2%nat)) (p 2%nat) [1; 2; 3; 4]
    = Ok (qp, rest).
Proof. exact foreign_common_params_example. Qed.
