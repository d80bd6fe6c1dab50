(** Property theorems; each restates a lemma proved in Claims_service.v. *)
From Coq Require Import Permutation.
From Verif Require Import Base Spec SpecFilter Fmt Mat Lwe Hash Fuse3 Bfusep Db Api Service Claims_index Claims_filter Claims_kv Claims_service.
Local Open Scope Z_scope.

(** C72: Index mode. Place i is always built from the same strings and sizes (and as often as one
    likes, with new seeds). Then after every history: whatever was asked,
    served, duplicated, reordered, lost, read, cloned or reset in between, reading an answer
    to a client's own query from the place its parameters came from gives w chunks, and these are
    the chunks of the row it asked for exactly when the noise condition (C14) holds for the
    client's randomness, which does not depend on the history. And every place that holds a
    shard answers every such query: a restart invalidates neither parameters nor queries
    under way. *)
Theorem C72_index_service : forall prg dbg n events strs elems (dim m es pb w : nat -> nat),
  (forall i, (i < n)%nat -> (1 <= pb i <= 31)%nat /\ is_ceil_div (es i) (pb i) (w i) /\ Z.of_nat (es i) < 2 ^ 64 /\
     length (elems i) = m i /\ (forall j, (j < m i)%nat -> b64_decode (nth j (strs i) []) = Ok (nth j (elems i) []))) ->
  (forall i r, In (Build i r) events -> ir_strs r = strs i /\ ir_dim r = dim i /\ ir_m r = m i /\ ir_es r = es i /\ ir_pb r = pb i) ->
  let v := v_run (index_mode prg dbg) (empty_service n) events in
  (forall client row answer out query i bytes q qp tape,
     In (client, row, answer, out) (v_reads v) -> nth_error (v_answers v) answer = Some (query, i, bytes) ->
     nth_error (v_queries v) query = Some (client, row, q) -> nth_error (v_clients v) client = Some (qp, i, tape) ->
     exists chunks, out = Ok chunks /\ length chunks = w i /\
       (chunks = map (chunk (nth row (elems i) []) (pb i)) (seq 0 (w i)) <->
        forall c, (c < w i)%nat ->
          congruent_in (dot (firstn (m i) (skipn (dim i) (draws tape))) (column (elems i) (pb i) c))
                       (- 2 ^ (31 - Z.of_nat (pb i))) (2 ^ (31 - Z.of_nat (pb i))))) /\
  (forall client row query q qp i tape s,
     nth_error (v_queries v) query = Some (client, row, q) -> nth_error (v_clients v) client = Some (qp, i, tape) ->
     nth_error (v_places v) i = Some (Some s) -> exists bytes, shard_respond s q = Ok bytes).
Proof. exact index_service. Qed.
Print Assumptions C72_index_service.

(** C72: Keyword mode, when no place is built from two different requests (seeds and fill
    included): the same, for every stored key whose filter hash no later key shares. *)
Theorem C72_kv_service : forall prg dbg fe n events (req : nat -> kv_request) (w : nat -> nat),
  (forall i, (i < n)%nat -> (1 <= kr_pb (req i) <= 31)%nat /\ is_ceil_div (kr_es (req i)) (kr_pb (req i)) (w i) /\
     Z.of_nat (kr_es (req i)) < 2 ^ 64 /\ sane_estimates fe (length (kr_kvs (req i))) /\
     Forall (fun kv => length (kv_value kv) = w i) (kr_kvs (req i))) ->
  (forall i r, In (Build i r) events -> r = req i) ->
  let v := v_run (kv_mode prg dbg fe) (empty_service n) events in
  (forall client key answer out query i bytes q qp tape s p kv,
     In (client, key, answer, out) (v_reads v) -> nth_error (v_answers v) answer = Some (query, i, bytes) ->
     nth_error (v_queries v) query = Some (client, key, q) -> nth_error (v_clients v) client = Some (qp, i, tape) ->
     nth_error (v_places v) i = Some (Some s) ->
     (dbg = true \/ exists slots,
        (forall key, get_hash_evals dbg (kd_filter_params (ks_db s)) key = Ok (slots key)) /\
        forall j, (load slots (map kv_key (kr_kvs (req i))) j <= 63)%nat) ->
     nth_error (kr_kvs (req i)) p = Some kv -> kv_key kv = key ->
     last_with_hash (kr_fseed (req i)) (map kv_key (kr_kvs (req i))) p key ->
     exists chunks, out = Ok chunks /\ length chunks = w i /\
       (chunks = map (fun x => x mod 2 ^ Z.of_nat (kr_pb (req i))) (kv_value kv) <->
        forall c, (c < w i)%nat ->
          congruent_in (dot (firstn (kp_m (ks_params s)) (skipn (kr_dim (req i)) (draws tape))) (nth c (kd_entries (ks_db s)) []))
                       (- 2 ^ (31 - Z.of_nat (kr_pb (req i)))) (2 ^ (31 - Z.of_nat (kr_pb (req i)))))) /\
  (forall client key query q qp i tape s,
     nth_error (v_queries v) query = Some (client, key, q) -> nth_error (v_clients v) client = Some (qp, i, tape) ->
     nth_error (v_places v) i = Some (Some s) -> exists bytes, kv_shard_respond s q = Ok bytes).
Proof. exact kv_service. Qed.
Print Assumptions C72_kv_service.

(** C72: example: one place, restarted twice with new seeds; a client with parameters from before the
    first restart, answered before and after the second; its query delivered twice and out of
    order; parameters reset and used again. All reads give the right row. *)
Example C72_service_example :
  let events := [Build 0 (sv_request 1 sv_elems); Join 0 sv_tape1; Build 0 (sv_request 2000000 sv_elems); Join 0 sv_tape2;
     Ask 0 1%nat; Ask 1 2%nat; Serve 1 0; Serve 0 0; Build 0 (sv_request 3 sv_elems); Serve 0 0;
     Read 1 2%nat 0; Read 0 1%nat 1; Read 0 1%nat 2; SetUsed 0 false; Ask 0 0%nat; Serve 2 0; Read 0 0%nat 3] in
  v_reads (v_run (index_mode sv_prg true) (empty_service 1) events) =
    map (fun t => match t with (client, row, answer) => (client, row, answer, Ok (map (chunk (nth row sv_elems []) 10) (seq 0 2))) end)
      [(1, 2, 0); (0, 1, 1); (0, 1, 2); (0, 0, 3)]%nat /\
  (forall i r, In (Build i r) events -> ir_strs r = map b64_encode sv_elems /\ ir_dim r = 2%nat /\ ir_m r = 3%nat /\ ir_es r = 16%nat /\ ir_pb r = 10%nat) /\
  is_ceil_div 16 10 2 /\
  (forall j, (j < 3)%nat -> b64_decode (nth j (map b64_encode sv_elems) []) = Ok (nth j sv_elems [])) /\
  (v_reads (v_run (kv_mode sv_prg true (est 3 12)) (empty_service 1)
     [Build 0 (sv_kv_request 0); Join 0 ex_tape; Ask 0 (key4 2); Serve 0 0; Serve 0 0; Read 0 (key4 2) 1]) =
   [(0%nat, key4 2, 1%nat, Ok [5; 1023])]).
Proof. exact service_example. Qed.

(** C73: A client's parameters do not survive a restart of a keyword server. The server is built
    twice from the same pairs and sizes, with the same filter seed and the same public seed: only
    the random words in unused filter slots differ. A client that joined before the restart is
    answered, reads its answer without an error, and gets another value than the one stored
    (which it gets if the server was not restarted). Contrast C72 for index mode. *)
Theorem C73_kv_restart_refuted : exists prg fe (r1 r2 : kv_request) tape key value wrong,
  kr_kvs r1 = kr_kvs r2 /\ kr_fseed r1 = kr_fseed r2 /\ kr_pseed r1 = kr_pseed r2 /\ kr_dim r1 = kr_dim r2 /\
  kr_m r1 = kr_m r2 /\ kr_es r1 = kr_es r2 /\ kr_pb r1 = kr_pb r2 /\
  (exists s1 s2, m_build (kv_mode prg true fe) r1 = Ok s1 /\ m_build (kv_mode prg true fe) r2 = Ok s2 /\
     ks_params s1 <> ks_params s2 /\ kp_filter_params (ks_params s1) = kp_filter_params (ks_params s2)) /\
  In {| kv_key := key; kv_value := value |} (kr_kvs r1) /\
  v_reads (v_run (kv_mode prg true fe) (empty_service 1)
    [Build 0 r1; Join 0 tape; Ask 0 key; Serve 0 0; Read 0 key 0]) = [(0%nat, key, 0%nat, Ok value)] /\
  v_reads (v_run (kv_mode prg true fe) (empty_service 1)
    [Build 0 r1; Join 0 tape; Build 0 r2; Ask 0 key; Serve 0 0; Read 0 key 0]) = [(0%nat, key, 0%nat, Ok wrong)] /\
  wrong <> value.
Proof. exact kv_restart_refuted. Qed.
Print Assumptions C73_kv_restart_refuted.

(** C73: Nor does a client notice that its parameters are stale, or that an answer is not its own.
    In the first history the server's rows change between the client's download and its query:
    the client reads chunks that are neither those of the old row nor of the new one. In the
    second, two clients exchange answers by mistake: again no error, and no row of the database. *)
Theorem C73_index_mismatch_detected_refuted :
  (exists prg r1 r2 tape row chunks, ir_m r1 = ir_m r2 /\ ir_es r1 = ir_es r2 /\ ir_pb r1 = ir_pb r2 /\ ir_dim r1 = ir_dim r2 /\
     v_reads (v_run (index_mode prg true) (empty_service 1)
       [Build 0 r1; Join 0 tape; Build 0 r2; Ask 0 row; Serve 0 0; Read 0 row 0]) = [(0%nat, row, 0%nat, Ok chunks)] /\
     (forall elem, In elem (ir_strs r1 ++ ir_strs r2) -> forall bytes, b64_decode elem = Ok bytes -> map (chunk bytes 10) (seq 0 2) <> chunks)) /\
  (exists prg r tape1 tape2 row1 row2 chunks,
     v_reads (v_run (index_mode prg true) (empty_service 1)
       [Build 0 r; Join 0 tape1; Join 0 tape2; Ask 0 row1; Ask 1 row2; Serve 0 0; Serve 1 0; Read 1 row2 0]) = [(1%nat, row2, 0%nat, Ok chunks)] /\
     (forall elem, In elem (ir_strs r) -> forall bytes, b64_decode elem = Ok bytes -> map (chunk bytes 10) (seq 0 2) <> chunks)).
Proof. exact index_mismatch_detected_refuted. Qed.
Print Assumptions C73_index_mismatch_detected_refuted.

(** C73: It is not bad luck: for every two databases of the same shape, whatever their contents
    and seeds, and every client of the first, a query answered by the second is read without an
    error. Nothing in parameters, queries or answers lets a client tell. *)
Theorem C73_index_mismatch_never_detected : forall prg dbg seed1 seed2 strs1 strs2 dim1 dim2 m es pb w s1 s2 tape rest qp qp' row q,
  (1 <= pb <= 31)%nat -> is_ceil_div es pb w -> Z.of_nat es < 2 ^ 64 ->
  shard_from_base64_strings prg dbg seed1 strs1 dim1 m es pb = Ok s1 ->
  shard_from_base64_strings prg dbg seed2 strs2 dim2 m es pb = Ok s2 ->
  generate_index_query_params (index_common_params prg (sh_params s1)) (sh_params s1) tape = Ok (qp, rest) ->
  index_generate_query dbg qp row = (qp', Ok q) ->
  exists bytes resp chunks, shard_respond s2 q = Ok bytes /\ bincode_de_vec_u32 bytes = Ok resp /\
    index_parse_resp_as_row dbg qp' resp = Ok chunks /\ length chunks = w.
Proof. exact index_mismatch_never_detected. Qed.
Print Assumptions C73_index_mismatch_never_detected.
