(** C72: every schedule of clients, servers, restarts and messages. *)
From Verif Require Import Base Spec SpecFilter Fmt Mat Lwe Hash Fuse3 Bfusep Db Api Service Base_facts Fmt_facts Mat_facts Index_facts IndexProto_facts Filter_facts FilterTop_facts KV_facts Service_facts Claims_index Claims_filter Claims_kv.
Local Open Scope Z_scope.

Lemma index_ask_keeps dbg qp x : exists b, fst (index_generate_query dbg qp x) = set_used b qp.
Proof.
  unfold index_generate_query. destruct (qp_used qp) eqn:U; cbn [fst]; [exists true|exists true; reflexivity].
  rewrite <- U. symmetry. apply set_used_same.
Qed.
Lemma index_ask_fresh dbg qp x qp' q : index_generate_query dbg qp x = (qp', Ok q) -> qp_used qp = false.
Proof. unfold index_generate_query. destruct (qp_used qp); [discriminate|reflexivity]. Qed.
Lemma kv_ask_keeps dbg qp x : exists b, fst (kv_generate_query dbg qp x) = set_used b qp.
Proof.
  unfold kv_generate_query. destruct (qp_used qp) eqn:U; cbn [fst]; [exists true|exists true; reflexivity].
  rewrite <- U. symmetry. apply set_used_same.
Qed.
Lemma kv_ask_fresh dbg qp x qp' q : kv_generate_query dbg qp x = (qp', Ok q) -> qp_used qp = false.
Proof. unfold kv_generate_query. destruct (qp_used qp); [discriminate|reflexivity]. Qed.
Lemma index_join_fresh cp p tape qp rest : generate_index_query_params cp p tape = Ok (qp, rest) -> qp_used qp = false.
Proof.
  unfold generate_index_query_params. intros G. apply bind_Ok in G as ([s t1] & _ & G). apply bind_Ok in G as ([lhs t2] & GL & G).
  apply bind_Ok in G as (rhs & _ & G). apply (f_equal (fun r => match r with Ok x => fst x | _ => qp end)) in G. cbn [fst] in G. now rewrite <- G.
Qed.
Lemma kv_join_fresh cp p tape qp rest : generate_kv_query_params cp p tape = Ok (qp, rest) -> qp_used qp = false.
Proof.
  unfold generate_kv_query_params. intros G. apply bind_Ok in G as ([s t1] & _ & G). apply bind_Ok in G as ([lhs t2] & GL & G).
  apply bind_Ok in G as (rhs & _ & G). apply (f_equal (fun r => match r with Ok x => fst x | _ => qp end)) in G. cbn [fst] in G. now rewrite <- G.
Qed.
Lemma index_same_db prg dbg seed1 seed2 strs dim1 dim2 m es pb s1 s2 :
  shard_from_base64_strings prg dbg seed1 strs dim1 m es pb = Ok s1 ->
  shard_from_base64_strings prg dbg seed2 strs dim2 m es pb = Ok s2 -> sh_db s1 = sh_db s2.
Proof.
  unfold shard_from_base64_strings. intros H1 H2. apply bind_Ok in H1 as (d1 & E1 & H1). apply bind_Ok in H2 as (d2 & E2 & H2).
  apply bind_Ok in H1 as (p1 & _ & H1). apply bind_Ok in H2 as (p2 & _ & H2). rewrite E1 in E2. injection E2 as <-.
  injection H1 as <-. injection H2 as <-. reflexivity.
Qed.
Lemma respond_db s1 s2 q : sh_db s1 = sh_db s2 -> shard_respond s1 q = shard_respond s2 q.
Proof. unfold shard_respond. now intros ->. Qed.

(** @C72 Index mode. Place i is always built from the same strings and sizes (and as often as one
    likes, with new seeds). Then after every history: whatever was asked,
    served, duplicated, reordered, lost, read, cloned or reset in between, reading an answer
    to a client's own query from the place its parameters came from gives w chunks, and these are
    the chunks of the row it asked for exactly when the noise condition (C14) holds for the
    client's randomness, which does not depend on the history. And every place that holds a
    shard answers every such query: a restart invalidates neither parameters nor queries
    under way. *)
Lemma index_service : forall prg dbg n events strs elems (dim m es pb w : nat -> nat),
  (forall i, (i < n)%nat -> (1 <= pb i <= 31)%nat /\ is_ceil_div (es i) (pb i) (w i) /\ Z.of_nat (es i) < 2 ^ 64 /\
     length (elems i) = m i /\ (forall j, (j < m i)%nat -> b64_decode (nth j (strs i) []) = Ok (nth j (elems i) []))) ->
  (forall i r, In (Build i r) events -> ir_strs r = strs i /\ ir_dim r = dim i /\ ir_m r = m i /\ ir_es r = es i /\ ir_pb r = pb i) ->
  let v := v_run (index_mode prg dbg) (empty_service n) events in
  (forall client row answer out query i bytes q qp tape,
     In (client, row, answer, out) (v_reads v) -> nth_error (v_answers v) answer = Some (query, i, bytes) ->
     nth_error (v_queries v) query = Some (client, row, q) -> nth_error (v_clients v) client = Some (qp, i, tape) ->
     exists chunks, out = Ok chunks /\ length chunks = w i /\
       (chunks = map (chunk (nth row (elems i) []) (pb i)) (seq 0 (w i)) <->
        forall c, (c < w i)%nat ->
          congruent_in (dot (firstn (m i) (skipn (dim i) (draws tape))) (column (elems i) (pb i) c))
                       (- 2 ^ (31 - Z.of_nat (pb i))) (2 ^ (31 - Z.of_nat (pb i))))) /\
  (forall client row query q qp i tape s,
     nth_error (v_queries v) query = Some (client, row, q) -> nth_error (v_clients v) client = Some (qp, i, tape) ->
     nth_error (v_places v) i = Some (Some s) -> exists bytes, shard_respond s q = Ok bytes).
Proof.
  intros prg dbg n events strs elems dim m es pb w HD HB.
  apply (service_correct (index_mode prg dbg)
    (fun i s => (i < n)%nat /\ exists seed, shard_from_base64_strings prg dbg seed (strs i) (dim i) (m i) (es i) (pb i) = Ok s)
    (fun i tape row out => exists chunks, out = Ok chunks /\ length chunks = w i /\
       (chunks = map (chunk (nth row (elems i) []) (pb i)) (seq 0 (w i)) <->
        forall c, (c < w i)%nat ->
          congruent_in (dot (firstn (m i) (skipn (dim i) (draws tape))) (column (elems i) (pb i) c))
                       (- 2 ^ (31 - Z.of_nat (pb i))) (2 ^ (31 - Z.of_nat (pb i)))))); cbn [index_mode m_join m_ask m_read m_build m_respond].
  - intros s tape qp rest. apply index_join_fresh.
  - intros qp x. apply index_ask_keeps.
  - intros qp x qp' q. apply index_ask_fresh.
  - reflexivity.
  - intros i s1 s2 tape qp rest r qp' q [Li (seed1 & B1)] [_ (seed2 & B2)] J A.
    destruct (HD i Li) as (Hpb & Hw & H64 & Hl & Hd).
    destruct (index_retrieval prg dbg seed1 (strs i) (elems i) (dim i) (m i) (es i) (pb i) (w i) s1 tape rest qp qp' r q
      Hpb Hw H64 B1 Hl Hd J A) as (bytes & resp & row & H1 & H2 & H3 & H4 & H5).
    exists bytes. split; [rewrite <- H1; apply respond_db; eapply index_same_db; eauto|].
    exists row. rewrite H2. cbn [bind]. split; [|auto]. rewrite <- H3.
    destruct (index_ask_keeps dbg qp r) as (b & Eb). rewrite A in Eb. cbn [fst] in Eb. rewrite Eb. reflexivity.
  - intros i r s HI E Li. destruct (HB i r HI) as (E1 & E2 & E3 & E4 & E5). split; [exact Li|]. exists (ir_seed r).
    rewrite <- E1, <- E2, <- E3, <- E4, <- E5. exact E.
Qed.

(** @C72 Keyword mode, when no place is built from two different requests (seeds and fill
    included): the same, for every stored key whose filter hash no later key shares. *)
Lemma kv_service : forall prg dbg fe n events (req : nat -> kv_request) (w : nat -> nat),
  (forall i, (i < n)%nat -> (1 <= kr_pb (req i) <= 31)%nat /\ is_ceil_div (kr_es (req i)) (kr_pb (req i)) (w i) /\
     Z.of_nat (kr_es (req i)) < 2 ^ 64 /\ sane_estimates fe (length (kr_kvs (req i))) /\
     Forall (fun kv => length (kv_value kv) = w i) (kr_kvs (req i))) ->
  (forall i r, In (Build i r) events -> r = req i) ->
  let v := v_run (kv_mode prg dbg fe) (empty_service n) events in
  (forall client key answer out query i bytes q qp tape s p kv,
     In (client, key, answer, out) (v_reads v) -> nth_error (v_answers v) answer = Some (query, i, bytes) ->
     nth_error (v_queries v) query = Some (client, key, q) -> nth_error (v_clients v) client = Some (qp, i, tape) ->
     nth_error (v_places v) i = Some (Some s) ->
     (dbg = true \/ exists slots,
        (forall key, get_hash_evals dbg (kd_filter_params (ks_db s)) key = Ok (slots key)) /\
        forall j, (load slots (map kv_key (kr_kvs (req i))) j <= 63)%nat) ->
     nth_error (kr_kvs (req i)) p = Some kv -> kv_key kv = key ->
     last_with_hash (kr_fseed (req i)) (map kv_key (kr_kvs (req i))) p key ->
     exists chunks, out = Ok chunks /\ length chunks = w i /\
       (chunks = map (fun x => x mod 2 ^ Z.of_nat (kr_pb (req i))) (kv_value kv) <->
        forall c, (c < w i)%nat ->
          congruent_in (dot (firstn (kp_m (ks_params s)) (skipn (kr_dim (req i)) (draws tape))) (nth c (kd_entries (ks_db s)) []))
                       (- 2 ^ (31 - Z.of_nat (kr_pb (req i)))) (2 ^ (31 - Z.of_nat (kr_pb (req i)))))) /\
  (forall client key query q qp i tape s,
     nth_error (v_queries v) query = Some (client, key, q) -> nth_error (v_clients v) client = Some (qp, i, tape) ->
     nth_error (v_places v) i = Some (Some s) -> exists bytes, kv_shard_respond s q = Ok bytes).
Proof.
  intros prg dbg fe n events req w HD HB v.
  set (good := fun i s => (i < n)%nat /\ m_build (kv_mode prg dbg fe) (req i) = Ok s).
  set (correct := fun i tape key out => forall s p kv, m_build (kv_mode prg dbg fe) (req i) = Ok s ->
     (dbg = true \/ exists slots,
        (forall key, get_hash_evals dbg (kd_filter_params (ks_db s)) key = Ok (slots key)) /\
        forall j, (load slots (map kv_key (kr_kvs (req i))) j <= 63)%nat) ->
     nth_error (kr_kvs (req i)) p = Some kv -> kv_key kv = key ->
     last_with_hash (kr_fseed (req i)) (map kv_key (kr_kvs (req i))) p key ->
     exists chunks, out = Ok chunks /\ length chunks = w i /\
       (chunks = map (fun x => x mod 2 ^ Z.of_nat (kr_pb (req i))) (kv_value kv) <->
        forall c, (c < w i)%nat ->
          congruent_in (dot (firstn (kp_m (ks_params s)) (skipn (kr_dim (req i)) (draws tape))) (nth c (kd_entries (ks_db s)) []))
                       (- 2 ^ (31 - Z.of_nat (kr_pb (req i)))) (2 ^ (31 - Z.of_nat (kr_pb (req i)))))).
  assert (RT : forall i s1 s2 tape qp rest x qp' q, good i s1 -> good i s2 ->
    m_join (kv_mode prg dbg fe) s1 tape = Ok (qp, rest) -> m_ask (kv_mode prg dbg fe) qp x = (qp', Ok q) ->
    exists bytes, m_respond (kv_mode prg dbg fe) s2 q = Ok bytes /\ correct i tape x (m_read (kv_mode prg dbg fe) qp x bytes)).
  { intros i s1 s2 tape qp rest key qp' q [Li B1] [_ B2] J A. rewrite B1 in B2. injection B2 as <-.
    destruct (HD i Li) as (Hpb & Hw & H64 & Hs & HF). cbn [kv_mode m_join m_ask m_read m_build m_respond] in *.
    destruct (kv_run prg dbg fe (kr_rnd (req i)) (kr_fseed (req i)) (kr_pseed (req i)) (kr_kvs (req i)) (kr_dim (req i)) (kr_m (req i))
                (kr_es (req i)) (kr_pb (req i)) (w i) s1 tape rest qp Hpb Hw H64 Hs HF B1 J key)
      as (g & a & b & c & q0 & _ & _ & _ & _ & _ & _ & _ & _ & Hq & _ & bytes & resp & H1 & H2 & H3 & H4).
    rewrite A in Hq. assert (EQ : qp' = set_used true qp /\ q0 = q) by (split; congruence). destruct EQ as [-> ->].
    exists bytes. split; [exact H1|]. intros s p kv Bs Hl Hp Hk Hlast. rewrite B1 in Bs. injection Bs as <-. subst key.
    destruct (kv_retrieval prg dbg fe (kr_rnd (req i)) (kr_fseed (req i)) (kr_pseed (req i)) (kr_kvs (req i)) (kr_dim (req i)) (kr_m (req i))
                (kr_es (req i)) (kr_pb (req i)) (w i) s1 tape rest qp p kv Hpb Hw H64 Hs HF B1 Hl Hp Hlast J)
      as (qp2 & q2 & bytes2 & resp2 & row & K1 & K2 & K3 & K4 & K5 & K6).
    rewrite A in K1. assert (EQ : qp2 = set_used true qp /\ q2 = q) by (split; congruence). destruct EQ as [-> ->].
    rewrite H1 in K2. injection K2 as <-. rewrite H2 in K3. injection K3 as <-.
    exists row. rewrite H2. cbn [bind]. split; [exact K4|auto]. }
  assert (GB : forall i r s, In (Build i r) events -> m_build (kv_mode prg dbg fe) r = Ok s -> (i < n)%nat -> good i s).
  { intros i r s HI E Li. rewrite (HB i r HI) in E. split; [exact Li|exact E]. }
  assert (JF : forall s tape qp rest, m_join (kv_mode prg dbg fe) s tape = Ok (qp, rest) -> qp_used qp = false) by (intros *; apply kv_join_fresh).
  assert (AK : forall qp x, exists b, fst (m_ask (kv_mode prg dbg fe) qp x) = set_used b qp) by (intros *; apply kv_ask_keeps).
  assert (AF : forall qp x qp' q, m_ask (kv_mode prg dbg fe) qp x = (qp', Ok q) -> qp_used qp = false) by (intros *; apply kv_ask_fresh).
  assert (RU : forall b qp x bytes, m_read (kv_mode prg dbg fe) (set_used b qp) x bytes = m_read (kv_mode prg dbg fe) qp x bytes) by reflexivity.
  assert (PG : forall i s, nth_error (v_places v) i = Some (Some s) -> good i s).
  { apply (inv_places (kv_mode prg dbg fe) good). apply (inv_run _ good correct JF AK AF RU RT); [apply inv_empty|].
    cbn [empty_service v_places]. rewrite repeat_length. exact GB. }
  destruct (service_correct (kv_mode prg dbg fe) good correct JF AK AF RU RT n events GB) as [T1 T2].
  fold v in T1, T2. split; [|exact T2].
  intros client key answer out query i bytes q qp tape s p kv H1 H2 H3 H4 H5 Hl Hp Hk Hlast.
  apply (T1 client key answer out query i bytes q qp tape H1 H2 H3 H4 s p kv); auto. apply (PG i s H5).
Qed.

(** ** Examples and counterexamples *)

Definition sv_prg : list Z -> nat -> Z := fun s k => (nth 0 s 0 + Z.of_nat k * 2654435761 + 12345) mod 2 ^ 32.
(** Three 16-bit rows in 10-bit chunks, dimension 2. *)
Definition sv_request (seed : Z) (elems : list (list Z)) : index_request :=
  {| ir_seed := [seed]; ir_strs := map b64_encode elems; ir_dim := 2; ir_m := 3; ir_es := 16; ir_pb := 10 |}.
Definition sv_elems : list (list Z) := [[1; 2]; [255; 128]; [7; 9]].
Definition sv_tape1 : list Z := [5; 3000000000; 4294967295; 0; 4000000000; 2000000000].
Definition sv_tape2 : list Z := [2000000000; 1; 3000000000; 2000000000; 5].
Definition sv_kv_request (fill : Z) : kv_request :=
  {| kr_rnd := fun i j => fill + ex_rnd i j; kr_fseed := seed0; kr_pseed := [1]; kr_kvs := ex_kvs; kr_dim := 2; kr_m := 3; kr_es := 19; kr_pb := 10 |}.

(** @C72 example: one place, restarted twice with new seeds; a client with parameters from before the
    first restart, answered before and after the second; its query delivered twice and out of
    order; parameters reset and used again. All reads give the right row. *)
Example service_example :
  let events := [Build 0 (sv_request 1 sv_elems); Join 0 sv_tape1; Build 0 (sv_request 2000000 sv_elems); Join 0 sv_tape2;
     Ask 0 1%nat; Ask 1 2%nat; Serve 1 0; Serve 0 0; Build 0 (sv_request 3 sv_elems); Serve 0 0;
     Read 1 2%nat 0; Read 0 1%nat 1; Read 0 1%nat 2; SetUsed 0 false; Ask 0 0%nat; Serve 2 0; Read 0 0%nat 3] in
  v_reads (v_run (index_mode sv_prg true) (empty_service 1) events) =
    map (fun t => match t with (client, row, answer) => (client, row, answer, Ok (map (chunk (nth row sv_elems []) 10) (seq 0 2))) end)
      [(1, 2, 0); (0, 1, 1); (0, 1, 2); (0, 0, 3)]%nat /\
  (forall i r, In (Build i r) events -> ir_strs r = map b64_encode sv_elems /\ ir_dim r = 2%nat /\ ir_m r = 3%nat /\ ir_es r = 16%nat /\ ir_pb r = 10%nat) /\
  is_ceil_div 16 10 2 /\
  (forall j, (j < 3)%nat -> b64_decode (nth j (map b64_encode sv_elems) []) = Ok (nth j sv_elems [])) /\
  (v_reads (v_run (kv_mode sv_prg true (est 3 12)) (empty_service 1)
     [Build 0 (sv_kv_request 0); Join 0 ex_tape; Ask 0 (key4 2); Serve 0 0; Serve 0 0; Read 0 (key4 2) 1]) =
   [(0%nat, key4 2, 1%nat, Ok [5; 1023])]).
Proof.
  cbv zeta. split; [vm_compute; reflexivity|]. split.
  { intros i r H. cbn [In] in H. repeat destruct H as [H|H]; try discriminate; try contradiction; injection H as <- <-; repeat split. }
  split; [split; [lia|intros; lia]|]. split; [|vm_compute; reflexivity].
  intros j Hj. destruct j as [|[|[|j]]]; [vm_compute; reflexivity..|lia].
Qed.

(** @C73 A client's parameters do not survive a restart of a keyword server. The server is built
    twice from the same pairs and sizes, with the same filter seed and the same public seed: only
    the random words in unused filter slots differ. A client that joined before the restart is
    answered, reads its answer without an error, and gets another value than the one stored
    (which it gets if the server was not restarted). Contrast C72 for index mode. *)
Lemma kv_restart_refuted : exists prg fe (r1 r2 : kv_request) tape key value wrong,
  kr_kvs r1 = kr_kvs r2 /\ kr_fseed r1 = kr_fseed r2 /\ kr_pseed r1 = kr_pseed r2 /\ kr_dim r1 = kr_dim r2 /\
  kr_m r1 = kr_m r2 /\ kr_es r1 = kr_es r2 /\ kr_pb r1 = kr_pb r2 /\
  (exists s1 s2, m_build (kv_mode prg true fe) r1 = Ok s1 /\ m_build (kv_mode prg true fe) r2 = Ok s2 /\
     ks_params s1 <> ks_params s2 /\ kp_filter_params (ks_params s1) = kp_filter_params (ks_params s2)) /\
  In {| kv_key := key; kv_value := value |} (kr_kvs r1) /\
  v_reads (v_run (kv_mode prg true fe) (empty_service 1)
    [Build 0 r1; Join 0 tape; Ask 0 key; Serve 0 0; Read 0 key 0]) = [(0%nat, key, 0%nat, Ok value)] /\
  v_reads (v_run (kv_mode prg true fe) (empty_service 1)
    [Build 0 r1; Join 0 tape; Build 0 r2; Ask 0 key; Serve 0 0; Read 0 key 0]) = [(0%nat, key, 0%nat, Ok wrong)] /\
  wrong <> value.
Proof.
  exists sv_prg, (est 3 12), (sv_kv_request 0), (sv_kv_request 7), ex_tape, (key4 2), [5; 1023], [354; 348].
  do 7 (split; [reflexivity|]). split.
  { eexists. eexists. split; [vm_compute; reflexivity|]. split; [vm_compute; reflexivity|]. split; [intros E; discriminate E|reflexivity]. }
  split; [right; left; reflexivity|]. split; [vm_compute; reflexivity|]. split; [vm_compute; reflexivity|]. discriminate.
Qed.

(** @C73 Nor does a client notice that its parameters are stale, or that an answer is not its own.
    In the first history the server's rows change between the client's download and its query:
    the client reads chunks that are neither those of the old row nor of the new one. In the
    second, two clients exchange answers by mistake: again no error, and no row of the database. *)
Lemma index_mismatch_detected_refuted :
  (exists prg r1 r2 tape row chunks, ir_m r1 = ir_m r2 /\ ir_es r1 = ir_es r2 /\ ir_pb r1 = ir_pb r2 /\ ir_dim r1 = ir_dim r2 /\
     v_reads (v_run (index_mode prg true) (empty_service 1)
       [Build 0 r1; Join 0 tape; Build 0 r2; Ask 0 row; Serve 0 0; Read 0 row 0]) = [(0%nat, row, 0%nat, Ok chunks)] /\
     (forall elem, In elem (ir_strs r1 ++ ir_strs r2) -> forall bytes, b64_decode elem = Ok bytes -> map (chunk bytes 10) (seq 0 2) <> chunks)) /\
  (exists prg r tape1 tape2 row1 row2 chunks,
     v_reads (v_run (index_mode prg true) (empty_service 1)
       [Build 0 r; Join 0 tape1; Join 0 tape2; Ask 0 row1; Ask 1 row2; Serve 0 0; Serve 1 0; Read 1 row2 0]) = [(1%nat, row2, 0%nat, Ok chunks)] /\
     (forall elem, In elem (ir_strs r) -> forall bytes, b64_decode elem = Ok bytes -> map (chunk bytes 10) (seq 0 2) <> chunks)).
Proof.
  assert (F : forall elems chunks, Forall (fun e => b64_decode (b64_encode e) = Ok e /\ map (chunk e 10) (seq 0 2) <> chunks) elems ->
    forall elem, In elem (map b64_encode elems) -> forall bytes, b64_decode elem = Ok bytes -> map (chunk bytes 10) (seq 0 2) <> chunks).
  { intros elems chunks H elem Hin bytes Hd. apply in_map_iff in Hin as (e & <- & He). rewrite Forall_forall in H.
    destruct (H e He) as [Hd' Hc]. rewrite Hd in Hd'. injection Hd' as ->. exact Hc. }
  split.
  - exists sv_prg, (sv_request 1 sv_elems), (sv_request 1 [[9; 9]; [100; 50]; [200; 3]]), sv_tape1, 1%nat, [393; 39].
    do 4 (split; [reflexivity|]). split; [vm_compute; reflexivity|]. cbn [sv_request ir_strs]. rewrite <- map_app. apply F.
    repeat (constructor; [split; [vm_compute; reflexivity|vm_compute; discriminate]|]). constructor.
  - exists sv_prg, (sv_request 1 sv_elems), sv_tape1, sv_tape2, 1%nat, 2%nat.
    eexists. split; [vm_compute; reflexivity|]. cbn [sv_request ir_strs]. apply F.
    repeat (constructor; [split; [vm_compute; reflexivity|vm_compute; discriminate]|]). constructor.
Qed.

(** @C73 It is not bad luck: for every two databases of the same shape, whatever their contents
    and seeds, and every client of the first, a query answered by the second is read without an
    error. Nothing in parameters, queries or answers lets a client tell. *)
Lemma index_mismatch_never_detected : forall prg dbg seed1 seed2 strs1 strs2 dim1 dim2 m es pb w s1 s2 tape rest qp qp' row q,
  (1 <= pb <= 31)%nat -> is_ceil_div es pb w -> Z.of_nat es < 2 ^ 64 ->
  shard_from_base64_strings prg dbg seed1 strs1 dim1 m es pb = Ok s1 ->
  shard_from_base64_strings prg dbg seed2 strs2 dim2 m es pb = Ok s2 ->
  generate_index_query_params (index_common_params prg (sh_params s1)) (sh_params s1) tape = Ok (qp, rest) ->
  index_generate_query dbg qp row = (qp', Ok q) ->
  exists bytes resp chunks, shard_respond s2 q = Ok bytes /\ bincode_de_vec_u32 bytes = Ok resp /\
    index_parse_resp_as_row dbg qp' resp = Ok chunks /\ length chunks = w.
Proof.
  intros prg dbg seed1 seed2 strs1 strs2 dim1 dim2 m es pb w s1 s2 tape rest qp qp' row q Hpb Hw H64 B1 B2 J A.
  destruct (shard_inv prg dbg seed1 strs1 dim1 m es pb w s1 ltac:(lia) Hw B1) as (Hm & el1 & S1 & ->).
  destruct (shard_inv prg dbg seed2 strs2 dim2 m es pb w s2 ltac:(lia) Hw B2) as (_ & el2 & S2 & _).
  cbn [sh_params shard_of] in J. apply gen_qp_inv in J as [Ht E].
  assert (Hl : length (qp_lhs qp) = m).
  { rewrite E. cbn [qp_lhs qp_of]. rewrite masked_lhs_length. apply pubmat_shape. }
  assert (Hq : length q = m).
  { unfold index_generate_query in A. destruct (qp_used qp); [discriminate|]. assert (A2 := f_equal snd A). cbn [snd] in A2.
    apply bind_Ok in A2 as (d & _ & A2). apply bind_Ok in A2 as (x & _ & A2). destruct (negb _); [|discriminate].
    unfold set in A2. destruct (row <? length (qp_lhs qp))%nat; [|discriminate]. injection A2 as <-. now rewrite length_upd. }
  assert (Hqp' : qp' = set_used true qp).
  { destruct (index_ask_keeps dbg qp row) as (b & Eb). rewrite A in Eb. cbn [fst] in Eb. unfold index_generate_query in A.
    destruct (qp_used qp); [discriminate|]. exact (eq_sym (f_equal fst A)). }
  destruct (respond_shape prg dbg seed2 strs2 el2 dim2 m es pb w s2 q ltac:(lia) Hw H64 B2 (proj1 S2)) as (bytes & resp & R1 & R2 & R3 & _); auto.
  { intros i Hi. apply S2. exact Hi. }
  exists bytes, resp. destruct (parse_total dbg qp' pb w) as [PT _].
  - rewrite Hqp', E. reflexivity.
  - exact Hpb.
  - rewrite Hqp', E. exact Hw.
  - rewrite Hqp', E. cbn [set_used qp_rhs qp_of]. rewrite map_length. unfold rhs_of. rewrite map_length, seq_length. lia.
  - destruct (PT resp ltac:(lia)) as (row' & P1 & P2 & _). exists row'. auto.
Qed.
