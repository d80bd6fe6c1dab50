(** * Service: many clients, many servers, and a network between them.
    The crate is a library; this is the system its README and benches/bench.rs describe, made of
    the calls of src/api.rs only: servers hold [Shard]s (lines 22-98, 113-244) in numbered
    places and may rebuild the shard of a place from its input at any time (a restart: the code
    stores no state it can reload, see C41); clients download the parameters of a place and make
    [QueryParams] (434-447), ask ([generate_query], 276-294 / 348-364), and read answers
    ([parse_resp_as_row], 297-318 / 367-402). The network keeps everything that was ever sent:
    it delivers any query to any place, any number of times and in any order, and shows any
    answer to any client; a message never delivered is lost. It does not forge messages.
    Clients hold parameters as in [History] (clone, assignment of the public field [used]).
    One definition for both modes: the mode's functions are arguments. *)
From Verif Require Export Api.
Local Open Scope Z_scope.

(** [R]: what a server gives when it builds a shard; [S]: a shard; [X]: what a client asks for. *)
Record mode (R S X : Type) := {
  m_build : R -> res S;                                        (* Shard::new / from_base64_strings *)
  m_join : S -> list Z -> res (query_params * list Z);         (* generate_*_query_params *)
  m_ask : query_params -> X -> query_params * res (list Z);    (* generate_query *)
  m_respond : S -> list Z -> res (list Z);                     (* respond *)
  m_read : query_params -> X -> list Z -> res (list Z) }.      (* deserialise, parse_resp_as_row *)
Arguments m_build {R S X}. Arguments m_join {R S X}. Arguments m_ask {R S X}.
Arguments m_respond {R S X}. Arguments m_read {R S X}.

Inductive event (R X : Type) : Type :=
| Build (place : nat) (r : R)          (* build the shard of a place, or build it again *)
| Join (place : nat) (tape : list Z)   (* a new client, with its randomness *)
| Clone (client : nat)
| SetUsed (client : nat) (b : bool)
| Ask (client : nat) (x : X)
| Serve (query place : nat)            (* a query reaches a place *)
| Read (client : nat) (x : X) (answer : nat).
Arguments Build {R X}. Arguments Join {R X}. Arguments Clone {R X}. Arguments SetUsed {R X}.
Arguments Ask {R X}. Arguments Serve {R X}. Arguments Read {R X}.

Record service (S X : Type) := {
  v_places : list (option S);                      (* the shard each place holds now *)
  v_clients : list (query_params * nat * list Z);  (* parameters; the place they came from and
                                                      the randomness they were made with (ghost) *)
  v_queries : list (nat * X * list Z);             (* client, what it asked for, message *)
  v_answers : list (nat * nat * list Z);           (* query, place, message *)
  v_reads : list (nat * X * nat * res (list Z)) }. (* client, what it wants, answer, outcome *)
Arguments v_places {S X}. Arguments v_clients {S X}. Arguments v_queries {S X}.
Arguments v_answers {S X}. Arguments v_reads {S X}. Arguments Build_service {S X}.

Definition empty_service {S X} (places : nat) : service S X :=
  Build_service (repeat None places) [] [] [] [].

(** One event. A call that fails, or an event about something that does not exist, sends
    nothing; a build that fails leaves the place as it was. *)
Definition v_step {R S X} (M : mode R S X) (v : service S X) (e : event R X) : service S X :=
  match e with
  | Build i r =>
      match m_build M r with
      | Ok s => Build_service (upd (v_places v) i (Some s)) (v_clients v) (v_queries v) (v_answers v) (v_reads v)
      | _ => v
      end
  | Join i tape =>
      match nth_error (v_places v) i with
      | Some (Some s) =>
          match m_join M s tape with
          | Ok (qp, _) => Build_service (v_places v) (v_clients v ++ [(qp, i, tape)]) (v_queries v) (v_answers v) (v_reads v)
          | _ => v
          end
      | _ => v
      end
  | Clone c =>
      match nth_error (v_clients v) c with
      | Some qi => Build_service (v_places v) (v_clients v ++ [qi]) (v_queries v) (v_answers v) (v_reads v)
      | None => v
      end
  | SetUsed c b =>
      match nth_error (v_clients v) c with
      | Some (qp, i, t) => Build_service (v_places v) (upd (v_clients v) c (set_used b qp, i, t)) (v_queries v) (v_answers v) (v_reads v)
      | None => v
      end
  | Ask c x =>
      match nth_error (v_clients v) c with
      | Some (qp, i, t) =>
          let (qp', r) := m_ask M qp x in
          Build_service (v_places v) (upd (v_clients v) c (qp', i, t))
            (v_queries v ++ match r with Ok q => [(c, x, q)] | _ => [] end) (v_answers v) (v_reads v)
      | None => v
      end
  | Serve k i =>
      match nth_error (v_queries v) k, nth_error (v_places v) i with
      | Some (_, _, q), Some (Some s) =>
          match m_respond M s q with
          | Ok a => Build_service (v_places v) (v_clients v) (v_queries v) (v_answers v ++ [(k, i, a)]) (v_reads v)
          | _ => v
          end
      | _, _ => v
      end
  | Read c x a =>
      match nth_error (v_clients v) c, nth_error (v_answers v) a with
      | Some (qp, _, _), Some (_, _, bytes) =>
          Build_service (v_places v) (v_clients v) (v_queries v) (v_answers v)
            (v_reads v ++ [(c, x, a, m_read M qp x bytes)])
      | _, _ => v
      end
  end.
Definition v_run {R S X} (M : mode R S X) (v : service S X) (es : list (event R X)) : service S X :=
  fold_left (v_step M) es v.

(** ** The two modes *)

(** What an index server gives when it builds: seed of the public matrix, strings, dimension,
    number of rows, element size and plaintext bits (src/api.rs:46-56). *)
Record index_request := { ir_seed : list Z; ir_strs : list (list Z); ir_dim : nat; ir_m : nat; ir_es : nat; ir_pb : nat }.
Definition index_mode (prg : list Z -> nat -> Z) (dbg : bool) : mode index_request shard nat := {|
  m_build := fun r => shard_from_base64_strings prg dbg (ir_seed r) (ir_strs r) (ir_dim r) (ir_m r) (ir_es r) (ir_pb r);
  m_join := fun s tape => generate_index_query_params (index_common_params prg (sh_params s)) (sh_params s) tape;
  m_ask := index_generate_query dbg;
  m_respond := shard_respond;
  m_read := fun qp _ bytes => let* resp := bincode_de_vec_u32 bytes in index_parse_resp_as_row dbg qp resp |}.

(** A keyword server also draws a filter seed and the words for unused slots
    (src/api.rs:120-143, src/db/kv.rs:45-110, bff-modp/src/prelude/bfusep.rs). *)
Record kv_request := { kr_rnd : nat -> nat -> Z; kr_fseed : list Z; kr_pseed : list Z; kr_kvs : list key_value;
  kr_dim : nat; kr_m : nat; kr_es : nat; kr_pb : nat }.
Definition kv_mode (prg : list Z -> nat -> Z) (dbg : bool) (fe : fest) : mode kv_request kv_shard (list Z) := {|
  m_build := fun r => kv_shard_new prg dbg fe (kr_rnd r) (kr_fseed r) (kr_pseed r) (kr_kvs r) (kr_dim r) (kr_m r) (kr_es r) (kr_pb r);
  m_join := fun s tape => generate_kv_query_params (kv_common_params prg (ks_params s)) (ks_params s) tape;
  m_ask := kv_generate_query dbg;
  m_respond := kv_shard_respond;
  m_read := fun qp key bytes => let* resp := bincode_de_vec_u32 bytes in kv_parse_resp_as_row dbg qp resp key |}.
