(** * Experiment: counting the random tapes on which a complete run of the protocol returns
    something else than the stored row. *)
From Verif Require Export Spec Api.
Local Open Scope Z_scope.

(** The u32 words a draw does not reject (C11), and all tapes of [n] of them. *)
Definition words_below (n : Z) : list Z := map Z.of_nat (seq 0 (Z.to_nat n)).
Definition accepted_words : list Z := filter accepted_word (words_below (2 ^ 32)).

Fixpoint tapes_over (ws : list Z) (n : nat) : list (list Z) :=
  match n with
  | O => [[]]
  | S n => flat_map (fun t => map (fun w => w :: t) ws) (tapes_over ws n)
  end.

(** On how many of the tapes of [n] accepted words does P hold? *)
Definition count_tapes (P : list Z -> bool) (n : nat) : Z :=
  Z.of_nat (length (filter P (tapes_over accepted_words n))).

(** Sum of the squares of a column. *)
Definition sum_squares (d : list Z) : Z := dot d d.

Definition same_row (a b : list Z) : bool := if list_eq_dec Z.eq_dec a b then true else false.

(** Index protocol: query parameters from the tape, query for row [r], answer, decoding; true if
    the query is generated but the run does not end with [expected]. (A query may be refused,
    see C18; then nothing is decoded.) *)
Definition index_run_wrong (prg : list Z -> nat -> Z) (dbg : bool) (sh : shard) (r : nat)
    (expected tape : list Z) : bool :=
  match generate_index_query_params (index_common_params prg (sh_params sh)) (sh_params sh) tape with
  | Ok (qp, _) =>
      match index_generate_query dbg qp r with
      | (qp', Ok q) =>
          match (let* bytes := shard_respond sh q in
                 let* resp := bincode_de_vec_u32 bytes in
                 index_parse_resp_as_row dbg qp' resp) with
          | Ok row => negb (same_row row expected)
          | _ => true
          end
      | (_, _) => false
      end
  | _ => true
  end.

(** Keyword protocol: true if the run does not end with [expected], for whatever reason. *)
Definition kv_run_wrong (prg : list Z -> nat -> Z) (dbg : bool) (sh : kv_shard) (key : list Z)
    (expected tape : list Z) : bool :=
  match generate_kv_query_params (kv_common_params prg (ks_params sh)) (ks_params sh) tape with
  | Ok (qp, _) =>
      match kv_generate_query dbg qp key with
      | (qp', Ok q) =>
          match (let* bytes := kv_shard_respond sh q in
                 let* resp := bincode_de_vec_u32 bytes in
                 kv_parse_resp_as_row dbg qp' resp key) with
          | Ok row => negb (same_row row expected)
          | _ => true
          end
      | (_, _) => true
      end
  | _ => true
  end.
