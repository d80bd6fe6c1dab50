(** * Refusal: how often an index query on fresh parameters is refused (src/api.rs:276-294
    returns [ErrorOverflownAdd]), over all public matrices. The public matrix is expanded from a
    seed by the generator [StdRng] (src/utils.rs:54-69); here its output words are given as a
    list, so that all of them can be enumerated. *)
From Verif Require Export Client.
Local Open Scope Z_scope.

(** The generator whose k-th word is the k-th element of [stream]. *)
Definition stream_prg (stream : list Z) : list Z -> nat -> Z := fun _ k => nth k stream 0.

(** A shard is built (src/api.rs:46-56), a client generates parameters from it with the
    randomness [tape] (434-439) and asks for a row (276-294): is the answer the overflow error? *)
Definition index_query_refused (prg : list Z -> nat -> Z) (dbg : bool) (seed : list Z) (strs : list (list Z))
    (dim m es pb row : nat) (tape : list Z) : bool :=
  match (let* sh := shard_from_base64_strings prg dbg seed strs dim m es pb in
         index_client_query prg dbg (sh_params sh) row tape) with
  | Err EOverflownAdd => true
  | _ => false
  end.
