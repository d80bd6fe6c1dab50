(** Property theorems; each restates a lemma proved in Claims_profile.v. *)
From Coq Require Import String Permutation.
From Verif Require Import Base Spec SpecProfile Base64 Fmt Mat Lwe Hash Fuse3 Bfusep Db Api Lookup Client Files Xorf Float64 Bfuse Fuse Xor HashProxy Cli Zeroes Claims_profile.
Local Open Scope Z_scope.

(** C86: Index PIR: for every input, each call of the public API that does not panic in a debug build - building a shard from strings or from a file, reading its rows back, making a query, decoding a response in each of the three forms - gives exactly the same result or error in a release build; and a query call leaves the parameters in the same state in both builds, panic or not. *)
Theorem C86_profile_index_api :
  (forall prg seed strs dim m e p,
     release_agrees (fun dbg => shard_from_base64_strings prg dbg seed strs dim m e p)) /\
  (forall prg seed d path dim m e p,
     release_agrees (fun dbg => shard_from_json_file prg dbg seed d path dim m e p)) /\
  (forall d path m e p, release_agrees (fun dbg => index_db_from_file dbg d path m e p)) /\
  (forall sh, release_agrees (fun dbg => shard_into_row_iter dbg sh)) /\
  (forall db i, release_agrees (fun dbg => index_get_db_entry dbg db i)) /\
  (forall qp i, release_agrees (fun dbg => snd (index_generate_query dbg qp i)) /\
     fst (index_generate_query false qp i) = fst (index_generate_query true qp i)) /\
  (forall qp resp, release_agrees (fun dbg => index_parse_resp_as_row dbg qp resp)) /\
  (forall qp resp, release_agrees (fun dbg => index_parse_resp_as_bytes dbg qp resp)) /\
  (forall qp resp, release_agrees (fun dbg => index_parse_resp_as_base64 dbg qp resp)).
Proof. exact profile_index_api. Qed.
Print Assumptions C86_profile_index_api.

(** C86: Keyword PIR: the same for every call of the keyword API, whatever the hash function, the float estimate and the random values used while building. *)
Theorem C86_profile_kv_api :
  (forall prg fe rnd fseed seed kvs dim m e p,
     release_agrees (fun dbg => kv_shard_new prg dbg fe rnd fseed seed kvs dim m e p)) /\
  (forall sha prg fe rnd fseed seed keys values dim m e p,
     release_agrees (fun dbg => kv_shard_from_base64_strings sha prg dbg fe rnd fseed seed
                                  keys values dim m e p)) /\
  (forall sha prg fe rnd fseed seed d path dim m e p,
     release_agrees (fun dbg => kv_shard_from_json_file sha prg dbg fe rnd fseed seed d path
                                  dim m e p)) /\
  (forall sha k v e p, release_agrees (fun dbg => kv_from_base64_strings sha dbg k v e p)) /\
  (forall sh, release_agrees (fun dbg => kv_shard_into_row_iter dbg sh)) /\
  (forall db i, release_agrees (fun dbg => kv_get_db_entry dbg db i)) /\
  (forall qp key, release_agrees (fun dbg => snd (kv_generate_query dbg qp key)) /\
     fst (kv_generate_query false qp key) = fst (kv_generate_query true qp key)) /\
  (forall qp resp key, release_agrees (fun dbg => kv_parse_resp_as_row dbg qp resp key)) /\
  (forall qp resp key, release_agrees (fun dbg => kv_parse_resp_as_bytes dbg qp resp key)) /\
  (forall qp resp key, release_agrees (fun dbg => kv_parse_resp_as_base64 dbg qp resp key)).
Proof. exact profile_kv_api. Qed.
Print Assumptions C86_profile_kv_api.

(** C86: Whole lookups: query, response and decoding run together agree too, for index and keyword lookups, any shard, any random tape. *)
Theorem C86_profile_lookups :
  (forall prg sh r tape, release_agrees (fun dbg => index_lookup prg dbg sh r tape)) /\
  (forall sha prg sh key tape, release_agrees (fun dbg => kv_lookup sha prg dbg sh key tape)).
Proof. exact profile_lookups. Qed.
Print Assumptions C86_profile_lookups.

(** C86: Filters: building and querying each of the filters (binary fuse mod p, binary fuse, fuse, xor and the hashing proxy; every fingerprint width) agree in the two builds, including how many attempts were made, the seed found and every fingerprint stored. *)
Theorem C86_profile_filters :
  (forall fe rnd seed keys data label p,
     release_agrees (fun dbg => from_slice dbg fe rnd seed keys data label p) /\
     release_agrees (fun dbg => from_vec dbg fe rnd seed keys data label p)) /\
  (forall f key label, release_agrees (fun dbg => retrieve dbg f key label)) /\
  (forall w fe rnd keys, release_agrees (fun dbg => bfuse_try_from w dbg fe rnd keys)) /\
  (forall w f key, release_agrees (fun dbg => bfuse_contains w dbg f key)) /\
  (forall w rnd keys, release_agrees (fun dbg => fuse_try_from w dbg rnd keys)) /\
  (forall w f key, release_agrees (fun dbg => fuse_contains w dbg f key)) /\
  (forall tries w keys, release_agrees (fun dbg => xor_from tries w dbg keys)) /\
  (forall w f key, release_agrees (fun dbg => xor_contains w dbg f key)) /\
  (forall (T : Type) (hash : T -> Z) tries w items,
     release_agrees (fun dbg => xor_proxy_from hash tries w dbg items)) /\
  (forall (T : Type) (hash : T -> Z) w f item,
     release_agrees (fun dbg => xor_proxy_contains hash w dbg f item)).
Proof. exact profile_filters. Qed.
Print Assumptions C86_profile_filters.

(** C86: Tools: reading the benchmark settings from the environment or from the command line, and the zero-counting analysis of a filter, agree in the two builds. *)
Theorem C86_profile_tools :
  (forall env, release_agrees (fun dbg => parse_from_env dbg env)) /\
  (forall a b c d, release_agrees (fun dbg => parse_cli_flags dbg a b c d)) /\
  (forall fp, release_agrees (fun dbg => print_zeroes dbg fp)).
Proof. exact profile_tools. Qed.
Print Assumptions C86_profile_tools.

(** C86: The converse fails: there are calls a release build answers on which a debug build panics - asking for the plaintext size and rounding factor at 32 plaintext bits; setting an element count of 2^32; a filter with a modulus below 256, or with a repeated key. *)
Theorem C86_profile_converse_refuted :
  (parse_exp_to_usize true [51; 50] = Panic /\ parse_exp_to_usize false [51; 50] = Ok 0) /\
  (get_plaintext_size true 32 = Panic /\ get_plaintext_size false 32 = Ok 0) /\
  (exists fe rnd seed, let call dbg p := from_slice dbg fe rnd seed [[5; 6; 7; 8]] [3] 0 p in
     call true 16 = Panic /\
     (let* f := call false 16 in retrieve false f [5; 6; 7; 8] 0) = Ok 3 /\
     (let* f := call true 256 in retrieve true f [5; 6; 7; 8] 0) = Ok 3 /\
     (let* f := call false 256 in retrieve false f [5; 6; 7; 8] 0) = Ok 3).
Proof. exact profile_converse_refuted. Qed.
Print Assumptions C86_profile_converse_refuted.

(** C86: The hypotheses are met: a debug run that builds a shard and looks row 1 up returns the stored text, and so does release. *)
Example C86_profile_lookup_run :
  let run dbg :=
    let* sh := shard_from_base64_strings (fun _ n => Z.of_nat n * 7919) dbg (repeat 3 32)
                 [bytes_of "AQID"; bytes_of "/+8A"] 2 2 24 9 in
    index_lookup (fun _ n => Z.of_nat n * 7919) dbg sh 1 [0; 5; 2863311530; 1431655765; 9; 77; 3000000000; 12; 4000000000; 8] in
  run true = Ok (bytes_of "/+8A") /\ run false = run true.
Proof. exact profile_lookup_run. Qed.
