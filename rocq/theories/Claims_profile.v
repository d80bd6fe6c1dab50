(** C86: the debug and the release build give the same results. *)
From Coq Require Import String.
Import String.
From Verif Require Import Base Spec SpecProfile Base64 Fmt Mat Lwe Hash Fuse3 Bfusep Db Api Lookup Client Files Xorf Float64 Bfuse Fuse Xor HashProxy Cli Zeroes Profile_facts.
Local Open Scope Z_scope.
Local Open Scope list_scope.

Lemma of_agree A (call : bool -> res A) : agree (call true) (call false) -> release_agrees call.
Proof. intros [H|H] N; [contradiction|symmetry; exact H]. Qed.

(* two calls in sequence, the second on the pair the first returns *)
Lemma agree_pair : forall A S (q q' : S * res A) B (k k' : S -> A -> res B),
  fst q = fst q' -> agree (snd q) (snd q') ->
  (forall s a, agree (k s a) (k' s a)) ->
  agree (let (s, r) := q in bind r (k s)) (let (s, r) := q' in bind r (k' s)).
Proof.
  intros A S [s r] [s' r'] B k k' E H Hk. cbn [fst snd] in *. subst s'.
  apply agree_bind; [exact H|apply Hk].
Qed.

Lemma agree_index_lookup prg sh r tape :
  agree (index_lookup prg true sh r tape) (index_lookup prg false sh r tape).
Proof.
  unfold index_lookup. apply agree_bind; [apply agree_refl|]. intros [qp t].
  apply (agree_pair _ _ _ _ _
    (fun qp q => let* bytes := shard_respond sh q in let* resp := bincode_de_vec_u32 bytes in
                 index_parse_resp_as_base64 true qp resp)
    (fun qp q => let* bytes := shard_respond sh q in let* resp := bincode_de_vec_u32 bytes in
                 index_parse_resp_as_base64 false qp resp)); try apply agree_index_query.
  intros. apply agree_bind; [apply agree_refl|intros]. apply agree_bind; [apply agree_refl|intros].
  apply agree_index_base64.
Qed.
Lemma agree_kv_lookup sha prg sh k tape :
  agree (kv_lookup sha prg true sh k tape) (kv_lookup sha prg false sh k tape).
Proof.
  unfold kv_lookup. apply agree_bind; [apply agree_refl|]. intros key.
  apply agree_bind; [apply agree_refl|]. intros [qp t].
  apply (agree_pair _ _ _ _ _
    (fun qp q => let* bytes := kv_shard_respond sh q in let* resp := bincode_de_vec_u32 bytes in
                 kv_parse_resp_as_base64 true qp resp key)
    (fun qp q => let* bytes := kv_shard_respond sh q in let* resp := bincode_de_vec_u32 bytes in
                 kv_parse_resp_as_base64 false qp resp key)); try apply agree_kv_query.
  intros. apply agree_bind; [apply agree_refl|intros]. apply agree_bind; [apply agree_refl|intros].
  apply agree_kv_base64.
Qed.

Lemma agree_mul_u32 x y : agree (mul_u32 true x y) (mul_u32 false x y).
Proof. unfold mul_u32. destruct (x * y <? two32); [apply agree_refl|apply agree_panic]. Qed.
#[global] Hint Resolve agree_mul_u32 : agr.
Lemma agree_pow_loop e : forall a b, agree (pow_loop true a b e) (pow_loop false a b e).
Proof. induction e as [e IH|e IH|]; intros; cbn [pow_loop]; ag. Qed.
#[global] Hint Resolve agree_pow_loop : agr.
Lemma agree_u32_pow b e : agree (u32_pow true b e) (u32_pow false b e).
Proof. unfold u32_pow. ag. Qed.
#[global] Hint Resolve agree_u32_pow : agr.
Lemma agree_parse_exp v : agree (parse_exp_to_usize true v) (parse_exp_to_usize false v).
Proof. unfold parse_exp_to_usize. ag. Qed.
#[global] Hint Resolve agree_parse_exp : agr.
Lemma agree_zeroes_step fp s i : agree (zeroes_step true fp s i) (zeroes_step false fp s i).
Proof.
  unfold zeroes_step. destruct s as [z out]. apply agree_bind; [apply agree_refl|]. intros t. cbv zeta.
  apply agree_bind; [|intros; apply agree_refl].
  destruct (window_size <? i)%nat; [|apply agree_refl].
  apply agree_bind; [apply agree_refl|]. intros x. destruct (x =? 0); [|apply agree_refl].
  destruct ((if t =? 0 then z + 1 else z) =? 0); [apply agree_panic|apply agree_refl].
Qed.

(** @C86 Index PIR: for every input, each call of the public API that does not panic in a debug build - building a shard from strings or from a file, reading its rows back, making a query, decoding a response in each of the three forms - gives exactly the same result or error in a release build; and a query call leaves the parameters in the same state in both builds, panic or not. *)
Lemma profile_index_api :
  (forall prg seed strs dim m e p,
     release_agrees (fun dbg => shard_from_base64_strings prg dbg seed strs dim m e p)) /\
  (forall prg seed d path dim m e p,
     release_agrees (fun dbg => shard_from_json_file prg dbg seed d path dim m e p)) /\
  (forall d path m e p, release_agrees (fun dbg => index_db_from_file dbg d path m e p)) /\
  (forall sh, release_agrees (fun dbg => shard_into_row_iter dbg sh)) /\
  (forall db i, release_agrees (fun dbg => index_get_db_entry dbg db i)) /\
  (forall qp i, release_agrees (fun dbg => snd (index_generate_query dbg qp i)) /\
     fst (index_generate_query false qp i) = fst (index_generate_query true qp i)) /\
  (forall qp resp, release_agrees (fun dbg => index_parse_resp_as_row dbg qp resp)) /\
  (forall qp resp, release_agrees (fun dbg => index_parse_resp_as_bytes dbg qp resp)) /\
  (forall qp resp, release_agrees (fun dbg => index_parse_resp_as_base64 dbg qp resp)).
Proof.
  repeat split; intros; try apply of_agree.
  - apply agree_shard_from_base64_strings.
  - unfold shard_from_json_file. ag.
  - unfold index_db_from_file. ag.
  - apply agree_shard_into_row_iter.
  - apply agree_index_get_db_entry.
  - apply agree_index_query.
  - symmetry. apply agree_index_query.
  - apply agree_index_row.
  - apply agree_index_bytes.
  - apply agree_index_base64.
Qed.

(** @C86 Keyword PIR: the same for every call of the keyword API, whatever the hash function, the float estimate and the random values used while building. *)
Lemma profile_kv_api :
  (forall prg fe rnd fseed seed kvs dim m e p,
     release_agrees (fun dbg => kv_shard_new prg dbg fe rnd fseed seed kvs dim m e p)) /\
  (forall sha prg fe rnd fseed seed keys values dim m e p,
     release_agrees (fun dbg => kv_shard_from_base64_strings sha prg dbg fe rnd fseed seed
                                  keys values dim m e p)) /\
  (forall sha prg fe rnd fseed seed d path dim m e p,
     release_agrees (fun dbg => kv_shard_from_json_file sha prg dbg fe rnd fseed seed d path
                                  dim m e p)) /\
  (forall sha k v e p, release_agrees (fun dbg => kv_from_base64_strings sha dbg k v e p)) /\
  (forall sh, release_agrees (fun dbg => kv_shard_into_row_iter dbg sh)) /\
  (forall db i, release_agrees (fun dbg => kv_get_db_entry dbg db i)) /\
  (forall qp key, release_agrees (fun dbg => snd (kv_generate_query dbg qp key)) /\
     fst (kv_generate_query false qp key) = fst (kv_generate_query true qp key)) /\
  (forall qp resp key, release_agrees (fun dbg => kv_parse_resp_as_row dbg qp resp key)) /\
  (forall qp resp key, release_agrees (fun dbg => kv_parse_resp_as_bytes dbg qp resp key)) /\
  (forall qp resp key, release_agrees (fun dbg => kv_parse_resp_as_base64 dbg qp resp key)).
Proof.
  repeat split; intros; try apply of_agree.
  - apply agree_kv_shard_new.
  - apply agree_kv_shard_from_base64_strings.
  - unfold kv_shard_from_json_file. ag.
  - apply agree_kv_from_base64_strings.
  - apply agree_kv_shard_into_row_iter.
  - apply agree_kv_get_db_entry.
  - apply agree_kv_query.
  - symmetry. apply agree_kv_query.
  - apply agree_kv_row.
  - apply agree_kv_bytes.
  - apply agree_kv_base64.
Qed.

(** @C86 Whole lookups: query, response and decoding run together agree too, for index and keyword lookups, any shard, any random tape. *)
Lemma profile_lookups :
  (forall prg sh r tape, release_agrees (fun dbg => index_lookup prg dbg sh r tape)) /\
  (forall sha prg sh key tape, release_agrees (fun dbg => kv_lookup sha prg dbg sh key tape)).
Proof.
  split; intros; apply of_agree; [apply agree_index_lookup|apply agree_kv_lookup].
Qed.

(** @C86 Filters: building and querying each of the filters (binary fuse mod p, binary fuse, fuse, xor and the hashing proxy; every fingerprint width) agree in the two builds, including how many attempts were made, the seed found and every fingerprint stored. *)
Lemma profile_filters :
  (forall fe rnd seed keys data label p,
     release_agrees (fun dbg => from_slice dbg fe rnd seed keys data label p) /\
     release_agrees (fun dbg => from_vec dbg fe rnd seed keys data label p)) /\
  (forall f key label, release_agrees (fun dbg => retrieve dbg f key label)) /\
  (forall w fe rnd keys, release_agrees (fun dbg => bfuse_try_from w dbg fe rnd keys)) /\
  (forall w f key, release_agrees (fun dbg => bfuse_contains w dbg f key)) /\
  (forall w rnd keys, release_agrees (fun dbg => fuse_try_from w dbg rnd keys)) /\
  (forall w f key, release_agrees (fun dbg => fuse_contains w dbg f key)) /\
  (forall tries w keys, release_agrees (fun dbg => xor_from tries w dbg keys)) /\
  (forall w f key, release_agrees (fun dbg => xor_contains w dbg f key)) /\
  (forall (T : Type) (hash : T -> Z) tries w items,
     release_agrees (fun dbg => xor_proxy_from hash tries w dbg items)) /\
  (forall (T : Type) (hash : T -> Z) w f item,
     release_agrees (fun dbg => xor_proxy_contains hash w dbg f item)).
Proof.
  repeat split; intros; apply of_agree.
  - apply agree_from_slice.
  - apply agree_from_vec.
  - apply agree_retrieve.
  - apply agree_bfuse_try_from.
  - apply agree_bfuse_contains.
  - apply agree_fuse_try_from.
  - apply agree_fuse_contains.
  - apply agree_xor_from.
  - apply agree_xor_contains.
  - apply agree_xor_from.
  - apply agree_xor_contains.
Qed.

(** @C86 Tools: reading the benchmark settings from the environment or from the command line, and the zero-counting analysis of a filter, agree in the two builds. *)
Lemma profile_tools :
  (forall env, release_agrees (fun dbg => parse_from_env dbg env)) /\
  (forall a b c d, release_agrees (fun dbg => parse_cli_flags dbg a b c d)) /\
  (forall fp, release_agrees (fun dbg => print_zeroes dbg fp)).
Proof.
  repeat split; intros; apply of_agree.
  - unfold parse_from_env. ag.
  - unfold parse_cli_flags. ag.
  - unfold print_zeroes. apply agree_bind; [|intros; apply agree_refl].
    apply agree_foldM. intros. apply agree_zeroes_step.
Qed.

(** @C86 The converse fails: there are calls a release build answers on which a debug build panics - asking for the plaintext size and rounding factor at 32 plaintext bits; setting an element count of 2^32; a filter with a modulus below 256, or with a repeated key. *)
Lemma profile_converse_refuted :
  (parse_exp_to_usize true [51; 50] = Panic /\ parse_exp_to_usize false [51; 50] = Ok 0) /\
  (get_plaintext_size true 32 = Panic /\ get_plaintext_size false 32 = Ok 0) /\
  (exists fe rnd seed, let call dbg p := from_slice dbg fe rnd seed [[5; 6; 7; 8]] [3] 0 p in
     call true 16 = Panic /\
     (let* f := call false 16 in retrieve false f [5; 6; 7; 8] 0) = Ok 3 /\
     (let* f := call true 256 in retrieve true f [5; 6; 7; 8] 0) = Ok 3 /\
     (let* f := call false 256 in retrieve false f [5; 6; 7; 8] 0) = Ok 3).
Proof.
  split; [split; vm_compute; reflexivity|]. split; [split; vm_compute; reflexivity|].
  exists {| fe_exp := fun _ => 2; fe_cap := fun _ => 3 |}, (fun i => Z.of_nat i), (repeat 9 32).
  cbv zeta. split; [vm_compute; reflexivity|]. split.
  - vm_compute; reflexivity.
  - split; vm_compute; reflexivity.
Qed.

(** @C86 The hypotheses are met: a debug run that builds a shard and looks row 1 up returns the stored text, and so does release. *)
Example profile_lookup_run :
  let run dbg :=
    let* sh := shard_from_base64_strings (fun _ n => Z.of_nat n * 7919) dbg (repeat 3 32)
                 [bytes_of "AQID"; bytes_of "/+8A"] 2 2 24 9 in
    index_lookup (fun _ n => Z.of_nat n * 7919) dbg sh 1 [0; 5; 2863311530; 1431655765; 9; 77; 3000000000; 12; 4000000000; 8] in
  run true = Ok (bytes_of "/+8A") /\ run false = run true.
Proof. split; vm_compute; reflexivity. Qed.
