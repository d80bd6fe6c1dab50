(** * Proofs for C86: the two build profiles agree wherever debug does not panic. *)
From Verif Require Import Api Bfuse Fuse Xor.
Local Open Scope Z_scope.

Definition agree {A} (d r : res A) : Prop := d = Panic \/ d = r.

Lemma agree_refl : forall A (x : res A), agree x x.
Proof. intros. right. reflexivity. Qed.

Lemma agree_panic : forall A (x : res A), agree Panic x.
Proof. intros. left. reflexivity. Qed.

Lemma agree_bind : forall A B (d r : res A) (k k' : A -> res B),
  agree d r -> (forall a, agree (k a) (k' a)) -> agree (bind d k) (bind r k').
Proof.
  intros A B d r k k' [H|H] Hk; subst.
  - left. reflexivity.
  - destruct r; cbn [bind]; try apply agree_refl. apply Hk.
Qed.

Lemma agree_mapM : forall A B (f g : A -> res B) l,
  (forall a, agree (f a) (g a)) -> agree (mapM f l) (mapM g l).
Proof.
  intros A B f g l H. induction l as [|x l IH]; cbn [mapM].
  - apply agree_refl.
  - apply agree_bind; [apply H|intros]. apply agree_bind; [apply IH|intros]. apply agree_refl.
Qed.

Lemma agree_foldM : forall A S (f g : S -> A -> res S) l s,
  (forall s a, agree (f s a) (g s a)) -> agree (foldM f l s) (foldM g l s).
Proof.
  intros A S f g l s H. revert s. induction l as [|x l IH]; intros s; cbn [foldM].
  - apply agree_refl.
  - apply agree_bind; [apply H|intros; apply IH].
Qed.

Lemma agree_unwrap : forall A (d r : res A), agree d r -> agree (unwrap d) (unwrap r).
Proof. intros A d r [H|H]; subst; [left; reflexivity|apply agree_refl]. Qed.

Lemma agree_map_all : forall A B (f g : A -> res B) l,
  (forall a, agree (f a) (g a)) -> agree (map_all f l) (map_all g l).
Proof.
  intros A B f g l H. induction l as [|x l IH]; cbn [map_all].
  - apply agree_refl.
  - destruct (H x) as [E|E]; rewrite E.
    + apply agree_panic.
    + destruct (g x); try apply agree_refl;
        (apply agree_bind; [apply IH|intros; apply agree_refl]).
Qed.

Lemma agree_chk : forall m v, agree (chk true m v) (chk false m v).
Proof.
  intros m v. unfold chk. destruct ((0 <=? v) && (v <? m)).
  - apply agree_refl.
  - apply agree_panic.
Qed.

Lemma agree_if_dbg : forall A b (d r : res A),
  agree d r -> agree (if true && b then Panic else d) (if false && b then Panic else r).
Proof. intros A b d r H. cbn [andb]. destruct b; [apply agree_panic|exact H]. Qed.

Create HintDb agr discriminated.
#[global] Hint Constants Opaque : agr.
#[global] Hint Resolve agree_chk : agr.

Ltac ag1 :=
  match goal with
  | |- forall _, _ => intro
  | |- agree ?a ?a => apply agree_refl
  | |- agree Panic _ => apply agree_panic
  | |- agree (if true && _ then Panic else _) (if false && _ then Panic else _) =>
      apply agree_if_dbg
  | |- agree (let _ := _ in _) _ => cbv zeta
  | |- agree _ (let _ := _ in _) => cbv zeta
  | |- agree (bind _ _) (bind _ _) => apply agree_bind
  | |- agree (mapM _ _) (mapM _ _) => apply agree_mapM
  | |- agree (foldM _ _ _) (foldM _ _ _) => apply agree_foldM
  | |- agree (map_all _ _) (map_all _ _) => apply agree_map_all
  | |- agree (unwrap _) (unwrap _) => apply agree_unwrap
  | |- agree (match ?x with _ => _ end) (match ?x with _ => _ end) => destruct x
  | |- _ => solve [auto with agr nocore]
  end.
Ltac ag := repeat ag1.
Ltac agu f := intros; unfold f; ag.

(** ** Words, hashes, filters *)
Lemma agree_add8 : forall a b, agree (add8 true a b) (add8 false a b).
Proof. agu add8. Qed.
Lemma agree_sub8 : forall a b, agree (sub8 true a b) (sub8 false a b).
Proof. agu sub8. Qed.
Lemma agree_add32 : forall a b, agree (add32 true a b) (add32 false a b).
Proof. agu add32. Qed.
Lemma agree_sub32 : forall a b, agree (sub32 true a b) (sub32 false a b).
Proof. agu sub32. Qed.
Lemma agree_mul32 : forall a b, agree (mul32 true a b) (mul32 false a b).
Proof. agu mul32. Qed.
#[global] Hint Resolve agree_add8 agree_sub8 agree_add32 agree_sub32 agree_mul32 : agr.

Lemma agree_hash_of_hash : forall h a b c,
  agree (hash_of_hash true h a b c) (hash_of_hash false h a b c).
Proof. agu hash_of_hash. Qed.
#[global] Hint Resolve agree_hash_of_hash : agr.

Lemma agree_segment_length : forall fe n, agree (segment_length true fe n) (segment_length false fe n).
Proof.
  intros. unfold segment_length. destruct (Z.of_nat n mod two32 =? 0); [apply agree_refl|].
  cbv zeta. destruct (fe_exp fe n <? 32); [apply agree_refl|apply agree_panic].
Qed.
#[global] Hint Resolve agree_segment_length : agr.

Lemma agree_geometry : forall fe n, agree (geometry true fe n) (geometry false fe n).
Proof. agu geometry. Qed.
#[global] Hint Resolve agree_geometry : agr.

Lemma agree_bump : forall p h i t, agree (bump true p h i t) (bump false p h i t).
Proof. agu bump. Qed.
Lemma agree_unbump : forall p h i t, agree (unbump true p h i t) (unbump false p h i t).
Proof. agu unbump. Qed.
Lemma agree_slots : forall g h, agree (slots true g h) (slots false g h).
Proof. agu slots. Qed.
#[global] Hint Resolve agree_bump agree_unbump agree_slots : agr.

Lemma agree_count_one : forall g st h, agree (count_one true g st h) (count_one false g st h).
Proof. agu count_one. Qed.
Lemma agree_peel_step : forall g n st, agree (peel_step true g n st) (peel_step false g n st).
Proof. agu peel_step. Qed.
#[global] Hint Resolve agree_count_one agree_peel_step : agr.

Lemma agree_peel : forall fuel g n st, agree (peel fuel true g n st) (peel fuel false g n st).
Proof.
  induction fuel as [|f IH]; intros g n st; cbn [peel]; destruct (fst (fst st)); ag.
Qed.
#[global] Hint Resolve agree_peel : agr.

Lemma agree_attempt : forall g bb n hs st,
  agree (attempt true g bb n hs st) (attempt false g bb n hs st).
Proof. agu attempt. Qed.
#[global] Hint Resolve agree_attempt : agr.

Lemma agree_attempts : forall k g bb n hs d st m,
  agree (attempts k true g bb n hs d st m) (attempts k false g bb n hs d st m).
Proof. induction k as [|k IH]; intros; cbn [attempts]; ag. Qed.
Lemma agree_assign_one : forall g m p l fps hf,
  agree (assign_one true g m p l fps hf) (assign_one false g m p l fps hf).
Proof. agu assign_one. Qed.
#[global] Hint Resolve agree_attempts agree_assign_one : agr.

Lemma agree_bfusep_from_impl : forall k fe rnd seed keys data p l,
  agree (bfusep_from_impl k true fe rnd seed keys data p l)
        (bfusep_from_impl k false fe rnd seed keys data p l).
Proof. agu bfusep_from_impl. Qed.
#[global] Hint Resolve agree_bfusep_from_impl : agr.

Lemma agree_from_slice : forall fe rnd seed keys data l p,
  agree (from_slice true fe rnd seed keys data l p) (from_slice false fe rnd seed keys data l p).
Proof. agu from_slice. Qed.
Lemma agree_from_vec : forall fe rnd seed keys data l p,
  agree (from_vec true fe rnd seed keys data l p) (from_vec false fe rnd seed keys data l p).
Proof. agu from_vec. Qed.
Lemma agree_retrieve : forall f key l, agree (retrieve true f key l) (retrieve false f key l).
Proof. agu retrieve. Qed.
Lemma agree_hash_eval : forall k s a b c, agree (hash_eval true k s a b c) (hash_eval false k s a b c).
Proof. agu hash_eval. Qed.
#[global] Hint Resolve agree_from_slice agree_from_vec agree_retrieve agree_hash_eval : agr.

(** ** The xor-family filters *)
Lemma agree_reduce : forall h n, agree (reduce true h n) (reduce false h n).
Proof. agu reduce. Qed.
Lemma agree_hs_add : forall H i h, agree (hs_add true H i h) (hs_add false H i h).
Proof. agu hs_add. Qed.
Lemma agree_hs_sub : forall H i h, agree (hs_sub true H i h) (hs_sub false H i h).
Proof. agu hs_sub. Qed.
#[global] Hint Resolve agree_reduce agree_hs_add agree_hs_sub : agr.

Lemma agree_bf_attempts : forall k g bb n keys rng seed st,
  agree (bf_attempts k true g bb n keys rng seed st) (bf_attempts k false g bb n keys rng seed st).
Proof. induction k as [|k IH]; intros; cbn [bf_attempts]; ag. Qed.
Lemma agree_bf_assign_one : forall w g fps hf,
  agree (bf_assign_one w true g fps hf) (bf_assign_one w false g fps hf).
Proof. agu bf_assign_one. Qed.
#[global] Hint Resolve agree_bf_attempts agree_bf_assign_one : agr.
Lemma agree_bfuse_from_impl : forall k w fe rnd keys,
  agree (bfuse_from_impl k w true fe rnd keys) (bfuse_from_impl k w false fe rnd keys).
Proof. agu bfuse_from_impl. Qed.
#[global] Hint Resolve agree_bfuse_from_impl : agr.
Lemma agree_bfuse_try_from : forall w fe rnd keys,
  agree (bfuse_try_from w true fe rnd keys) (bfuse_try_from w false fe rnd keys).
Proof. agu bfuse_try_from. Qed.
Lemma agree_bfuse_contains : forall w f key,
  agree (bfuse_contains w true f key) (bfuse_contains w false f key).
Proof. agu bfuse_contains. Qed.

Lemma agree_fuse_hset : forall h sl, agree (fuse_hset true h sl) (fuse_hset false h sl).
Proof. agu fuse_hset. Qed.
#[global] Hint Resolve agree_fuse_hset : agr.
Lemma agree_fuse_add_key : forall sl s H k, agree (fuse_add_key true sl s H k) (fuse_add_key false sl s H k).
Proof. agu fuse_add_key. Qed.
Lemma agree_fuse_pop : forall c sl n ki s, agree (fuse_pop true c sl n ki s) (fuse_pop false c sl n ki s).
Proof. agu fuse_pop. Qed.
#[global] Hint Resolve agree_fuse_add_key agree_fuse_pop : agr.
Lemma agree_fuse_peel : forall fuel c sl n s, agree (fuse_peel fuel true c sl n s) (fuse_peel fuel false c sl n s).
Proof. induction fuel as [|f IH]; intros; cbn [fuse_peel]; ag. Qed.
#[global] Hint Resolve agree_fuse_peel : agr.
Lemma agree_fuse_attempt : forall keys seed, agree (fuse_attempt true keys seed) (fuse_attempt false keys seed).
Proof. agu fuse_attempt. Qed.
#[global] Hint Resolve agree_fuse_attempt : agr.
Lemma agree_fuse_loop : forall k keys rng seed, agree (fuse_loop k true keys rng seed) (fuse_loop k false keys rng seed).
Proof. induction k as [|k IH]; intros; cbn [fuse_loop]; ag. Qed.
Lemma agree_fuse_assign_one : forall w sl B ki, agree (fuse_assign_one w true sl B ki) (fuse_assign_one w false sl B ki).
Proof. agu fuse_assign_one. Qed.
#[global] Hint Resolve agree_fuse_loop agree_fuse_assign_one : agr.
Lemma agree_fuse_from_impl : forall k w rnd keys,
  agree (fuse_from_impl k w true rnd keys) (fuse_from_impl k w false rnd keys).
Proof. agu fuse_from_impl. Qed.
#[global] Hint Resolve agree_fuse_from_impl : agr.
Lemma agree_fuse_try_from : forall w rnd keys,
  agree (fuse_try_from w true rnd keys) (fuse_try_from w false rnd keys).
Proof. agu fuse_try_from. Qed.
Lemma agree_fuse_contains : forall w f key,
  agree (fuse_contains w true f key) (fuse_contains w false f key).
Proof. agu fuse_contains. Qed.

Lemma agree_xor_h : forall i bl h, agree (xor_h true i bl h) (xor_h false i bl h).
Proof. agu xor_h. Qed.
#[global] Hint Resolve agree_xor_h : agr.
Lemma agree_xor_hset : forall h bl, agree (xor_hset true h bl) (xor_hset false h bl).
Proof. agu xor_hset. Qed.
#[global] Hint Resolve agree_xor_hset : agr.
Lemma agree_xor_add_key : forall bl s H k, agree (xor_add_key true bl s H k) (xor_add_key false bl s H k).
Proof. agu xor_add_key. Qed.
Lemma agree_xor_pop : forall c bl n b o ki s, agree (xor_pop true c bl n b o ki s) (xor_pop false c bl n b o ki s).
Proof. agu xor_pop. Qed.
#[global] Hint Resolve agree_xor_add_key agree_xor_pop : agr.
Lemma agree_xor_drain : forall fuel c bl n b o s,
  agree (xor_drain fuel true c bl n b o s) (xor_drain fuel false c bl n b o s).
Proof. induction fuel as [|f IH]; intros; cbn [xor_drain]; ag. Qed.
#[global] Hint Resolve agree_xor_drain : agr.
Lemma agree_xor_peel : forall fuel inner c bl n s,
  agree (xor_peel fuel inner true c bl n s) (xor_peel fuel inner false c bl n s).
Proof. induction fuel as [|f IH]; intros; cbn [xor_peel]; ag. Qed.
#[global] Hint Resolve agree_xor_peel : agr.
Lemma agree_xor_attempt : forall keys seed, agree (xor_attempt true keys seed) (xor_attempt false keys seed).
Proof. agu xor_attempt. Qed.
#[global] Hint Resolve agree_xor_attempt : agr.
Lemma agree_xor_loop : forall k keys rng seed, agree (xor_loop k true keys rng seed) (xor_loop k false keys rng seed).
Proof. induction k as [|k IH]; intros; cbn [xor_loop]; ag. Qed.
Lemma agree_xor_assign_one : forall w bl B ki, agree (xor_assign_one w true bl B ki) (xor_assign_one w false bl B ki).
Proof. agu xor_assign_one. Qed.
#[global] Hint Resolve agree_xor_loop agree_xor_assign_one : agr.
Lemma agree_xor_from : forall tries w keys, agree (xor_from tries w true keys) (xor_from tries w false keys).
Proof. agu xor_from. Qed.
Lemma agree_xor_contains : forall w f key,
  agree (xor_contains w true f key) (xor_contains w false f key).
Proof. agu xor_contains. Qed.

(** ** Formatting and LWE numbers *)
Lemma agree_bits_step : forall bs ib, agree (bits_step true bs ib) (bits_step false bs ib).
Proof. agu bits_step. Qed.
#[global] Hint Resolve agree_bits_step : agr.
Lemma agree_bits_to_bytes_le : forall b, agree (bits_to_bytes_le true b) (bits_to_bytes_le false b).
Proof. agu bits_to_bytes_le. Qed.
#[global] Hint Resolve agree_bits_to_bytes_le : agr.
Lemma agree_bits_to_u32_le : forall b, agree (bits_to_u32_le true b) (bits_to_u32_le false b).
Proof. agu bits_to_u32_le. Qed.
Lemma agree_bytes_from_u32_slice : forall v e t,
  agree (bytes_from_u32_slice true v e t) (bytes_from_u32_slice false v e t).
Proof. agu bytes_from_u32_slice. Qed.
#[global] Hint Resolve agree_bits_to_u32_le agree_bytes_from_u32_slice : agr.
Lemma agree_get_plaintext_size : forall p, agree (get_plaintext_size true p) (get_plaintext_size false p).
Proof. agu get_plaintext_size. Qed.
#[global] Hint Resolve agree_get_plaintext_size : agr.
Lemma agree_get_rounding_factor : forall p, agree (get_rounding_factor true p) (get_rounding_factor false p).
Proof. agu get_rounding_factor. Qed.
#[global] Hint Resolve agree_get_rounding_factor : agr.
Lemma agree_get_rounding_floor : forall p, agree (get_rounding_floor true p) (get_rounding_floor false p).
Proof. agu get_rounding_floor. Qed.
#[global] Hint Resolve agree_get_rounding_floor : agr.

(** ** Databases *)
Lemma agree_chunk_row : forall b p w, agree (chunk_row true b p w) (chunk_row false b p w).
Proof. agu chunk_row. Qed.
Lemma agree_base64_from_u32_slice : forall v e t,
  agree (base64_from_u32_slice true v e t) (base64_from_u32_slice false v e t).
Proof. agu base64_from_u32_slice. Qed.
#[global] Hint Resolve agree_chunk_row agree_base64_from_u32_slice : agr.
Lemma agree_index_construct_row : forall e p w, agree (index_construct_row true e p w) (index_construct_row false e p w).
Proof. agu index_construct_row. Qed.
#[global] Hint Resolve agree_index_construct_row : agr.
Lemma agree_construct_rows : forall es m e p, agree (construct_rows true es m e p) (construct_rows false es m e p).
Proof. agu construct_rows. Qed.
#[global] Hint Resolve agree_construct_rows : agr.
Lemma agree_index_db_new : forall es m e p, agree (index_db_new true es m e p) (index_db_new false es m e p).
Proof. agu index_db_new. Qed.
Lemma agree_index_get_db_entry : forall db i, agree (index_get_db_entry true db i) (index_get_db_entry false db i).
Proof. agu index_get_db_entry. Qed.
Lemma agree_kv_construct_row : forall e p w, agree (kv_construct_row true e p w) (kv_construct_row false e p w).
Proof. agu kv_construct_row. Qed.
#[global] Hint Resolve agree_index_db_new agree_index_get_db_entry agree_kv_construct_row : agr.
Lemma agree_kv_from_base64_strings : forall sha k v e p,
  agree (kv_from_base64_strings sha true k v e p) (kv_from_base64_strings sha false k v e p).
Proof. agu kv_from_base64_strings. Qed.
Lemma agree_get_hash_evals : forall fp k, agree (get_hash_evals true fp k) (get_hash_evals false fp k).
Proof. agu get_hash_evals. Qed.
Lemma agree_kv_ptxt_mod : forall p, agree (kv_ptxt_mod true p) (kv_ptxt_mod false p).
Proof. agu kv_ptxt_mod. Qed.
#[global] Hint Resolve agree_kv_from_base64_strings agree_get_hash_evals agree_kv_ptxt_mod : agr.
Lemma agree_from_kvs : forall fe rnd seed kvs w p,
  agree (from_kvs true fe rnd seed kvs w p) (from_kvs false fe rnd seed kvs w p).
Proof. agu from_kvs. Qed.
#[global] Hint Resolve agree_from_kvs : agr.
Lemma agree_kv_db_new : forall fe rnd seed kvs m e p,
  agree (kv_db_new true fe rnd seed kvs m e p) (kv_db_new false fe rnd seed kvs m e p).
Proof. agu kv_db_new. Qed.
#[global] Hint Resolve agree_kv_db_new : agr.
Lemma agree_kv_db_from_base64_strings : forall sha fe rnd seed ks vs m e p,
  agree (kv_db_from_base64_strings sha true fe rnd seed ks vs m e p)
        (kv_db_from_base64_strings sha false fe rnd seed ks vs m e p).
Proof. agu kv_db_from_base64_strings. Qed.
Lemma agree_kv_get_db_entry : forall db i, agree (kv_get_db_entry true db i) (kv_get_db_entry false db i).
Proof. agu kv_get_db_entry. Qed.
#[global] Hint Resolve agree_kv_db_from_base64_strings agree_kv_get_db_entry : agr.

(** ** The public API *)
Lemma agree_shard_from_base64_strings : forall prg seed es d m e p,
  agree (shard_from_base64_strings prg true seed es d m e p)
        (shard_from_base64_strings prg false seed es d m e p).
Proof. agu shard_from_base64_strings. Qed.
Lemma agree_shard_into_row_iter : forall s, agree (shard_into_row_iter true s) (shard_into_row_iter false s).
Proof. agu shard_into_row_iter. Qed.
Lemma agree_kv_shard_new : forall prg fe rnd fs ps kvs d m e p,
  agree (kv_shard_new prg true fe rnd fs ps kvs d m e p)
        (kv_shard_new prg false fe rnd fs ps kvs d m e p).
Proof. agu kv_shard_new. Qed.
Lemma agree_kv_shard_from_base64_strings : forall sha prg fe rnd fs ps ks vs d m e p,
  agree (kv_shard_from_base64_strings sha prg true fe rnd fs ps ks vs d m e p)
        (kv_shard_from_base64_strings sha prg false fe rnd fs ps ks vs d m e p).
Proof. agu kv_shard_from_base64_strings. Qed.
Lemma agree_kv_shard_into_row_iter : forall s, agree (kv_shard_into_row_iter true s) (kv_shard_into_row_iter false s).
Proof. agu kv_shard_into_row_iter. Qed.
Lemma agree_round_word : forall a b c d, agree (round_word true a b c d) (round_word false a b c d).
Proof. agu round_word. Qed.
#[global] Hint Resolve agree_round_word agree_shard_from_base64_strings agree_kv_shard_from_base64_strings : agr.
Lemma agree_index_row : forall qp r, agree (index_parse_resp_as_row true qp r) (index_parse_resp_as_row false qp r).
Proof. agu index_parse_resp_as_row. Qed.
Lemma agree_kv_row : forall qp r k, agree (kv_parse_resp_as_row true qp r k) (kv_parse_resp_as_row false qp r k).
Proof. agu kv_parse_resp_as_row. Qed.
#[global] Hint Resolve agree_index_row agree_kv_row : agr.
Lemma agree_index_bytes : forall qp r, agree (index_parse_resp_as_bytes true qp r) (index_parse_resp_as_bytes false qp r).
Proof. agu index_parse_resp_as_bytes. Qed.
Lemma agree_index_base64 : forall qp r, agree (index_parse_resp_as_base64 true qp r) (index_parse_resp_as_base64 false qp r).
Proof. agu index_parse_resp_as_base64. Qed.
Lemma agree_kv_bytes : forall qp r k, agree (kv_parse_resp_as_bytes true qp r k) (kv_parse_resp_as_bytes false qp r k).
Proof. agu kv_parse_resp_as_bytes. Qed.
Lemma agree_kv_base64 : forall qp r k, agree (kv_parse_resp_as_base64 true qp r k) (kv_parse_resp_as_base64 false qp r k).
Proof. agu kv_parse_resp_as_base64. Qed.

Lemma agree_index_query : forall qp i,
  fst (index_generate_query true qp i) = fst (index_generate_query false qp i) /\
  agree (snd (index_generate_query true qp i)) (snd (index_generate_query false qp i)).
Proof.
  intros. unfold index_generate_query. destruct (qp_used qp); cbn [fst snd];
    (split; [reflexivity|ag]).
Qed.
Lemma agree_kv_query : forall qp k,
  fst (kv_generate_query true qp k) = fst (kv_generate_query false qp k) /\
  agree (snd (kv_generate_query true qp k)) (snd (kv_generate_query false qp k)).
Proof.
  intros. unfold kv_generate_query. destruct (qp_used qp); cbn [fst snd];
    (split; [reflexivity|ag]).
Qed.
