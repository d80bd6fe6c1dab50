(** Facts about Msg. *)
From Coq Require Import String.
From Verif Require Import Base Fmt Mat Lwe Hash Bfusep Db Api Json Files Msg SpecMsg Base_facts Fmt_facts Claims_format Claims_wire.
Local Open Scope Z_scope.

(** ** Calls without errors *)
Definition noerr {A} (r : res A) : Prop := forall e, r <> Err e.
Lemma ne_ok {A} (a : A) : noerr (Ok a). Proof. intros e H. discriminate H. Qed.
Lemma ne_panic {A} : noerr (@Panic A). Proof. intros e H. discriminate H. Qed.
Lemma ne_hang {A} : noerr (@Hang A). Proof. intros e H. discriminate H. Qed.
Lemma ne_bind {A B} (r : res A) (k : A -> res B) : noerr r -> (forall a, noerr (k a)) -> noerr (bind r k).
Proof. intros H K. destruct r as [a|e| |]; cbn [bind]; [apply K|now destruct (H e)|apply ne_panic|apply ne_hang]. Qed.
Lemma ne_mapM {A B} (f : A -> res B) l : (forall a, noerr (f a)) -> noerr (mapM f l).
Proof. intros H. induction l as [|x l IH]; cbn [mapM]; [apply ne_ok|]. apply ne_bind; [apply H|]. intros y. apply ne_bind; [exact IH|]. intros ys. apply ne_ok. Qed.
Lemma ne_foldM {A S} (f : S -> A -> res S) l : (forall s a, noerr (f s a)) -> forall s, noerr (foldM f l s).
Proof. intros H. induction l as [|x l IH]; intros s; cbn [foldM]; [apply ne_ok|]. apply ne_bind; [apply H|]. exact IH. Qed.
Lemma ne_idx {A} (l : list A) i : noerr (idx l i). Proof. unfold idx. destruct (nth_error l i); [apply ne_ok|apply ne_panic]. Qed.
Lemma ne_set {A} (l : list A) i x : noerr (set l i x). Proof. unfold set. destruct (_ <? _)%nat; [apply ne_ok|apply ne_panic]. Qed.
Lemma ne_unwrap {A} (r : res A) : noerr (unwrap r). Proof. destruct r; cbn; first [apply ne_ok|apply ne_panic|apply ne_hang]. Qed.
Lemma ne_divz a b : noerr (divz a b). Proof. unfold divz. destruct (_ =? _); [apply ne_panic|apply ne_ok]. Qed.
Lemma ne_remz a b : noerr (remz a b). Proof. unfold remz. destruct (_ =? _); [apply ne_panic|apply ne_ok]. Qed.
Lemma ne_divn a b : noerr (divn a b). Proof. unfold divn. destruct (_ =? _)%nat; [apply ne_panic|apply ne_ok]. Qed.
Lemma ne_remn a b : noerr (remn a b). Proof. unfold remn. destruct (_ =? _)%nat; [apply ne_panic|apply ne_ok]. Qed.
Lemma ne_chk d m v : noerr (chk d m v). Proof. unfold chk. destruct (_ && _); [apply ne_ok|]. destruct d; [apply ne_panic|apply ne_ok]. Qed.
Ltac ne :=
  repeat first
    [ apply ne_ok | apply ne_panic | apply ne_hang | apply ne_idx | apply ne_set | apply ne_unwrap | apply ne_divz | apply ne_remz
    | apply ne_divn | apply ne_remn | apply ne_chk
    | apply ne_bind; [|intros]
    | apply ne_mapM; intros
    | apply ne_foldM; intros
    | match goal with |- noerr (if ?b then _ else _) => destruct b end
    | match goal with |- noerr (let (_, _) := ?p in _) => destruct p end
    | match goal with |- noerr (match ?p with _ => _ end) => destruct p end ].
Lemma ne_row_width a b : noerr (get_row_width a b). Proof. unfold get_row_width. ne. Qed.
Lemma ne_swap m : noerr (swap_matrix_fmt m). Proof. unfold swap_matrix_fmt, swap_push. ne. Qed.
Lemma ne_rhs prg h w v seed dim : noerr h -> noerr w -> (forall r i, noerr (v r i)) -> noerr (generate_params_rhs prg h w v seed dim).
Proof. intros H W V. unfold generate_params_rhs. apply ne_bind; [exact H|]. intros. apply ne_bind; [apply ne_swap|]. intros. apply ne_bind; [exact W|]. intros. ne. apply V. Qed.
Lemma ne_index_params prg db dim seed : noerr (index_params_new prg db dim seed).
Proof.
  unfold index_params_new. apply ne_bind; [|intros; ne]. apply ne_rhs.
  - unfold index_matrix_height. ne.
  - unfold index_row_width_self. apply ne_row_width.
  - intros. unfold index_vec_mult. ne.
Qed.
Lemma ne_kv_db dbg fe rnd seed kvs m es pb : noerr (kv_db_new dbg fe rnd seed kvs m es pb).
Proof. unfold kv_db_new, from_kvs, kv_ptxt_mod, get_fingerprints_mod. ne. Qed.
Lemma ne_kv_shard prg seed db dim : noerr (kv_shard_of_db prg seed db dim).
Proof.
  unfold kv_shard_of_db, kv_params_new. apply ne_bind; [|intros; ne]. apply ne_bind.
  - apply ne_rhs; unfold kv_matrix_height, kv_row_width_self, kv_vec_mult; intros; ne; apply ne_row_width.
  - intros. unfold kv_matrix_height. ne.
Qed.
Lemma ne_factor dbg pb : noerr (get_rounding_factor dbg pb). Proof. unfold get_rounding_factor, get_plaintext_size. ne. Qed.
Lemma ne_floor dbg pb : noerr (get_rounding_floor dbg pb). Proof. unfold get_rounding_floor. apply ne_bind; [apply ne_factor|]. intros; ne. Qed.
Lemma ne_size dbg pb : noerr (get_plaintext_size dbg pb). Proof. unfold get_plaintext_size. ne. Qed.
Lemma ne_evals dbg fp key : noerr (get_hash_evals dbg fp key).
Proof. unfold get_hash_evals, hash_eval, hash_of_hash. ne. Qed.
Lemma ne_ternary t : noerr (random_ternary t).
Proof. induction t as [|v t IH]; cbn [random_ternary]; [apply ne_hang|]. destruct (_ <? _); [exact IH|apply ne_ok]. Qed.
Lemma ne_ternaries w : forall t, noerr (random_ternary_vector w t).
Proof. induction w as [|w IH]; intros t; cbn [random_ternary_vector]; [apply ne_ok|]. apply ne_bind; [apply ne_ternary|]. intros [a t1]. apply ne_bind; [apply IH|]. intros [b t2]. apply ne_ok. Qed.
Lemma ne_slice_to {A} (l : list A) a b : noerr (slice_to l a b). Proof. unfold slice_to. ne. Qed.
Lemma ne_slice_from {A} (l : list A) a : noerr (slice_from l a). Proof. unfold slice_from. ne. Qed.

Lemma lift_ok {A} (r : res A) f : noerr r -> lift r <> TErr f.
Proof. intros H E. destruct r as [a|e| |]; try discriminate E. now destruct (H e). Qed.

(** ** Forgetting the texts *)
Lemma f_lift {A} (r : res A) : forget (lift r) = r. Proof. destruct r; reflexivity. Qed.
Lemma f_bind {A B} (r : tres A) (k : A -> tres B) r' k' : forget r = r' -> (forall a, forget (k a) = k' a) -> forget (tbind r k) = bind r' k'.
Proof. intros <- H. destruct r; cbn; auto. Qed.
Lemma f_mapM {A B} (f : A -> tres B) g l : (forall a, forget (f a) = g a) -> forget (tmapM f l) = mapM g l.
Proof. intros H. induction l as [|x l IH]; [reflexivity|]. cbn [tmapM mapM]. apply f_bind; [apply H|]. intros y. apply f_bind; [exact IH|]. reflexivity. Qed.
Lemma f_foldM {A S} (f : S -> A -> tres S) g l : (forall s a, forget (f s a) = g s a) -> forall s, forget (tfoldM f l s) = foldM g l s.
Proof. intros H. induction l as [|x l IH]; intros s; [reflexivity|]. cbn [tfoldM foldM]. apply f_bind; [apply H|]. exact IH. Qed.

Lemma f_vec_mult row col : forget (m_vec_mult row col) = vec_mult_u32_u32 row col.
Proof. unfold m_vec_mult, vec_mult_u32_u32. destruct (negb _) eqn:E; [reflexivity|]. rewrite f_lift. reflexivity. Qed.
Lemma f_sized b : forget (m_u32_sized_bytes b) = u32_sized_bytes_from_vec b.
Proof. unfold m_u32_sized_bytes, u32_sized_bytes_from_vec. now destruct (_ =? _)%nat. Qed.
Lemma f_bits dbg b : forget (m_bits_to_u32 dbg b) = bits_to_u32_le dbg b.
Proof.
  unfold m_bits_to_u32, bits_to_u32_le. apply f_bind; [apply f_lift|]. intros l. destruct (4 <? length l)%nat; [reflexivity|].
  apply f_bind; [apply f_sized|]. reflexivity.
Qed.
Lemma f_sha sha i : forget (m_sha256_into_u64 sha i) = sha256_into_u64_sized sha i.
Proof. unfold m_sha256_into_u64, sha256_into_u64_sized. destruct (negb _); [reflexivity|apply f_lift]. Qed.
Lemma f_b64 b s : forget (m_b64_decode b s) = Base64.b64_decode s.
Proof. unfold m_b64_decode. destruct (Base64.b64_decode s); reflexivity. Qed.
Lemma f_chunk dbg bits pb w : forget (m_chunk_row dbg bits pb w) = chunk_row dbg bits pb w.
Proof. unfold m_chunk_row, chunk_row. apply f_mapM. intros i. cbv zeta. apply f_bind; [apply f_lift|]. intros s. apply f_bits. Qed.
Lemma f_index_row b dbg e pb w : forget (m_index_row b dbg e pb w) = index_construct_row dbg e pb w.
Proof. unfold m_index_row, index_construct_row. apply f_bind; [apply f_b64|]. intros bytes. apply f_chunk. Qed.
Lemma f_index_db b dbg l m es pb : forget (m_index_db_new b dbg l m es pb) = index_db_new dbg l m es pb.
Proof.
  unfold m_index_db_new, index_db_new, m_index_rows, construct_rows. apply f_bind.
  - apply f_bind; [apply f_lift|]. intros w. apply f_mapM. intros i. apply f_bind; [apply f_lift|]. intros e. apply f_index_row.
  - intros rows. apply f_bind; [apply f_lift|]. reflexivity.
Qed.
Lemma f_shard b prg dbg seed l dim m es pb :
  forget (m_shard_from_base64_strings b prg dbg seed l dim m es pb) = shard_from_base64_strings prg dbg seed l dim m es pb.
Proof. unfold m_shard_from_base64_strings, shard_from_base64_strings. apply f_bind; [apply f_index_db|]. intros db. apply f_bind; [apply f_lift|]. reflexivity. Qed.
Lemma f_kv_from b sha dbg k v es pb : forget (m_kv_from_base64_strings b sha dbg k v es pb) = kv_from_base64_strings sha dbg k v es pb.
Proof.
  unfold m_kv_from_base64_strings, kv_from_base64_strings. apply f_bind; [apply f_sha|]. intros key. apply f_bind; [|reflexivity].
  unfold m_kv_row, kv_construct_row. apply f_bind; [apply f_lift|]. intros w. apply f_bind; [apply f_b64|]. intros. apply f_chunk.
Qed.
Definition kinds {B} (l : list (failure + B)) : list (error + B) :=
  map (fun x => match x with inl f => inl (f_kind f) | inr b => inr b end) l.
Lemma f_map_all {A B} (f : A -> tres B) g l : (forall a, forget (f a) = g a) ->
  match tmap_all f l with TOk r => map_all g l = Ok (kinds r) | TErr _ => False | TPanic => map_all g l = Panic | THang => map_all g l = Hang end.
Proof.
  intros H. induction l as [|x l IH]; [reflexivity|]. cbn [tmap_all map_all]. rewrite <- H.
  destruct (f x) as [b|e| |]; cbn [forget]; try reflexivity;
    (destruct (tmap_all f l) as [r|e'| |]; cbn [tbind]; [rewrite IH; reflexivity|contradiction|rewrite IH; reflexivity|rewrite IH; reflexivity]).
Qed.
Lemma f_collect {B} (l : list (failure + B)) : forget (tcollect l) = collect_results (kinds l).
Proof. induction l as [|[f|b] l IH]; [reflexivity|reflexivity|]. cbn [tcollect kinds map collect_results]. apply f_bind; [exact IH|reflexivity]. Qed.
Lemma f_kv_db b sha dbg fe rnd seed keys values m es pb :
  forget (m_kv_db b sha dbg fe rnd seed keys values m es pb) = kv_db_from_base64_strings sha dbg fe rnd seed keys values m es pb.
Proof.
  unfold m_kv_db, kv_db_from_base64_strings. destruct (negb _); [reflexivity|].
  set (F := fun i => tbind (lift (idx keys i)) _). set (G := fun i => bind (idx keys i) _).
  assert (E : forall i, forget (F i) = G i).
  { intros i. apply f_bind; [apply f_lift|]. intros k. apply f_bind; [apply f_lift|]. intros v. apply f_kv_from. }
  pose proof (f_map_all F G (seq 0 (length keys)) E) as H. destruct (tmap_all F _) as [r|e| |]; cbn [tbind forget]; [|contradiction|now rewrite H|now rewrite H].
  rewrite H. cbn [bind]. rewrite <- f_collect. destruct (tcollect r); cbn [forget]; [apply f_lift|reflexivity..].
Qed.
Lemma f_kv_shard b sha prg dbg fe rnd fseed seed keys values dim m es pb :
  forget (m_kv_shard b sha prg dbg fe rnd fseed seed keys values dim m es pb) = kv_shard_from_base64_strings sha prg dbg fe rnd fseed seed keys values dim m es pb.
Proof. unfold m_kv_shard, kv_shard_from_base64_strings. apply f_bind; [apply f_kv_db|]. intros db. apply f_lift. Qed.
Lemma f_mult_right rhs s : forget (m_mult_right rhs s) = mult_right rhs s.
Proof. unfold m_mult_right, mult_right. apply f_mapM. intros i. apply f_bind; [apply f_lift|]. intros. apply f_vec_mult. Qed.
Lemma f_mult_left cp s t : forget (m_mult_left cp s t) = mult_left cp s t.
Proof.
  unfold m_mult_left, mult_left. apply f_foldM. intros [acc t'] i. apply f_bind; [apply f_lift|]. intros col.
  apply f_bind; [apply f_vec_mult|]. intros x. apply f_bind; [apply f_lift|]. intros [e t2]. reflexivity.
Qed.
Lemma f_index_params cp p t : forget (m_index_query_params cp p t) = generate_index_query_params cp p t.
Proof.
  unfold m_index_query_params, generate_index_query_params. apply f_bind; [apply f_lift|]. intros [s t1].
  apply f_bind; [apply f_mult_left|]. intros [lhs t2]. apply f_bind; [apply f_mult_right|]. reflexivity.
Qed.
Lemma f_kv_params cp p t : forget (m_kv_query_params cp p t) = generate_kv_query_params cp p t.
Proof.
  unfold m_kv_query_params, generate_kv_query_params. apply f_bind; [apply f_lift|]. intros [s t1].
  apply f_bind; [apply f_mult_left|]. intros [lhs t2]. apply f_bind; [apply f_mult_right|]. reflexivity.
Qed.
Lemma f_index_query dbg qp r : forget (m_index_query dbg qp r) = snd (index_generate_query dbg qp r).
Proof.
  unfold m_index_query, index_generate_query. destruct (qp_used qp); [reflexivity|]. cbn [snd]. apply f_bind; [apply f_lift|]. intros q. cbv zeta.
  apply f_bind; [apply f_lift|]. intros x. destruct (negb _); [apply f_lift|reflexivity].
Qed.
Lemma f_kv_query dbg qp key : forget (m_kv_query dbg qp key) = snd (kv_generate_query dbg qp key).
Proof.
  unfold m_kv_query, kv_generate_query. destruct (qp_used qp); [reflexivity|]. cbn [snd]. apply f_bind; [apply f_lift|]. intros q.
  destruct (qp_extra qp); [|reflexivity]. apply f_bind; [apply f_lift|]. intros. apply f_lift.
Qed.
Lemma f_kv_parse dbg qp resp key : forget (m_kv_parse_row dbg qp resp key) = kv_parse_resp_as_row dbg qp resp key.
Proof.
  unfold m_kv_parse_row. unfold kv_parse_resp_as_row at 2.
  destruct (get_rounding_factor dbg (qp_plaintext_bits qp)) eqn:E1; try reflexivity. cbn [lift tbind bind].
  destruct (get_rounding_floor dbg (qp_plaintext_bits qp)) eqn:E2; try reflexivity. cbn [lift tbind bind].
  destruct (get_plaintext_size dbg (qp_plaintext_bits qp)) eqn:E3; try reflexivity. cbn [lift tbind bind].
  destruct (qp_extra qp) eqn:E4; [|reflexivity]. rewrite f_lift. unfold kv_parse_resp_as_row. rewrite E1, E2, E3, E4. reflexivity.
Qed.

(** ** Decimal notation *)
Lemma show_count n : is_length n -> show n = SpecWire.count n.
Proof. intros H. unfold show, SpecWire.count. apply dec_of_number. split; [lia|exact H]. Qed.
Definition reading (l : list Z) : Z := fold_left (fun a c => 10 * a + (c - 48)) l 0.
Lemma dec_digits_read f : forall x, 0 <= x < 10 ^ Z.of_nat f -> reading (dec_digits f x) = x.
Proof.
  induction f as [|f IH]; intros x H.
  - change (10 ^ Z.of_nat 0) with 1 in H. cbn. lia.
  - cbn [dec_digits]. destruct (Z.ltb_spec x 10) as [L|L].
    + unfold reading. cbn [fold_left]. lia.
    + rewrite Nat2Z.inj_succ, Z.pow_succ_r in H by lia. unfold reading. rewrite fold_left_app. cbn [fold_left]. fold (reading (dec_digits f (x / 10))).
      rewrite IH by (split; [apply Z.div_pos; lia|apply Z.div_lt_upper_bound; lia]). pose proof (Z.div_mod x 10 ltac:(lia)). lia.
Qed.
Lemma dec_digits_range f : forall x, 0 <= x -> Forall (fun c => 48 <= c <= 57) (dec_digits f x).
Proof.
  induction f as [|f IH]; intros x H; cbn [dec_digits]; [constructor|]. destruct (Z.ltb_spec x 10) as [L|L]; [repeat constructor; lia|].
  apply Forall_app. split; [apply IH, Z.div_pos; lia|]. pose proof (Z.mod_pos_bound x 10 ltac:(lia)). repeat constructor; lia.
Qed.
Lemma count_inj a b : is_length a -> is_length b -> SpecWire.count a = SpecWire.count b -> a = b.
Proof.
  intros A B E. rewrite <- !show_count in E by assumption. unfold show, dec_of in E. apply (f_equal reading) in E.
  unfold is_length in A, B. rewrite !dec_digits_read in E by (split; [lia|eapply Z.lt_trans; [eassumption|reflexivity]]). lia.
Qed.
Lemma count_digits a : is_length a -> Forall (fun c => 48 <= c <= 57) (SpecWire.count a).
Proof. intros A. rewrite <- show_count by exact A. apply dec_digits_range. lia. Qed.
Lemma split_at (l1 l2 r1 r2 : list Z) c d : Forall (fun x => 48 <= x <= 57) l1 -> Forall (fun x => 48 <= x <= 57) l2 -> c < 48 -> d < 48 ->
  l1 ++ c :: r1 = l2 ++ d :: r2 -> l1 = l2 /\ c :: r1 = d :: r2.
Proof.
  intros H1. revert l2. induction H1 as [|x l1 Hx H1 IH]; intros l2 H2 C D E; destruct H2 as [|y l2 Hy H2]; cbn [app] in E.
  - split; [reflexivity|exact E].
  - injection E as -> _. lia.
  - injection E as -> _. lia.
  - injection E as -> E. destruct (IH l2 H2 C D E) as [-> E']. split; [reflexivity|exact E'].
Qed.
Lemma two_counts p q s a b a' b' c q' d s' : q = c :: q' -> s = d :: s' -> c < 48 -> d < 48 -> is_length a -> is_length b -> is_length a' -> is_length b' ->
  p ++ SpecWire.count a ++ q ++ SpecWire.count b ++ s = p ++ SpecWire.count a' ++ q ++ SpecWire.count b' ++ s -> a = a' /\ b = b'.
Proof.
  intros -> -> C D A B A' B' E. apply app_inv_head in E. cbn [app] in E.
  apply split_at in E as [E1 E2]; try apply count_digits; try assumption.
  change ((c :: q') ++ SpecWire.count b ++ d :: s' = (c :: q') ++ SpecWire.count b' ++ d :: s') in E2. apply app_inv_head in E2.
  apply split_at in E2 as [E2 _]; try apply count_digits; try assumption. split; apply count_inj; assumption.
Qed.
