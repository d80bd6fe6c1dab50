(** C71: what a query gives away, reduced to learning with errors. *)
From Verif Require Import Base Spec SpecFilter SpecLwe Fmt Mat Lwe Hash Fuse3 Bfusep Db Api Client Base_facts Fmt_facts Mat_facts Index_facts IndexProto_facts Filter_facts FilterTop_facts KV_facts Prob_facts Seq_facts Claims_index Claims_filter Claims_kv Claims_kvbuild Claims_prob.
From Coq Require Import Permutation.
Local Open Scope Z_scope.

(** ** Words, tapes and vectors *)

Lemma in_below n x : In x (numbers_below n) <-> 0 <= x < n.
Proof.
  unfold numbers_below. rewrite in_map_iff. split.
  - intros (k & <- & Hk). apply in_seq in Hk. lia.
  - intros H. exists (Z.to_nat x). split; [lia|]. apply in_seq. lia.
Qed.
Lemma nodup_below n : NoDup (numbers_below n).
Proof. unfold numbers_below. apply FinFun.Injective_map_NoDup; [intros a b; apply Nat2Z.inj|apply seq_NoDup]. Qed.
Lemma size_below n : 0 <= n -> size (numbers_below n) = n.
Proof. intros H. unfold size, numbers_below. rewrite map_length, seq_length. lia. Qed.
Lemma in_u32_words x : In x u32_words <-> 0 <= x < 2 ^ 32.
Proof. exact (in_below (2 ^ 32) x). Qed.
Lemma nodup_u32_words : NoDup u32_words.
Proof. exact (nodup_below (2 ^ 32)). Qed.
Lemma size_u32_words : size u32_words = 2 ^ 32.
Proof. apply (size_below (2 ^ 32)). discriminate. Qed.
Lemma count_below_ n k : 0 <= k <= n -> count (fun x => x <? k) (numbers_below n) = k.
Proof.
  intros Hk. transitivity (size (numbers_below k)); [|apply size_below; lia].
  rewrite <- count_true. unfold count. f_equal. apply Nat.le_antisymm; apply NoDup_incl_length.
  - apply NoDup_filter, nodup_below.
  - intros x Hx. apply (proj1 (filter_In _ _ _)) in Hx as [Hx Kx]. apply (proj1 (in_below _ _)) in Hx. apply filter_In. split; [|reflexivity].
    apply (proj2 (in_below _ _)). lia.
  - apply NoDup_filter, nodup_below.
  - intros x Hx. apply (proj1 (filter_In _ _ _)) in Hx as [Hx _]. apply (proj1 (in_below _ _)) in Hx.
    apply filter_In. split; [apply (proj2 (in_below _ _)); lia|lia].
Qed.
Lemma count_words_below k : 0 <= k <= 2 ^ 32 -> count (fun x => x <? k) u32_words = k.
Proof. exact (count_below_ (2 ^ 32) k). Qed.
Global Opaque u32_words.

Lemma Forall_words v : Forall (fun x => In x u32_words) v <-> Forall is_u32 v.
Proof. rewrite !Forall_forall. split; intros H x Hx; [exact (proj1 (in_u32_words x) (H x Hx))|exact (proj2 (in_u32_words x) (H x Hx))]. Qed.
Lemma in_vectors m v : In v (uniform_vectors m) <-> length v = m /\ Forall is_u32 v.
Proof.
  unfold uniform_vectors. rewrite in_sequences. rewrite (Forall_words v). reflexivity.
Qed.
Lemma filter_self {A} (P : A -> bool) l t : Forall (fun x => In x (filter P l)) t -> filter P t = t.
Proof.
  induction 1 as [|x t Hx F IH]; [reflexivity|]. apply (proj1 (filter_In _ _ _)) in Hx as [_ Hx]. cbn [filter]. now rewrite Hx, IH.
Qed.
Lemma in_tapes n t : In t (random_tapes n) -> length (draws t) = n.
Proof.
  unfold random_tapes. intros H. apply (proj1 (in_sequences _ _ _)) in H as [L F]. unfold draws. rewrite map_length.
  rewrite (filter_self accepted_word u32_words t F). exact L.
Qed.

(** ** Planting *)

Lemma plant_length d js v : length (plant d js v) = length v.
Proof. unfold plant. now rewrite map_length, seq_length. Qed.
Lemma nth_plant d js v i : (i < length v)%nat ->
  nth i (plant d js v) 0 = (nth i v 0 + d * Z.of_nat (count_occ Nat.eq_dec js i)) mod 2 ^ 32.
Proof.
  intros H. unfold plant. apply nth_error_nth. rewrite nth_error_map, nth_error_nth' with (d := 0%nat) by now rewrite seq_length.
  cbn [option_map]. now rewrite seq_nth by exact H.
Qed.
Lemma plant_u32 d js v : Forall is_u32 (plant d js v).
Proof. unfold plant. apply Forall_map, Forall_forall. intros i _. apply Z.mod_pos_bound. reflexivity. Qed.
Lemma nth_u32 v i : Forall is_u32 v -> is_u32 (nth i v 0).
Proof.
  intros F. destruct (Nat.lt_ge_cases i (length v)) as [H|H].
  - eapply Forall_forall; [exact F|]. now apply nth_In.
  - rewrite nth_overflow by exact H. split; [discriminate|reflexivity].
Qed.
Lemma plant_nil d v : Forall is_u32 v -> plant d [] v = v.
Proof.
  intros F. apply (nth_ext _ _ 0 0); [apply plant_length|]. intros i Hi. rewrite plant_length in Hi.
  rewrite nth_plant by exact Hi. cbn [count_occ]. rewrite Z.mul_0_r, Z.add_0_r. apply Z.mod_small.
  pose proof (nth_u32 v i F) as U. exact U.
Qed.
Lemma plant_cons d j js v : (j < length v)%nat -> plant d (j :: js) v = plant d js (add_at d v j).
Proof.
  intros Hj. apply (nth_ext _ _ 0 0); [now rewrite !plant_length, add_at_length|]. intros i Hi. rewrite plant_length in Hi.
  rewrite !nth_plant by (rewrite ?add_at_length; exact Hi). rewrite nth_add_at by exact Hj. cbn [count_occ].
  destruct (Nat.eq_dec j i) as [->|N].
  - rewrite Nat.eqb_refl. change two32 with (2 ^ 32). rewrite Zplus_mod_idemp_l. f_equal. lia.
  - destruct (Nat.eqb_spec i j) as [E|_]; [congruence|]. reflexivity.
Qed.
Lemma plant_back d js v : Forall is_u32 v -> plant (- d) js (plant d js v) = v.
Proof.
  intros F. apply (nth_ext _ _ 0 0); [now rewrite !plant_length|]. intros i Hi. rewrite !plant_length in Hi.
  rewrite nth_plant by (rewrite plant_length; exact Hi). rewrite nth_plant by exact Hi. rewrite Zplus_mod_idemp_l.
  set (k := Z.of_nat (count_occ Nat.eq_dec js i)). replace (nth i v 0 + d * k + - d * k) with (nth i v 0) by ring.
  apply Z.mod_small. exact (nth_u32 v i F).
Qed.
Lemma plant_perm d js m : Permutation (map (plant d js) (uniform_vectors m)) (uniform_vectors m).
Proof.
  apply permutes.
  - apply nodup_sequences, nodup_u32_words.
  - intros v H. apply (proj1 (in_vectors _ _)) in H as [L F]. apply (proj2 (in_vectors _ _)). split; [now rewrite plant_length|apply plant_u32].
  - intros x y Hx Hy E. apply (proj1 (in_vectors _ _)) in Hx as [_ Fx]. apply (proj1 (in_vectors _ _)) in Hy as [_ Fy].
    rewrite <- (plant_back d js x Fx), <- (plant_back d js y Fy). now rewrite E.
Qed.

(** ** The mask is an LWE vector *)

Lemma dot_words_mod s c : dot (words s) c mod two32 = dot s c mod two32.
Proof.
  revert c. induction s as [|x s IH]; intros [|y c]; cbn [words map dot]; try reflexivity.
  fold (words s). rewrite Zplus_mod, IH, Zmult_mod_idemp_l, <- Zplus_mod. reflexivity.
Qed.
Lemma masked_is_lwe A dim tape :
  masked_lhs A (words (secret dim tape)) (skipn dim (draws tape)) = lwe_vector A dim tape.
Proof.
  unfold masked_lhs, lwe_vector, secret. apply map_ext. intros i. change (2 ^ 32) with two32.
  rewrite <- Zplus_mod_idemp_l, dot_words_mod, Zplus_mod_idemp_l. reflexivity.
Qed.
Lemma lwe_u32 A dim tape : Forall is_u32 (lwe_vector A dim tape).
Proof. unfold lwe_vector. apply Forall_map, Forall_forall. intros i _. apply Z.mod_pos_bound. reflexivity. Qed.
Lemma lwe_length A dim tape : length (lwe_vector A dim tape) = length A.
Proof. unfold lwe_vector. now rewrite map_length, seq_length. Qed.

Lemma kv_mask prg p tape : Forall (fun c => length c = kp_dim p) (kp_rhs p) -> In tape (random_tapes (kp_dim p + kp_m p)) ->
  exists qp rest, generate_kv_query_params (kv_common_params prg p) p tape = Ok (qp, rest) /\
    qp_lhs qp = lwe_vector (kv_common_params prg p) (kp_dim p) tape /\ qp_used qp = false /\
    qp_plaintext_bits qp = kp_plaintext_bits p /\ qp_extra qp = Some (kp_filter_params p).
Proof.
  intros HR Ht. apply in_tapes in Ht. unfold generate_kv_query_params.
  set (A := kv_common_params prg p).
  assert (HA : shape A (kp_m p) (kp_dim p)) by apply (pubmat_shape prg (kp_public_seed p) (kp_dim p) (kp_m p)).
  destruct HA as [HAl HAF].
  pose proof (random_ternary_vector_draws (kp_dim p) tape) as H1.
  replace (kp_dim p <=? length (draws tape))%nat with true in H1 by lia.
  destruct H1 as (t1 & -> & H2). cbn [bind]. fold (secret (kp_dim p) tape). fold (words (secret (kp_dim p) tape)).
  assert (Hs : length (words (secret (kp_dim p) tape)) = kp_dim p).
  { rewrite words_length. unfold secret. rewrite firstn_length. lia. }
  destruct (mult_left_ok A (words (secret (kp_dim p) tape)) t1) as (t2 & -> & H3).
  { eapply Forall_impl; [|exact HAF]. simpl. intros; congruence. }
  { rewrite H2, skipn_length. lia. }
  cbn [bind]. rewrite mult_right_ok by (rewrite Hs; exact HR). cbn [bind].
  eexists. eexists. split; [reflexivity|]. cbn [qp_lhs qp_used qp_plaintext_bits qp_extra].
  split; [rewrite H2; apply masked_is_lwe|auto].
Qed.
Lemma index_mask prg p tape : Forall (fun c => length c = ip_dim p) (ip_rhs p) -> In tape (random_tapes (ip_dim p + ip_m p)) ->
  exists qp rest, generate_index_query_params (index_common_params prg p) p tape = Ok (qp, rest) /\
    qp_lhs qp = lwe_vector (index_common_params prg p) (ip_dim p) tape /\ qp_used qp = false /\
    qp_plaintext_bits qp = ip_plaintext_bits p.
Proof.
  intros HR Ht. apply in_tapes in Ht. unfold generate_index_query_params.
  set (A := index_common_params prg p).
  assert (HA : shape A (ip_m p) (ip_dim p)) by apply (pubmat_shape prg (ip_public_seed p) (ip_dim p) (ip_m p)).
  destruct HA as [HAl HAF].
  pose proof (random_ternary_vector_draws (ip_dim p) tape) as H1.
  replace (ip_dim p <=? length (draws tape))%nat with true in H1 by lia.
  destruct H1 as (t1 & -> & H2). cbn [bind]. fold (secret (ip_dim p) tape). fold (words (secret (ip_dim p) tape)).
  assert (Hs : length (words (secret (ip_dim p) tape)) = ip_dim p).
  { rewrite words_length. unfold secret. rewrite firstn_length. lia. }
  destruct (mult_left_ok A (words (secret (ip_dim p) tape)) t1) as (t2 & -> & H3).
  { eapply Forall_impl; [|exact HAF]. simpl. intros; congruence. }
  { rewrite H2, skipn_length. lia. }
  cbn [bind]. rewrite mult_right_ok by (rewrite Hs; exact HR). cbn [bind].
  eexists. eexists. split; [reflexivity|]. cbn [qp_lhs qp_used qp_plaintext_bits qp_extra].
  split; [rewrite H2; apply masked_is_lwe|auto].
Qed.

Lemma plant_fold d js : forall v, Forall (fun j => (j < length v)%nat) js -> Forall is_u32 v ->
  foldM (fun lhs row_index => let* x := idx lhs row_index in set lhs row_index (wadd32 x d)) js v = Ok (plant d js v).
Proof.
  induction js as [|j js IH]; intros v F U; cbn [foldM].
  - now rewrite plant_nil.
  - apply Forall_cons_iff in F as [Hj F]. rewrite (idx_nth _ j 0) by exact Hj. cbn [bind]. rewrite set_lt by exact Hj. cbn [bind].
    fold (add_at d v j). rewrite IH; [now rewrite plant_cons| |now apply add_at_u32].
    eapply Forall_impl; [|exact F]. intros a Ha. now rewrite add_at_length.
Qed.

(** @C71 A keyword query is a learning-with-errors vector for the public matrix, with
    delta = 2^32 / 2^plaintext_bits added at the key's slots, and nothing else: for every tape,
    whoever made the public parameters, as long as their right-hand side has the right shape and
    the key's slots are inside the matrix. *)
Lemma kv_query_is_lwe : forall prg dbg p key js tape,
  (1 <= kp_plaintext_bits p <= 31)%nat -> Forall (fun c => length c = kp_dim p) (kp_rhs p) ->
  get_hash_evals dbg (kp_filter_params p) key = Ok js -> Forall (fun j => (j < kp_m p)%nat) js ->
  In tape (random_tapes (kp_dim p + kp_m p)) ->
  kv_client_query prg dbg p key tape =
    Ok (plant (2 ^ (32 - Z.of_nat (kp_plaintext_bits p))) js (lwe_vector (kv_common_params prg p) (kp_dim p) tape)).
Proof.
  intros prg dbg p key js tape Hpb HR Hev Hj Ht. unfold kv_client_query.
  destruct (kv_mask prg p tape HR Ht) as (qp & rest & E & El & Eu & Ep & Ex). rewrite E. cbn [bind].
  unfold kv_generate_query. rewrite Eu, Ex, Ep, get_rounding_factor_ok by exact Hpb. cbn [snd bind]. rewrite Hev. cbn [bind].
  rewrite El. apply plant_fold; [|apply lwe_u32]. rewrite lwe_length.
  replace (length (kv_common_params prg p)) with (kp_m p); [exact Hj|].
  symmetry. apply (pubmat_shape prg (kp_public_seed p) (kp_dim p) (kp_m p)).
Qed.

Lemma size_pos_seq {A} (l : list A) n : 0 < size l -> 0 < size (sequences l n).
Proof.
  intros H. destruct l as [|x l]; [now cbn in H|]. assert (In (repeat x n) (sequences (x :: l) n)).
  { apply in_sequences. split; [apply repeat_length|]. apply Forall_forall. intros y Hy. apply repeat_spec in Hy. subst. now left. }
  unfold size. destruct (sequences (x :: l) n); [contradiction|]. cbn [length]. lia.
Qed.

(** @C71 Keyword queries are as private as learning with errors. A server sees n queries, each
    made with fresh parameters, for one list of keys or for another of the same length. Whatever
    test D it applies to all of them, its advantage in telling the two lists apart is at most the
    sum of the advantages of two tests for learning with errors over the public matrix, and these
    tests only add delta at the slots of the keys before they apply D. (All counts are over the
    same tapes and vectors, so the inequality is one between probabilities.) *)
Lemma kv_queries_private : forall prg dbg p slots keys1 keys2 (D : list (res (list Z)) -> bool),
  (1 <= kp_plaintext_bits p <= 31)%nat -> Forall (fun c => length c = kp_dim p) (kp_rhs p) ->
  (forall key, In key (keys1 ++ keys2) ->
     get_hash_evals dbg (kp_filter_params p) key = Ok (slots key) /\ Forall (fun j => (j < kp_m p)%nat) (slots key)) ->
  length keys1 = length keys2 ->
  let A := kv_common_params prg p in
  let n := length keys1 in
  let T := lwe_tapes A (kp_dim p) n in
  let seen keys := count (fun tapes => D (map2 (kv_client_query prg dbg p) keys tapes)) T in
  let test keys := fun vectors =>
    D (map2 (fun key v => Ok (plant (2 ^ (32 - Z.of_nat (kp_plaintext_bits p))) (slots key) v)) keys vectors) in
  Z.abs (seen keys1 - seen keys2) * size (lwe_uniform A n)
  <= lwe_advantage A (kp_dim p) n (test keys1) + lwe_advantage A (kp_dim p) n (test keys2).
Proof.
  intros prg dbg p slots keys1 keys2 D Hpb HR Hsl Hlen. cbv zeta.
  set (A := kv_common_params prg p). set (d := 2 ^ (32 - Z.of_nat (kp_plaintext_bits p))).
  assert (HA : length A = kp_m p) by apply (pubmat_shape prg (kp_public_seed p) (kp_dim p) (kp_m p)).
  set (test := fun keys vectors => D (map2 (fun key v => Ok (plant d (slots key) v)) keys vectors)).
  assert (S : forall keys, incl keys (keys1 ++ keys2) ->
     count (fun tapes => D (map2 (kv_client_query prg dbg p) keys tapes)) (lwe_tapes A (kp_dim p) (length keys1)) =
     count (fun tapes => test keys (map (lwe_vector A (kp_dim p)) tapes)) (lwe_tapes A (kp_dim p) (length keys1))).
  { intros keys Hk. apply count_ext. intros ts Hts. unfold test. f_equal. rewrite map2_map_r. apply map2_ext.
    intros key t Hkey Ht. destruct (Hsl key (Hk key Hkey)) as [E F]. unfold lwe_tapes in Hts. apply in_sequences in Hts as [_ Hts].
    rewrite Forall_forall in Hts. apply kv_query_is_lwe; auto. rewrite <- HA. apply Hts. exact Ht. }
  assert (U : forall keys, length keys = length keys1 ->
     count (test keys) (lwe_uniform A (length keys1)) = count (fun qs => D (map (@Ok _) qs)) (lwe_uniform A (length keys1))).
  { intros keys L. rewrite <- L. unfold lwe_uniform, test.
    rewrite <- (count_map2_perm (fun key v => plant d (slots key) v) keys (uniform_vectors (length A)) (fun qs => D (map (@Ok _) qs))).
    - apply count_ext. intros v _. now rewrite map2_map.
    - intros k _. apply plant_perm. }
  change (Z.abs (count (fun tapes => D (map2 (kv_client_query prg dbg p) keys1 tapes)) (lwe_tapes A (kp_dim p) (length keys1)) -
                 count (fun tapes => D (map2 (kv_client_query prg dbg p) keys2 tapes)) (lwe_tapes A (kp_dim p) (length keys1)))
            * size (lwe_uniform A (length keys1))
          <= lwe_advantage A (kp_dim p) (length keys1) (test keys1) + lwe_advantage A (kp_dim p) (length keys1) (test keys2)).
  rewrite (S keys1), (S keys2) by (intros x Hx; apply in_or_app; auto).
  unfold lwe_advantage. rewrite (U keys1 eq_refl), (U keys2 (eq_sym Hlen)).
  set (a := count _ (lwe_tapes A (kp_dim p) (length keys1))).
  set (b := count (fun tapes => test keys2 _) (lwe_tapes A (kp_dim p) (length keys1))).
  set (u := size (lwe_uniform A (length keys1))). set (x := count _ (lwe_uniform A (length keys1)) * size (lwe_tapes A (kp_dim p) (length keys1))).
  assert (u0 : 0 <= u) by apply size_count. clearbody a b u x. clear - u0.
  replace (Z.abs (a - b) * u) with (Z.abs (a * u - b * u)); [lia|].
  replace (a * u - b * u) with ((a - b) * u) by ring. rewrite Z.abs_mul, (Z.abs_eq u) by exact u0. reflexivity.
Qed.

(** @C71 The parameters of every key-value shard that is built meet the hypotheses, for every
    key, stored or not. *)
Lemma kv_shard_params_fit : forall prg dbg fe rnd fseed pseed kvs dim m es pb w sh,
  (1 <= pb <= 31)%nat -> is_ceil_div es pb w -> sane_estimates fe (length kvs) ->
  Forall (fun kv => length (kv_value kv) = w) kvs ->
  kv_shard_new prg dbg fe rnd fseed pseed kvs dim m es pb = Ok sh ->
  let p := ks_params sh in
  kp_plaintext_bits p = pb /\ kp_dim p = dim /\ Forall (fun c => length c = kp_dim p) (kp_rhs p) /\
  exists slots, forall key, get_hash_evals dbg (kp_filter_params p) key = Ok (slots key) /\ Forall (fun j => (j < kp_m p)%nat) (slots key).
Proof.
  intros prg dbg fe rnd fseed pseed kvs dim m es pb w sh Hpb Hw Hsane HF Hsh. cbv zeta.
  unfold kv_shard_new in Hsh. apply bind_Ok in Hsh as (db & Hdb & Hsh).
  destruct (kv_db_inv dbg fe rnd fseed kvs m es pb db ltac:(lia) Hdb)
    as (kv0 & g & H0 & Hg & Em & Ees & Epb & Hfp & Hs & HW & _ & HC).
  assert (HW' : length (kv_value kv0) = w).
  { rewrite Forall_forall in HF. apply HF. eapply nth_error_In; eauto. }
  rewrite HW' in *.
  destruct (geometry_valid _ _ _ _ Hsane Hg) as [Vg _].
  rewrite <- Ees, <- Epb in Hw.
  rewrite (kv_shard_of_db_ok prg pseed db dim w (g_arrlen g) w) in Hsh; auto; [|lia|now apply geom_pos].
  injection Hsh as <-. cbn [ks_params kp_plaintext_bits kp_dim kp_rhs kp_filter_params kp_m kv_params_of].
  split; [exact Epb|]. split; [reflexivity|]. split; [apply kv_rhs_lengths|].
  exists (fun key => match hash_eval dbg key fseed (g_seglen g) (g_mask g) (g_scl g) with Ok l => l | _ => [] end). intros key.
  destruct (three_slots dbg dbg fe _ g key fseed Hsane Hg) as (a & b & c & Hev & Hab & Hc & _).
  rewrite Hev, Hfp. split; [exact Hev|].
  repeat (constructor; [lia|]). constructor.
Qed.

(** ** Index queries *)

(** What leaves an index client whose mask is [v]: the query, or the refusal. *)
Definition index_view (d : Z) (r : nat) (v : list Z) : res (list Z) :=
  if nth r v 0 + d <? 2 ^ 32 then Ok (plant d [r] v) else Err EOverflownAdd.

(** @C71 An index query is a learning-with-errors vector with delta added at the row, or the
    overflow error when the sum does not fit in 32 bits (see C18, C20). *)
Lemma index_query_is_lwe : forall prg dbg p r tape,
  (1 <= ip_plaintext_bits p <= 31)%nat -> Forall (fun c => length c = ip_dim p) (ip_rhs p) ->
  (r < ip_m p)%nat -> In tape (random_tapes (ip_dim p + ip_m p)) ->
  let v := lwe_vector (index_common_params prg p) (ip_dim p) tape in
  let delta := 2 ^ (32 - Z.of_nat (ip_plaintext_bits p)) in
  index_client_query prg dbg p r tape =
    if nth r v 0 + delta <? 2 ^ 32 then Ok (plant delta [r] v) else Err EOverflownAdd.
Proof.
  intros prg dbg p r tape Hpb HR Hr Ht. cbv zeta. unfold index_client_query.
  destruct (index_mask prg p tape HR Ht) as (qp & rest & E & El & Eu & Ep). rewrite E. cbn [bind].
  unfold index_generate_query. rewrite Eu, Ep, get_rounding_factor_ok by exact Hpb. cbn [snd bind]. rewrite El.
  set (v := lwe_vector _ _ _). set (d := 2 ^ (32 - _)).
  assert (Hv : (r < length v)%nat).
  { unfold v. rewrite lwe_length. replace (length (index_common_params prg p)) with (ip_m p); [exact Hr|].
    symmetry. apply (pubmat_shape prg (ip_public_seed p) (ip_dim p) (ip_m p)). }
  rewrite (idx_nth _ r 0) by exact Hv. cbn [bind]. change two32 with (2 ^ 32).
  rewrite Z.leb_antisym, negb_involutive. destruct (_ <? _); [|reflexivity].
  rewrite set_lt by exact Hv. f_equal. rewrite plant_cons by exact Hv. rewrite plant_nil; [reflexivity|].
  apply add_at_u32, lwe_u32.
Qed.

Section IDEAL.
Variable m : nat.
Variable pb : nat.
Hypothesis Hpb : (1 <= pb <= 31)%nat.
Notation d := (2 ^ (32 - Z.of_nat pb)).
Notation V := (uniform_vectors m).
Notation P := (2 ^ Z.of_nat pb).

Lemma d_P : d * P = 2 ^ 32 /\ 2 <= d /\ 2 <= P.
Proof.
  split; [rewrite <- Z.pow_add_r by lia; f_equal; lia|]. split; change 2 with (2 ^ 1) at 1; apply Z.pow_le_mono_r; lia.
Qed.

Lemma count_words_from k : 0 <= k <= 2 ^ 32 -> count (fun x => k <=? x) u32_words = 2 ^ 32 - k.
Proof.
  intros Hk. pose proof (count_split (fun _ => true) (fun x => x <? k) u32_words) as S.
  rewrite count_true, size_u32_words in S. cbn [andb] in S. rewrite count_words_below in S by exact Hk.
  rewrite (count_ext (fun x => k <=? x) (fun x => negb (x <? k))); [lia|]. intros x _. apply Z.leb_antisym.
Qed.

Lemma size_V : size V = count (fun _ => true) V. Proof. symmetry. apply count_true. Qed.

(** The refusals are equally frequent for all rows. *)
Lemma count_refused r : (r < m)%nat -> P * count (fun v => 2 ^ 32 <=? nth r v 0 + d) V = size V.
Proof.
  intros Hr. destruct d_P as (E & D2 & P2).
  pose proof (count_position 0 (fun x => 2 ^ 32 - d <=? x) u32_words m r (fun _ => true) Hr (fun _ _ _ _ => eq_refl)) as C.
  rewrite size_u32_words, count_words_from in C by (clear - E D2 P2; nia).
  rewrite (count_ext (fun v => 2 ^ 32 <=? nth r v 0 + d) (fun v => (2 ^ 32 - d <=? nth r v 0) && true)).
  2:{ intros v _. rewrite andb_true_r. destruct (Z.leb_spec (2 ^ 32) (nth r v 0 + d)), (Z.leb_spec (2 ^ 32 - d) (nth r v 0)); auto; lia. }
  fold V in C. rewrite size_V. set (c := count _ V) in C |- *. set (s := count _ V) in C |- *. clearbody c s.
  rewrite <- E in C. replace (d * P - (d * P - d)) with d in C by ring. clear - C D2 E. nia.
Qed.

(** Large at one row, small at another. *)
Lemma count_gap r1 r2 : (r1 < m)%nat -> (r2 < m)%nat -> r1 <> r2 ->
  P ^ 2 * count (fun v => (d <=? nth r1 v 0) && (nth r2 v 0 <? d)) V = (P - 1) * size V.
Proof.
  intros H1 H2 N. destruct d_P as (E & D2 & P2).
  assert (DW : 0 <= d <= 2 ^ 32) by (clear - E D2 P2; nia).
  pose proof (count_position 0 (fun x => d <=? x) u32_words m r1 (fun v => nth r2 v 0 <? d) H1) as C1.
  rewrite size_u32_words, count_words_from in C1 by exact DW. fold V in C1.
  assert (C1' : 2 ^ 32 * count (fun v => (d <=? nth r1 v 0) && (nth r2 v 0 <? d)) V = (2 ^ 32 - d) * count (fun v => nth r2 v 0 <? d) V).
  { apply C1. intros v x _ _. now rewrite nth_upd_ne. }
  pose proof (count_position 0 (fun x => x <? d) u32_words m r2 (fun _ => true) H2 (fun _ _ _ _ => eq_refl)) as C2.
  rewrite size_u32_words, count_words_below in C2 by exact DW. fold V in C2. rewrite count_true in C2.
  rewrite (count_ext _ (fun v => nth r2 v 0 <? d)) in C2 by (intros; apply andb_true_r).
  set (g := count _ V) in *. set (c := count (fun v => nth r2 v 0 <? d) V) in *. set (s := size V) in *. clearbody g c s.
  rewrite <- E in C1', C2.
  assert (Q1 : P * g = (P - 1) * c).
  { apply (Z.mul_cancel_l _ _ d); [lia|]. replace (d * (P * g)) with (d * P * g) by ring. rewrite C1'. ring. }
  assert (Q2 : P * c = s).
  { apply (Z.mul_cancel_l _ _ d); [lia|]. replace (d * (P * c)) with (d * P * c) by ring. rewrite C2. ring. }
  rewrite Z.pow_2_r. replace (P * P * g) with (P * (P * g)) by ring. rewrite Q1, <- Q2. ring.
Qed.

Lemma lsum_le {A} (f g : A -> Z) l : (forall x, In x l -> f x <= g x) -> lsum f l <= lsum g l.
Proof.
  induction l as [|x l IH]; intros H; [reflexivity|]. cbn [lsum]. pose proof (H x (or_introl eq_refl)).
  assert (lsum f l <= lsum g l) by (apply IH; intros; apply H; now right). lia.
Qed.
Lemma lsum_add {A} (f g : A -> Z) l : lsum (fun x => f x + g x) l = lsum f l + lsum g l.
Proof. induction l as [|x l IH]; cbn [lsum]; lia. Qed.

(** One query under a uniform mask: for every non-negative weight of what the server sees. *)
Lemma ideal_one (g : res (list Z) -> Z) M r1 r2 : (r1 < m)%nat -> (r2 < m)%nat ->
  (forall y, 0 <= g y <= M) ->
  P ^ 2 * (lsum (fun v => g (index_view d r1 v)) V - lsum (fun v => g (index_view d r2 v)) V) <= (P - 1) * size V * M.
Proof.
  intros H1 H2 Hg. destruct d_P as (E & D2 & P2).
  assert (M0 : 0 <= M) by (specialize (Hg Hang); lia).
  destruct (Nat.eq_dec r1 r2) as [->|N].
  { rewrite Z.sub_diag, Z.mul_0_r. apply Z.mul_nonneg_nonneg; [|exact M0]. apply Z.mul_nonneg_nonneg; [lia|apply size_count]. }
  set (kk := fun r q => if d <=? nth r q 0 then g (Ok q) else 0).
  assert (SP : forall r, (r < m)%nat ->
    lsum (fun v => g (index_view d r v)) V = lsum (kk r) V + g (Err EOverflownAdd) * count (fun v => 2 ^ 32 <=? nth r v 0 + d) V).
  { intros r Hr. rewrite <- (lsum_perm (kk r) _ _ (plant_perm d [r] m)), lsum_map.
    rewrite (Z.mul_comm (g _)), <- (lsum_if (fun v => 2 ^ 32 <=? nth r v 0 + d)), <- lsum_add. apply lsum_ext. intros v Hv.
    apply (proj1 (in_vectors _ _)) in Hv as [Lv Fv]. pose proof (nth_u32 v r Fv) as B. unfold is_u32, two32 in B.
    unfold kk, index_view. rewrite nth_plant by lia. cbn [count_occ]. destruct (Nat.eq_dec r r) as [_|X]; [|now destruct X].
    change (Z.of_nat 1) with 1. rewrite Z.mul_1_r.
    assert (DW : 0 <= d <= 2 ^ 32) by (clear - E D2 P2; nia). set (dd := d) in *. clearbody dd.
    destruct (Z.ltb_spec (nth r v 0 + dd) (2 ^ 32)) as [L|L].
    - rewrite (proj2 (Z.leb_gt _ _) L). rewrite Z.mod_small by lia. rewrite (proj2 (Z.leb_le _ _)) by lia. lia.
    - rewrite (proj2 (Z.leb_le _ _) L).
      replace ((nth r v 0 + dd) mod 2 ^ 32) with (nth r v 0 + dd - 2 ^ 32).
      2:{ apply (Z.mod_unique _ _ 1); lia. }
      rewrite (proj2 (Z.leb_gt _ _)) by lia. lia. }
  rewrite (SP r1 H1), (SP r2 H2).
  pose proof (count_refused r1 H1) as R1. pose proof (count_refused r2 H2) as R2.
  assert (RR : count (fun v => 2 ^ 32 <=? nth r1 v 0 + d) V = count (fun v => 2 ^ 32 <=? nth r2 v 0 + d) V).
  { apply (Z.mul_cancel_l _ _ P); [lia|]. rewrite R1, R2. reflexivity. }
  rewrite RR. clear R1 R2 RR.
  assert (LE : lsum (kk r1) V <= lsum (kk r2) V + count (fun v => (d <=? nth r1 v 0) && (nth r2 v 0 <? d)) V * M).
  { rewrite <- lsum_if, <- lsum_add. apply lsum_le. intros q Hq. unfold kk. specialize (Hg (Ok q)).
    rewrite Z.ltb_antisym. destruct (d <=? nth r1 q 0), (d <=? nth r2 q 0); cbn [andb negb]; lia. }
  pose proof (count_gap r1 r2 H1 H2 N) as G. set (c := count (fun v => (d <=? nth r1 v 0) && (nth r2 v 0 <? d)) V) in *.
  set (x := lsum (kk r1) V) in *. set (y := lsum (kk r2) V) in *. set (z := count _ V). clearbody x y c z.
  replace ((P - 1) * size V * M) with (P ^ 2 * (c * M)) by (rewrite <- G; ring).
  apply Z.mul_le_mono_nonneg_l; [apply Z.pow_nonneg; lia|lia].
Qed.

Lemma count_le_size {A} (Q : A -> bool) l : count Q l <= size l.
Proof. rewrite <- count_true. apply count_le. auto. Qed.
Lemma size_sequences {A} (l : list A) n : size (sequences l (S n)) = size l * size (sequences l n).
Proof. rewrite <- count_true, count_seq. rewrite (lsum_ext _ (fun _ => size (sequences l n))) by (intros; apply count_true). apply lsum_const. Qed.

(** n queries under uniform masks. *)
Lemma ideal_many : forall rows1 rows2 (D : list (res (list Z)) -> bool),
  Forall (fun r => (r < m)%nat) rows1 -> Forall (fun r => (r < m)%nat) rows2 -> length rows1 = length rows2 ->
  P ^ 2 * (count (fun vs => D (map2 (index_view d) rows1 vs)) (sequences V (length rows1)) -
           count (fun vs => D (map2 (index_view d) rows2 vs)) (sequences V (length rows1)))
  <= Z.of_nat (length rows1) * (P - 1) * size (sequences V (length rows1)).
Proof.
  destruct d_P as (E & D2 & P2).
  induction rows1 as [|r1 rows1 IH]; intros [|r2 rows2] D F1 F2 HL; try discriminate.
  - cbn [length map2 sequences]. rewrite Z.sub_diag. lia.
  - apply Forall_cons_iff in F1 as [H1 F1]. apply Forall_cons_iff in F2 as [H2 F2]. cbn [length] in HL. injection HL as HL.
    cbn [length]. rewrite !count_seq, size_sequences. cbn [map2]. set (n := length rows1) in *. set (s := size (sequences V n)).
    set (g := fun y => count (fun t => D (y :: map2 (index_view d) rows2 t)) (sequences V n)).
    assert (Hg : forall y, 0 <= g y <= s) by (intros y; split; [apply count_nonneg'|apply count_le_size]).
    pose proof (ideal_one g s r1 r2 H1 H2 Hg) as One.
    assert (Rest : P ^ 2 * lsum (fun x => count (fun t => D (index_view d r1 x :: map2 (index_view d) rows1 t)) (sequences V n)) V
                   <= P ^ 2 * lsum (fun v => g (index_view d r1 v)) V + size V * (Z.of_nat n * (P - 1) * s)).
    { rewrite <- lsum_const, <- !lsum_scale, <- lsum_add. apply lsum_le. intros x Hx.
      pose proof (IH rows2 (fun t => D (index_view d r1 x :: t)) F1 F2 HL) as X. unfold g. lia. }
    change (lsum (fun x => count (fun t => D (index_view d r2 x :: map2 (index_view d) rows2 t)) (sequences V n)) V)
      with (lsum (fun v => g (index_view d r2 v)) V).
    replace (Z.of_nat (S n) * (P - 1) * (size V * s)) with ((P - 1) * size V * s + size V * (Z.of_nat n * (P - 1) * s)) by lia.
    lia.
Qed.
End IDEAL.

(** @C71 Index queries, refused ones included: the advantage of a server in telling two lists of n
    rows apart is at most that of two tests for learning with errors, plus n (1/P) (1 - 1/P),
    where P = 2^plaintext_bits. The last term is the price of refusing queries that overflow. *)
Lemma index_queries_private : forall prg dbg p rows1 rows2 (D : list (res (list Z)) -> bool),
  (1 <= ip_plaintext_bits p <= 31)%nat -> Forall (fun c => length c = ip_dim p) (ip_rhs p) ->
  Forall (fun r => (r < ip_m p)%nat) rows1 -> Forall (fun r => (r < ip_m p)%nat) rows2 -> length rows1 = length rows2 ->
  let A := index_common_params prg p in
  let n := length rows1 in
  let T := lwe_tapes A (ip_dim p) n in
  let P := 2 ^ Z.of_nat (ip_plaintext_bits p) in
  let seen rows := count (fun tapes => D (map2 (index_client_query prg dbg p) rows tapes)) T in
  let test rows := fun vectors => D (map2 (index_view (2 ^ (32 - Z.of_nat (ip_plaintext_bits p)))) rows vectors) in
  P ^ 2 * (Z.abs (seen rows1 - seen rows2) * size (lwe_uniform A n))
  <= P ^ 2 * (lwe_advantage A (ip_dim p) n (test rows1) + lwe_advantage A (ip_dim p) n (test rows2))
     + Z.of_nat n * (P - 1) * size T * size (lwe_uniform A n).
Proof.
  intros prg dbg p rows1 rows2 D Hpb HR F1 F2 Hlen. cbv zeta.
  set (A := index_common_params prg p). set (d := 2 ^ (32 - Z.of_nat (ip_plaintext_bits p))).
  assert (HA : length A = ip_m p) by apply (pubmat_shape prg (ip_public_seed p) (ip_dim p) (ip_m p)).
  set (test := fun rows vectors => D (map2 (index_view d) rows vectors)).
  set (n := length rows1) in *.
  assert (S : forall rows, Forall (fun r => (r < ip_m p)%nat) rows ->
     count (fun tapes => D (map2 (index_client_query prg dbg p) rows tapes)) (lwe_tapes A (ip_dim p) n) =
     count (fun tapes => test rows (map (lwe_vector A (ip_dim p)) tapes)) (lwe_tapes A (ip_dim p) n)).
  { intros rows Hk. apply count_ext. intros ts Hts. unfold test. f_equal. rewrite map2_map_r. apply map2_ext.
    intros r t Hr Ht. unfold lwe_tapes in Hts. apply in_sequences in Hts as [_ Hts].
    rewrite Forall_forall in Hts, Hk. apply index_query_is_lwe; auto. rewrite <- HA. apply Hts. exact Ht. }
  assert (U : forall a b, Forall (fun r => (r < ip_m p)%nat) a -> Forall (fun r => (r < ip_m p)%nat) b -> length a = n -> length b = n ->
     (2 ^ Z.of_nat (ip_plaintext_bits p)) ^ 2 * (count (test a) (lwe_uniform A n) - count (test b) (lwe_uniform A n))
     <= Z.of_nat n * (2 ^ Z.of_nat (ip_plaintext_bits p) - 1) * size (lwe_uniform A n)).
  { intros a b Fa Fb La Lb. unfold lwe_uniform. rewrite HA. rewrite <- La.
    apply (ideal_many (ip_m p) (ip_plaintext_bits p) Hpb a b D Fa Fb). congruence. }
  pose proof (U rows1 rows2 F1 F2 eq_refl (eq_sym Hlen)) as U1. pose proof (U rows2 rows1 F2 F1 (eq_sym Hlen) eq_refl) as U2.
  change ((2 ^ Z.of_nat (ip_plaintext_bits p)) ^ 2 *
     (Z.abs (count (fun tapes => D (map2 (index_client_query prg dbg p) rows1 tapes)) (lwe_tapes A (ip_dim p) n) -
             count (fun tapes => D (map2 (index_client_query prg dbg p) rows2 tapes)) (lwe_tapes A (ip_dim p) n)) * size (lwe_uniform A n))
     <= (2 ^ Z.of_nat (ip_plaintext_bits p)) ^ 2 * (lwe_advantage A (ip_dim p) n (test rows1) + lwe_advantage A (ip_dim p) n (test rows2))
        + Z.of_nat n * (2 ^ Z.of_nat (ip_plaintext_bits p) - 1) * size (lwe_tapes A (ip_dim p) n) * size (lwe_uniform A n)).
  rewrite (S rows1 F1), (S rows2 F2). unfold lwe_advantage.
  set (a := count _ (lwe_tapes A (ip_dim p) n)). set (b := count (fun tapes => test rows2 _) (lwe_tapes A (ip_dim p) n)).
  set (u := size (lwe_uniform A n)) in *. set (t := size (lwe_tapes A (ip_dim p) n)).
  set (x := count (test rows1) _) in *. set (y := count (test rows2) _) in *.
  assert (u0 : 0 <= u) by apply size_count. assert (t0 : 0 <= t) by apply size_count.
  set (Q := (2 ^ Z.of_nat (ip_plaintext_bits p)) ^ 2) in *. assert (Q0 : 0 <= Q) by (apply Z.pow_nonneg, Z.pow_nonneg; lia).
  set (c := Z.of_nat n * (2 ^ Z.of_nat (ip_plaintext_bits p) - 1)) in *. clearbody a b u t x y Q c. clear - u0 t0 Q0 U1 U2.
  replace (Z.abs (a - b) * u) with (Z.abs (a * u - b * u)).
  2:{ replace (a * u - b * u) with ((a - b) * u) by ring. rewrite Z.abs_mul, (Z.abs_eq u) by exact u0. reflexivity. }
  assert (K : Q * (Z.abs (x - y) * t) <= c * t * u).
  { replace (c * t * u) with (c * u * t) by ring. replace (Q * (Z.abs (x - y) * t)) with (Q * Z.abs (x - y) * t) by ring.
    apply Z.mul_le_mono_nonneg_r; [exact t0|]. destruct (Z.abs_spec (x - y)) as [[_ ->]|[_ ->]]; [exact U1|]. lia. }
  apply Z.le_trans with (Q * (Z.abs (a * u - x * t) + Z.abs (b * u - y * t)) + Q * (Z.abs (x - y) * t)); [|lia].
  rewrite <- Z.mul_add_distr_l. apply Z.mul_le_mono_nonneg_l; [exact Q0|].
  replace (Z.abs (x - y) * t) with (Z.abs (x * t - y * t)); [lia|].
  replace (x * t - y * t) with ((x - y) * t) by ring. rewrite Z.abs_mul, (Z.abs_eq t) by exact t0. reflexivity.
Qed.

(** @C71 That price is real: under uniform masks (where no query could be told from random if
    overflowing sums were kept), the test "entry r2 is below delta" accepts a query for row r1
    with probability exactly (1/P) (1 - 1/P), and never a query for row r2. The second half
    holds for the real masks too. *)
Lemma index_no_loss_refuted : forall m pb r1 r2, (1 <= pb <= 31)%nat -> (r1 < m)%nat -> (r2 < m)%nat -> r1 <> r2 ->
  let delta := 2 ^ (32 - Z.of_nat pb) in
  let P := 2 ^ Z.of_nat pb in
  let test (view : res (list Z)) := match view with Ok q => nth r2 q 0 <? delta | _ => false end in
  P ^ 2 * count (fun v => test (index_view delta r1 v)) (uniform_vectors m) = (P - 1) * size (uniform_vectors m) /\
  count (fun v => test (index_view delta r2 v)) (uniform_vectors m) = 0 /\
  (forall prg dbg p tape, ip_plaintext_bits p = pb -> test (index_client_query prg dbg p r2 tape) = false).
Proof.
  intros m pb r1 r2 Hpb H1 H2 N. cbv zeta. destruct (d_P pb Hpb) as (E & D2 & P2).
  split; [|split].
  - rewrite <- (count_gap m pb Hpb r1 r2 H1 H2 N). f_equal.
    rewrite <- (count_perm (fun v => (2 ^ (32 - Z.of_nat pb) <=? nth r1 v 0) && (nth r2 v 0 <? 2 ^ (32 - Z.of_nat pb))) _ _ (plant_perm (2 ^ (32 - Z.of_nat pb)) [r1] m)), count_map. apply count_ext. intros v Hv.
    apply (proj1 (in_vectors _ _)) in Hv as [Lv Fv]. pose proof (nth_u32 v r1 Fv) as B1. pose proof (nth_u32 v r2 Fv) as B2. unfold is_u32, two32 in B1, B2.
    unfold index_view. rewrite !nth_plant by lia. cbn [count_occ]. destruct (Nat.eq_dec r1 r1) as [_|X]; [|now destruct X].
    destruct (Nat.eq_dec r1 r2) as [|_]; [contradiction|]. change (Z.of_nat 1) with 1. change (Z.of_nat 0) with 0.
    rewrite Z.mul_1_r, Z.mul_0_r, Z.add_0_r, (Z.mod_small (nth r2 v 0)) by exact B2.
    assert (DW : 0 <= 2 ^ (32 - Z.of_nat pb) <= 2 ^ 32) by (clear - E D2 P2; nia). set (dd := 2 ^ (32 - _)) in *. clearbody dd.
    destruct (Z.ltb_spec (nth r1 v 0 + dd) (2 ^ 32)) as [L|L].
    + rewrite nth_plant by lia. cbn [count_occ]. destruct (Nat.eq_dec r1 r2) as [|_]; [contradiction|].
      change (Z.of_nat 0) with 0. rewrite Z.mul_0_r, Z.add_0_r, !Z.mod_small by lia.
      rewrite (proj2 (Z.leb_le _ _)) by lia. reflexivity.
    + replace ((nth r1 v 0 + dd) mod 2 ^ 32) with (nth r1 v 0 + dd - 2 ^ 32) by (apply (Z.mod_unique _ _ 1); lia).
      rewrite (proj2 (Z.leb_gt _ _)) by lia. reflexivity.
  - transitivity (count (fun _ : list Z => false) (uniform_vectors m)); [|apply count_false]. apply count_ext. intros v Hv. apply (proj1 (in_vectors _ _)) in Hv as [Lv Fv].
    pose proof (nth_u32 v r2 Fv) as B. unfold is_u32, two32 in B. unfold index_view.
    assert (DW : 0 <= 2 ^ (32 - Z.of_nat pb) <= 2 ^ 32) by (clear - E D2 P2; nia). set (dd := 2 ^ (32 - _)) in *. clearbody dd.
    destruct (Z.ltb_spec (nth r2 v 0 + dd) (2 ^ 32)) as [L|L]; [|reflexivity].
    rewrite nth_plant by lia. cbn [count_occ]. destruct (Nat.eq_dec r2 r2) as [_|X]; [|now destruct X].
    change (Z.of_nat 1) with 1. rewrite Z.mul_1_r, Z.mod_small by lia. apply Z.ltb_ge. lia.
  - intros prg dbg p tape Ep. unfold index_client_query.
    destruct (generate_index_query_params _ _ _) as [[qp rest]| | |] eqn:G; try reflexivity. cbn [bind].
    destruct (snd (index_generate_query dbg qp r2)) as [q| | |] eqn:Q; try reflexivity.
    apply Z.ltb_ge.
    unfold generate_index_query_params in G. apply bind_Ok in G as ([s t1] & _ & G). apply bind_Ok in G as ([lhs t2] & GL & G).
    apply bind_Ok in G as (rhs & _ & G). assert (EQ : qp_lhs qp = lhs /\ qp_plaintext_bits qp = pb).
    { split; [|rewrite <- Ep]; apply (f_equal (fun r => match r with Ok x => fst x | _ => qp end)) in G; cbn [fst] in G; now rewrite <- G. }
    destruct EQ as [EL EP].
    apply (query_entry_large dbg qp r2 q) in Q; [now rewrite EP in Q|rewrite EP; exact Hpb|].
    rewrite EL. destruct (mult_left_inv _ _ _ _ _ GL) as [GF GD]. destruct (mult_left_ok _ _ _ GF GD) as (t3 & GL' & _).
    rewrite GL in GL'. apply (f_equal (fun r => match r with Ok x => fst x | _ => [] end)) in GL'. cbn [fst] in GL'. rewrite GL'.
    unfold masked_lhs. apply Forall_map, Forall_forall. intros i _. apply Z.mod_pos_bound. reflexivity.
Qed.

(** @C71 The lists counted over are never empty, so the inequalities above do bound
    probabilities. *)
Lemma lwe_sizes : forall A dim n, 0 < size (lwe_tapes A dim n) /\ 0 < size (lwe_uniform A n).
Proof.
  assert (W : In 0 u32_words) by (apply (proj2 (in_u32_words 0)); split; [discriminate|reflexivity]).
  assert (P : forall (l : list Z) x, In x l -> 0 < size l).
  { intros l x H. unfold size. destruct l; [contradiction|]. cbn [length]. lia. }
  intros A dim n. split; unfold lwe_tapes, lwe_uniform; apply size_pos_seq, size_pos_seq.
  - apply (P _ 0). apply (proj2 (filter_In _ _ _)). split; [exact W|reflexivity].
  - apply (P _ 0). exact W.
Qed.

(** @C71 example: three stored keys; any two lists of keys of the same length, and a client that
    asks for one stored and one absent key against one that asks for them in the other order. *)
Example private_example : forall prg rnd pseed dim m, exists sh slots,
  kv_shard_new prg true (est 3 12) rnd seed0 pseed ex_kvs dim m 19 10 = Ok sh /\
  (1 <= kp_plaintext_bits (ks_params sh) <= 31)%nat /\
  Forall (fun c => length c = kp_dim (ks_params sh)) (kp_rhs (ks_params sh)) /\
  (forall key, In key ([key4 1; key4 99] ++ [key4 99; key4 1]) ->
     get_hash_evals true (kp_filter_params (ks_params sh)) key = Ok (slots key) /\
     Forall (fun j => (j < kp_m (ks_params sh))%nat) (slots key)) /\
  exists p rows1 rows2,
    (1 <= ip_plaintext_bits p <= 31)%nat /\ Forall (fun c => length c = ip_dim p) (ip_rhs p) /\
    Forall (fun r => (r < ip_m p)%nat) rows1 /\ Forall (fun r => (r < ip_m p)%nat) rows2 /\
    length rows1 = 2%nat /\ length rows2 = 2%nat /\ rows1 <> rows2.
Proof.
  intros prg rnd pseed dim m. destruct (proj1 (kv_build_example prg rnd pseed dim m)) as (sh & E).
  destruct (kv_shard_params_fit prg true (est 3 12) rnd seed0 pseed ex_kvs dim m 19 10 2 sh) as (Ep & _ & HR & slots & HS); auto;
    [lia|split; [lia|intros; lia]|apply est_sane; cbn; lia|repeat constructor|].
  exists sh, slots. split; [exact E|]. split; [rewrite Ep; lia|]. split; [exact HR|]. split; [intros key _; apply HS|].
  exists {| ip_dim := 2; ip_m := 3; ip_elem_size := 16; ip_plaintext_bits := 10; ip_public_seed := []; ip_rhs := [[5; 6]; [7; 8]] |}, [0; 2]%nat, [2; 2]%nat.
  cbn [ip_plaintext_bits ip_dim ip_m ip_rhs]. repeat split; try lia; try (repeat constructor; lia). discriminate.
Qed.
