(** C74: how often an index query is refused. *)
From Verif Require Import Base Spec SpecLwe Base64 Lwe Mat Db Api Client Refusal Base_facts Mat_facts Index_facts IndexProto_facts Seq_facts Refusal_facts Fmt_facts Claims_index.
Local Open Scope Z_scope.

Lemma nth_pubmat stream seed dim m r : (r < m)%nat -> nth r (pubmat (stream_prg stream) seed dim m) [] = block dim r stream.
Proof. intros H. unfold pubmat, generate_lwe_matrix_from_seed. now rewrite nth_map_seq. Qed.

Lemma refused_closed prg dbg seed strs dim m es pb w elems r tape :
  (1 <= pb <= 31)%nat -> is_ceil_div es pb w -> (0 < m)%nat -> stored strs m pb w elems ->
  (r < m)%nat -> (dim + m <= length (draws tape))%nat ->
  index_query_refused prg dbg seed strs dim m es pb r tape =
  negb ((dot (words (secret dim tape)) (nth r (pubmat prg seed dim m) []) + nth r (noise dim m tape) 0) mod two32
        <? two32 - delta pb).
Proof.
  intros Hpb Hw Hm Hst Hr Ht. unfold index_query_refused.
  rewrite (shard_ok prg dbg seed strs dim m es pb w elems) by (auto; clear - Hpb; lia). cbn [bind].
  unfold index_client_query. cbn [sh_params shard_of].
  destruct (gen_qp_ok prg seed dim elems m es pb w tape Ht) as [rest ->]. cbn [bind].
  rewrite index_query_closed by (auto; exact Hpb). cbn [snd qp_lhs qp_of qp_plaintext_bits].
  pose proof (pubmat_shape prg seed dim m) as [Ls _].
  rewrite masked_lhs_length, Ls. apply Nat.ltb_lt in Hr as Hr'. rewrite Hr'.
  unfold masked_lhs. rewrite nth_map_seq by (rewrite Ls; exact Hr).
  set (x := (dot _ _ + _) mod two32).
  destruct (Z.ltb_spec (x + delta pb) two32), (Z.ltb_spec x (two32 - delta pb)); try reflexivity; lia.
Qed.

Lemma delta_pow pb : (1 <= pb <= 31)%nat -> 2 ^ Z.of_nat pb * delta pb = two32 /\ 0 < delta pb <= two32.
Proof.
  intros H. unfold delta. assert (E : 2 ^ Z.of_nat pb * 2 ^ (32 - Z.of_nat pb) = two32).
  { rewrite <- Z.pow_add_r by lia. now replace (Z.of_nat pb + (32 - Z.of_nat pb)) with 32 by lia. }
  split; [exact E|]. assert (0 < 2 ^ (32 - Z.of_nat pb)) by (apply Z.pow_pos_nonneg; lia).
  assert (0 < 2 ^ Z.of_nat pb) by (apply Z.pow_pos_nonneg; lia). clear - E H0 H1. nia.
Qed.

Lemma ternary_unit d : In d [-1; 0; 1] -> d <> 0 -> (d mod two32) mod two32 = 1 \/ (d mod two32) mod two32 = two32 - 1.
Proof. intros [<-|[<-|[<-|[]]]] H; [right; reflexivity|congruence|left; reflexivity]. Qed.

Lemma draws_ternary tape : Forall (fun d => In d [-1; 0; 1]) (draws tape).
Proof.
  unfold draws. apply Forall_map, Forall_forall. intros x _. unfold ternary_class.
  repeat match goal with |- context[if ?b then _ else _] => destruct b end; cbn; auto.
Qed.

(** @C74 Any number of clients, each with its own randomness (whose secret is not all zero),
    each asking for a different row of the same database: over all public matrices, the fraction
    for which no query is refused is exactly (1 - 2^-plaintext_bits)^queries, whatever the
    database content, the tapes and the dimension. *)
Lemma refusal_rate : forall dbg seed strs dim m es pb (queries : list (nat * list Z)) prg0 sh0,
  (1 <= pb <= 31)%nat ->
  shard_from_base64_strings prg0 dbg seed strs dim m es pb = Ok sh0 ->
  NoDup (map fst queries) ->
  (forall row tape, In (row, tape) queries -> (row < m)%nat /\ (dim + m <= length (draws tape))%nat /\
     exists j, (j < dim)%nat /\ nth j (draws tape) 0 <> 0) ->
  count (fun stream => forallb (fun q => negb (index_query_refused (stream_prg stream) dbg seed strs dim m es pb (fst q) (snd q))) queries)
    (uniform_vectors (dim * m)) * (2 ^ Z.of_nat pb) ^ Z.of_nat (length queries)
  = (2 ^ Z.of_nat pb - 1) ^ Z.of_nat (length queries) * size (uniform_vectors (dim * m)).
Proof.
  intros dbg seed strs dim m es pb queries prg0 sh0 Hpb Hsh ND Hq.
  destruct (get_row_width_pos es pb) as (w & _ & Hw); [clear - Hpb; lia|].
  assert (Hpb32 : (1 <= pb <= 32)%nat) by (clear - Hpb; lia).
  destruct (shard_inv _ _ _ _ _ _ _ _ w _ Hpb32 Hw Hsh) as (Hm & elems & Hst & _).
  destruct (delta_pow pb Hpb) as [Ed Hd].
  set (qs := map (fun q => (fst q, (words (secret dim (snd q)), nth (fst q) (noise dim m (snd q)) 0))) queries).
  assert (Lq : length qs = length queries) by apply map_length.
  assert (Eq : map fst qs = map fst queries) by (unfold qs; now rewrite map_map).
  pose proof (rows_independent two32 (delta pb) dim m qs ltac:(reflexivity) ltac:(clear - Hd; lia)) as K.
  rewrite Eq in K. specialize (K ND).
  assert (K1 : forall r s e, In (r, (s, e)) qs -> (r < m)%nat /\ length s = dim /\
     exists j, (j < dim)%nat /\ (nth j s 0 mod two32 = 1 \/ nth j s 0 mod two32 = two32 - 1)).
  { intros r s e H. unfold qs in H. apply in_map_iff in H as ([r' t] & E & H). cbn [fst snd] in E.
    destruct (Hq r' t H) as (Hr & Ht & j & Hj & Hnz). assert (r' = r) by congruence. subst r'.
    assert (s = words (secret dim t)) as -> by congruence. split; [exact Hr|].
    assert (Ls : length (secret dim t) = dim) by (unfold secret; rewrite firstn_length; lia).
    split; [rewrite words_length; exact Ls|]. exists j. split; [exact Hj|].
    unfold words. rewrite (nth_indep _ 0 (0 mod two32)) by (rewrite map_length, Ls; exact Hj).
    rewrite (map_nth (fun d => d mod two32)). unfold secret. rewrite nth_firstn' by exact Hj.
    apply ternary_unit; [|exact Hnz].
    apply (proj1 (Forall_forall _ _) (draws_ternary t)). apply nth_In. lia. }
  specialize (K K1). clear K1. rewrite Lq in K.
  set (C := count _ (sequences (numbers_below two32) (dim * m))) in K.
  assert (EC : count (fun stream => forallb (fun q => negb (index_query_refused (stream_prg stream) dbg seed strs dim m es pb (fst q) (snd q))) queries)
    (uniform_vectors (dim * m)) = C).
  { unfold C. unfold uniform_vectors, u32_words. change (2 ^ 32) with two32. apply count_ext. intros v _.
    unfold qs. clear - Hq Hpb Hw Hm Hst. induction queries as [|[r t] l IH]; [reflexivity|]. cbn [map forallb fst snd].
    destruct (Hq r t (or_introl eq_refl)) as (Hr & Ht & _).
    rewrite (refused_closed _ dbg seed strs dim m es pb w elems r t Hpb Hw Hm Hst Hr Ht), negb_involutive.
    rewrite (nth_pubmat v seed dim m r Hr). f_equal. apply IH. intros; apply Hq; now right. }
  rewrite EC. clear EC. unfold uniform_vectors, u32_words. change (2 ^ 32) with two32.
  set (T := size _) in *.
  assert (E2 : two32 - delta pb = (2 ^ Z.of_nat pb - 1) * delta pb) by (rewrite <- Ed; ring).
  rewrite E2 in K. rewrite <- Ed in K. rewrite !Z.pow_mul_l in K.
  assert (Hdn : 0 < delta pb ^ Z.of_nat (length queries)) by (apply Z.pow_pos_nonneg; lia).
  clear - K Hdn. apply (Z.mul_reg_r _ _ (delta pb ^ Z.of_nat (length queries))); [lia|].
  rewrite <- Z.mul_assoc. rewrite K. ring.
Qed.

(** @C74 One query: refused for exactly one public matrix in 2^plaintext_bits. *)
Lemma one_refusal_rate : forall dbg seed strs dim m es pb row tape prg0 sh0,
  (1 <= pb <= 31)%nat ->
  shard_from_base64_strings prg0 dbg seed strs dim m es pb = Ok sh0 ->
  (row < m)%nat -> (dim + m <= length (draws tape))%nat -> (exists j, (j < dim)%nat /\ nth j (draws tape) 0 <> 0) ->
  count (fun stream => index_query_refused (stream_prg stream) dbg seed strs dim m es pb row tape) (uniform_vectors (dim * m))
    * 2 ^ Z.of_nat pb
  = size (uniform_vectors (dim * m)).
Proof.
  intros dbg seed strs dim m es pb row tape prg0 sh0 Hpb Hsh Hr Ht Hz.
  pose proof (refusal_rate dbg seed strs dim m es pb [(row, tape)] prg0 sh0 Hpb Hsh) as K.
  cbn [map fst snd length] in K. change (Z.of_nat 1) with 1 in K. rewrite !Z.pow_1_r in K.
  specialize (K ltac:(constructor; [intros []|constructor]) ltac:(intros r t [E|[]]; injection E as <- <-; auto)).
  set (R := fun stream => index_query_refused (stream_prg stream) dbg seed strs dim m es pb row tape).
  rewrite (count_ext _ (fun v => true && negb (R v))) in K by (intros; cbn [forallb]; fold (R x); now rewrite andb_true_r).
  pose proof (count_split (fun _ => true) R (uniform_vectors (dim * m))) as S. rewrite count_true in S.
  rewrite (count_ext (fun v => true && R v) R) in S by reflexivity.
  fold R. set (T := size _) in *. set (a := count R _) in *. set (b := count _ _) in K. change (count _ _) with b in S at 1.
  clearbody a b T. nia.
Qed.

(** @C74 If the secret is all zero, the query is refused exactly when the error drawn for the
    row is -1, whatever the public matrix. *)
Lemma zero_secret_refusal : forall prg dbg seed strs dim m es pb row tape sh,
  (1 <= pb <= 31)%nat ->
  shard_from_base64_strings prg dbg seed strs dim m es pb = Ok sh ->
  (row < m)%nat -> (dim + m <= length (draws tape))%nat -> (forall j, (j < dim)%nat -> nth j (draws tape) 0 = 0) ->
  index_query_refused prg dbg seed strs dim m es pb row tape = (nth (dim + row) (draws tape) 0 =? -1).
Proof.
  intros prg dbg seed strs dim m es pb row tape sh Hpb Hsh Hr Ht Hz.
  destruct (get_row_width_pos es pb) as (w & _ & Hw); [clear - Hpb; lia|].
  assert (Hpb32 : (1 <= pb <= 32)%nat) by (clear - Hpb; lia).
  destruct (shard_inv _ _ _ _ _ _ _ _ w _ Hpb32 Hw Hsh) as (Hm & elems & Hst & _).
  rewrite (refused_closed prg dbg seed strs dim m es pb w elems row tape Hpb Hw Hm Hst Hr Ht).
  assert (E0 : forall s b, (forall j, nth j s 0 = 0) -> dot s b = 0).
  { clear. induction s as [|x s IH]; intros [|y b] H; try reflexivity. cbn [dot].
    rewrite IH by (intros j; apply (H (S j))). pose proof (H 0%nat) as H0. cbn in H0. subst x. reflexivity. }
  rewrite E0.
  2:{ intros j. destruct (Nat.ltb_spec j dim) as [Hj|Hj].
      - unfold words, secret. rewrite (nth_indep _ 0 (0 mod two32)) by (rewrite map_length, firstn_length; lia).
        rewrite (map_nth (fun d => d mod two32)), nth_firstn' by exact Hj. now rewrite Hz.
      - apply nth_overflow. rewrite words_length. unfold secret. rewrite firstn_length. lia. }
  unfold noise. rewrite nth_firstn' by exact Hr. rewrite nth_skipn'.
  assert (Hd : In (nth (dim + row) (draws tape) 0) [-1; 0; 1]).
  { apply (proj1 (Forall_forall _ _) (draws_ternary tape)). apply nth_In. lia. }
  destruct (delta_pow pb Hpb) as [Ed Hd2].
  assert (Hd1 : 1 < delta pb < two32 - 1).
  { unfold delta in *. assert (2 ^ 1 <= 2 ^ (32 - Z.of_nat pb)) by (apply Z.pow_le_mono_r; lia).
    assert (2 ^ (32 - Z.of_nat pb) <= 2 ^ 31) by (apply Z.pow_le_mono_r; lia).
    change (2 ^ 1) with 2 in *. change (2 ^ 31) with 2147483648 in *. unfold two32. lia. }
  destruct Hd as [<-|[<-|[<-|[]]]]; rewrite Z.add_0_l.
  - change (-1 mod two32) with (two32 - 1). destruct (Z.ltb_spec (two32 - 1) (two32 - delta pb)); [lia|reflexivity].
  - change (0 mod two32) with 0. destruct (Z.ltb_spec 0 (two32 - delta pb)); [reflexivity|lia].
  - change (1 mod two32) with 1. destruct (Z.ltb_spec 1 (two32 - delta pb)); [reflexivity|lia].
Qed.

Lemma accepted_size : size (filter accepted_word (numbers_below two32)) = 2 ^ 32 - 3.
Proof.
  rewrite <- count_true, count_filter. rewrite (count_ext _ (fun x => x <? 4294967293)).
  - apply count_below. now split.
  - intros x _. unfold accepted_word. rewrite andb_true_r. destruct (Z.leb_spec x 4294967292), (Z.ltb_spec x 4294967293); auto; lia.
Qed.
Lemma accepted_zero : count (fun x => ternary_class x =? 0) (filter accepted_word (numbers_below two32)) = 1431655765.
Proof.
  rewrite count_filter. rewrite (count_ext _ (fun x => x <? 1431655765)).
  - apply count_below. now split.
  - intros x _. unfold accepted_word, ternary_class.
    destruct (Z.leb_spec x 4294967292), (Z.leb_spec x 1431655764), (Z.leb_spec x 2863311528), (Z.ltb_spec x 1431655765); cbn; auto; lia.
Qed.

Lemma tape_draws W n t : In t (sequences (filter accepted_word W) n) -> draws t = map ternary_class t /\ length t = n.
Proof.
  intros H. apply (proj1 (in_sequences _ _ _)) in H as [L F]. split; [|exact L].
  unfold draws. f_equal. clear L. induction F as [|x t Hx F IH]; [reflexivity|].
  apply filter_In in Hx as [_ Hx]. cbn [filter]. now rewrite Hx, IH.
Qed.
Lemma random_tape_draws n t : In t (random_tapes n) -> draws t = map ternary_class t /\ length t = n.
Proof. exact (tape_draws u32_words n t). Qed.

(** @C74 Over all random tapes and all public matrices together: the fraction of refused
    queries is 2^-plaintext_bits up to the fraction of runs whose secret is all zero, which is
    (1431655765 / 4294967293)^dim, about 3^-dim. *)
Lemma overall_refusal_rate : forall dbg seed strs dim m es pb row prg0 sh0,
  (1 <= pb <= 31)%nat ->
  shard_from_base64_strings prg0 dbg seed strs dim m es pb = Ok sh0 -> (row < m)%nat ->
  let runs := list_prod (random_tapes (dim + m)) (uniform_vectors (dim * m)) in
  let zero_secret := 1431655765 ^ Z.of_nat dim * (2 ^ 32 - 3) ^ Z.of_nat m * size (uniform_vectors (dim * m)) in
  - zero_secret
  <= count (fun run => index_query_refused (stream_prg (snd run)) dbg seed strs dim m es pb row (fst run)) runs * 2 ^ Z.of_nat pb - size runs
  <= (2 ^ Z.of_nat pb - 1) * zero_secret.
Proof.
  intros dbg seed strs dim m es pb row prg0 sh0 Hpb Hsh Hr runs zero_secret.
  unfold runs. rewrite count_pairs. cbn [fst snd].
  assert (ES : size (list_prod (random_tapes (dim + m)) (uniform_vectors (dim * m))) =
    size (random_tapes (dim + m)) * size (uniform_vectors (dim * m))).
  { unfold size. rewrite prod_length. lia. }
  rewrite ES. clear ES.
  set (zs := fun t : list Z => forallb (fun x => ternary_class x =? 0) (firstn dim t)).
  assert (EZ : count zs (random_tapes (dim + m)) = 1431655765 ^ Z.of_nat dim * (2 ^ 32 - 3) ^ Z.of_nat m).
  { unfold random_tapes, u32_words, zs. change (2 ^ 32) with two32 at 1. rewrite count_prefix, accepted_size, accepted_zero. reflexivity. }
  pose proof (lsum_near (fun t => count (fun v => index_query_refused (stream_prg v) dbg seed strs dim m es pb row t) (uniform_vectors (dim * m)))
    zs (size (uniform_vectors (dim * m))) (2 ^ Z.of_nat pb) (random_tapes (dim + m))) as K.
  assert (HP : 1 <= 2 ^ Z.of_nat pb) by (assert (0 < 2 ^ Z.of_nat pb) by (apply Z.pow_pos_nonneg; lia); lia).
  specialize (K (size_count _) ltac:(clear - HP; lia)).
  assert (K1 : forall x, In x (random_tapes (dim + m)) ->
    0 <= count (fun v => index_query_refused (stream_prg v) dbg seed strs dim m es pb row x) (uniform_vectors (dim * m)) <= size (uniform_vectors (dim * m))).
  { intros x _. split; [apply count_nonneg'|]. rewrite <- count_true. apply count_le. reflexivity. }
  assert (K2 : forall x, In x (random_tapes (dim + m)) -> zs x = false ->
    count (fun v => index_query_refused (stream_prg v) dbg seed strs dim m es pb row x) (uniform_vectors (dim * m)) * 2 ^ Z.of_nat pb = size (uniform_vectors (dim * m))).
  { intros x Hx Hzs. apply (random_tape_draws) in Hx as [Ed Lx].
    apply (one_refusal_rate dbg seed strs dim m es pb row x prg0 sh0 Hpb Hsh Hr).
    - rewrite Ed, map_length, Lx. apply le_n.
    - rewrite Ed. clear - Hzs Lx. unfold zs in Hzs. revert x Lx Hzs.
      enough (E : forall d x, (d <= length x)%nat -> forallb (fun y => ternary_class y =? 0) (firstn d x) = false ->
        exists j, (j < d)%nat /\ nth j (map ternary_class x) 0 <> 0).
      { intros x Lx H. apply E; [lia|exact H]. }
      induction d as [|d IH]; intros [|y x] L H; try discriminate.
      cbn [firstn forallb] in H. destruct (Z.eqb_spec (ternary_class y) 0) as [E|N].
      + destruct (IH x ltac:(cbn in L; lia) H) as (j & Hj & Hn). exists (S j). split; [lia|exact Hn].
      + exists 0%nat. split; [lia|exact N]. }
  specialize (K K1 K2 HP). rewrite EZ in K. unfold zero_secret.
  set (T := size (uniform_vectors (dim * m))) in *.
  set (s := lsum _ _) in *. set (z := 1431655765 ^ Z.of_nat dim * (2 ^ 32 - 3) ^ Z.of_nat m) in *.
  set (P := 2 ^ Z.of_nat pb) in *. set (n := size (random_tapes (dim + m))) in *. clearbody T s z P n.
  clear - K. lia.
Qed.

(** @C74 example: two rows, dimension 2, 10-bit chunks: a shard that is built, and two tapes
    with different non-zero secrets. *)
Example refusal_example : exists sh0,
  shard_from_base64_strings (fun _ _ => 7) true [] (map b64_encode [[1; 2]; [255; 128]]) 2 2 16 10 = Ok sh0 /\
  NoDup (map fst [(0%nat, [2000000000; 5; 9; 3000000000]); (1%nat, [5; 3000000000; 9; 9])]) /\
  (forall row tape, In (row, tape) [(0%nat, [2000000000; 5; 9; 3000000000]); (1%nat, [5; 3000000000; 9; 9])] ->
     (row < 2)%nat /\ (2 + 2 <= length (draws tape))%nat /\ exists j, (j < 2)%nat /\ nth j (draws tape) 0 <> 0) /\
  index_query_refused (fun _ _ => 7) true [] (map b64_encode [[1; 2]; [255; 128]]) 2 2 16 10 0 [2000000000; 5; 9; 3000000000] = false /\
  index_query_refused (fun _ _ => 4294967295) true [] (map b64_encode [[1; 2]; [255; 128]]) 2 2 16 10 0 [2000000000; 5; 9; 3000000000] = true.
Proof.
  eexists. split; [vm_compute; reflexivity|]. split.
  { constructor; [cbn; intros [E|[]]; discriminate|]. constructor; [intros []|constructor]. }
  split; [|split; vm_compute; reflexivity].
  intros row tape [E|[E|[]]]; injection E as <- <-; (split; [lia|]); (split; [vm_compute; lia|]).
  - exists 0%nat. split; [lia|vm_compute; discriminate].
  - exists 1%nat. split; [lia|vm_compute; discriminate].
Qed.
