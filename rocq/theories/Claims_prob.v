(** Claims about the probability of a wrong answer. *)
From Verif Require Import Base Spec SpecFilter Fmt Mat Lwe Db Api Experiment Base_facts Fmt_facts Mat_facts Index_facts IndexProto_facts
  Filter_facts FilterTop_facts KV_facts Tail_facts Prob_facts Claims_matrix Claims_index Claims_filter Claims_kv Claims_kvbuild.
Local Open Scope Z_scope.
Local Opaque accepted_words words_below.

Lemma sumsq_dot : forall d, sumsq d = sum_squares d.
Proof. unfold sumsq, sum_squares. induction d as [|x d IH]; [reflexivity|]. cbn [map Tail_facts.sum dot]. now rewrite IH. Qed.

Lemma tapes_accepted : forall n t, In t (tapes_over accepted_words n) -> length t = n /\ draws t = map ternary_class t.
Proof.
  intros n t Ht. destruct (tapes_spec _ _ _ Ht) as [L F]. split; [exact L|]. unfold draws. f_equal.
  clear - F. induction F as [|w t Hw F IH]; [reflexivity|]. cbn [filter].
  rewrite (accepted_In w Hw). clear Hw. cbn [map]. rewrite IH. reflexivity.
Qed.

Lemma same_row_spec : forall a b, same_row a b = true <-> a = b.
Proof. intros a b. unfold same_row. destruct (list_eq_dec Z.eq_dec a b); split; congruence. Qed.

Definition bad (B : Z) (d : list Z) (t : list Z) : bool :=
  let s := dot (map ternary_class t) d in (B <=? s) || (s <=? - B).

Lemma not_bad : forall B d t, bad B d t = false -> congruent_in (dot (map ternary_class t) d) (- B) B.
Proof.
  intros B d t H. unfold bad in H. cbv zeta in H. apply orb_false_iff in H. destruct H as [H1 H2].
  apply Z.leb_gt in H1, H2. exists (dot (map ternary_class t) d), 0. split; [ring|lia].
Qed.

(** A run that is right whenever no column is bad. *)
Lemma union_bound : forall (F : list Z -> bool) dim m w (col : nat -> list Z) B S n,
  1 <= n -> 0 <= B ->
  (forall c, (c < w)%nat -> length (col c) = m /\ Forall (fun x => 0 <= x) (col c) /\ sum_squares (col c) <= S) ->
  0 <= S ->
  (forall t, In t (tapes_over accepted_words (dim + m)) ->
     (forall c, (c < w)%nat -> congruent_in (dot (map ternary_class (skipn dim t)) (col c)) (- B) B) -> F t = false) ->
  count_tapes F (dim + m) * (n + 1) ^ B * (3 * (n * (n + 1))) ^ S
  <= (2 * Z.of_nat w) * n ^ B * (2 ^ 32 - 3) ^ Z.of_nat (dim + m) * (3 * (n * (n + 1)) + 1) ^ S.
Proof.
  intros F dim m w col B S n Hn HB Hcol HS HF.
  set (X := (n + 1) ^ B * (3 * (n * (n + 1))) ^ S). set (Y := 2 * n ^ B * acc ^ Z.of_nat (dim + m) * (3 * (n * (n + 1)) + 1) ^ S).
  assert (X0 : 0 < X) by (apply Z.mul_pos_pos; apply Z.pow_pos_nonneg; nia).
  change (2 ^ 32 - 3) with acc.
  assert (U : count_tapes F (dim + m) <= Z.of_nat w * (Y / X)).
  { apply (count_union F (fun c t => bad B (col c) (skipn dim t)) w).
    - intros t Ht HFt. destruct (existsb (fun c => bad B (col c) (skipn dim t)) (seq 0 w)) eqn:E.
      + apply existsb_exists in E. destruct E as (c & Hc & Hb). apply in_seq in Hc. exists c. split; [lia|exact Hb].
      + exfalso. rewrite (HF t Ht) in HFt; [discriminate|]. intros c Hc. apply not_bad.
        destruct (bad B (col c) (skipn dim t)) eqn:Eb; [|reflexivity].
        rewrite <- E. symmetry. apply existsb_exists. exists c. split; [apply in_seq; lia|exact Eb].
    - intros c Hc. destruct (Hcol c Hc) as (L & Nn & Sq). apply Z.div_le_lower_bound; [exact X0|].
      rewrite (count_prefix (fun t => bad B (col c) t)).
      assert (O := one_column (fun t => bad B (col c) t) (col c) n B S Hn Nn HB). rewrite sumsq_dot in O. specialize (O Sq).
      rewrite L in O.
      assert (O2 : forall t, length t = m -> bad B (col c) t = true ->
        B <= dot (map ternary_class t) (col c) \/ dot (map ternary_class t) (col c) <= - B).
      { intros t _ Hb. unfold bad in Hb. cbv zeta in Hb. apply orb_prop in Hb. destruct Hb as [Hb | Hb]; apply Z.leb_le in Hb; auto. }
      specialize (O O2). unfold X, Y. rewrite Nat2Z.inj_add, Z.pow_add_r by lia.
      set (k := count_tapes (fun t => bad B (col c) t) m) in *. set (ad := acc ^ Z.of_nat dim). set (am := acc ^ Z.of_nat m) in *.
      assert (0 <= ad) by (apply Z.pow_nonneg; unfold acc; lia).
      set (x := (3 * (n * (n + 1))) ^ S) in *. set (y := (3 * (n * (n + 1)) + 1) ^ S) in *. clearbody k ad am x y.
      replace ((n + 1) ^ B * x * (ad * k)) with (ad * (k * (n + 1) ^ B * x)) by ring.
      replace (2 * n ^ B * (ad * am) * y) with (ad * (2 * n ^ B * am * y)) by ring.
      apply Z.mul_le_mono_nonneg_l; assumption. }
  apply Z.le_trans with (Z.of_nat w * (Y / X) * X).
  - rewrite <- Z.mul_assoc. fold X. apply Z.mul_le_mono_nonneg_r; [lia|exact U].
  - pose proof (Z.mul_div_le Y X X0) as D. apply Z.le_trans with (Z.of_nat w * Y).
    + rewrite <- Z.mul_assoc, (Z.mul_comm (Y / X)). apply Z.mul_le_mono_nonneg_l; lia.
    + unfold Y. apply Z.eq_le_incl. ring.
Qed.

Lemma column_bound : forall pb d, Forall (fun x => 0 <= x < 2 ^ Z.of_nat pb) d ->
  Forall (fun x => 0 <= x) d /\ 0 <= sum_squares d <= Z.of_nat (length d) * (2 ^ Z.of_nat pb - 1) ^ 2.
Proof.
  intros pb d H. split; [eapply Forall_impl; [|exact H]; cbn; lia|]. unfold sum_squares.
  rewrite Z.pow_2_r. set (M := 2 ^ Z.of_nat pb) in *.
  induction H as [|x d Hx H IH]; [cbn; lia|]. cbn [dot length]. rewrite Nat2Z.inj_succ.
  assert (x * x <= (M - 1) * (M - 1)) by (apply Z.mul_le_mono_nonneg; lia). assert (0 <= x * x) by nia. lia.
Qed.

Lemma firstn_all_skip : forall (t : list Z) dim m, length t = (dim + m)%nat ->
  firstn m (skipn dim (map ternary_class t)) = map ternary_class (skipn dim t).
Proof.
  intros t dim m L. rewrite skipn_map, firstn_all2; [reflexivity|]. rewrite map_length, skipn_length. lia.
Qed.

Lemma nth_repeat' : forall A (a d : A) n i, (i < n)%nat -> nth i (repeat a n) d = a.
Proof. intros A a d n. induction n as [|n IH]; intros [|i] Hi; cbn [repeat nth]; try lia; [reflexivity|apply IH; lia]. Qed.

(** ** C61 *)

(** @C61 Of all tapes of accepted random words, the number on which an index query is generated
    but the decoded row is not the stored one. S bounds the sum of squares of every column,
    n >= 1 is arbitrary: the fraction of such tapes is at most
    2 w (n / (n+1))^(2^(31-pb)) (1 + 1 / (3 n (n+1)))^S. *)
Lemma index_failure_fraction :
  forall (prg : list Z -> nat -> Z) (dbg : bool) (seed : list Z) (strs elems : list (list Z))
         (dim m es pb w : nat) (sh : shard) (r : nat) (n S : Z),
    (1 <= pb <= 31)%nat -> is_ceil_div es pb w -> Z.of_nat es < 2 ^ 64 ->
    shard_from_base64_strings prg dbg seed strs dim m es pb = Ok sh ->
    length elems = m ->
    (forall i, (i < m)%nat -> b64_decode (nth i strs []) = Ok (nth i elems [])) ->
    1 <= n -> 0 <= S ->
    (forall c, (c < w)%nat -> sum_squares (column elems pb c) <= S) ->
    count_tapes (index_run_wrong prg dbg sh r (map (chunk (nth r elems []) pb) (seq 0 w))) (dim + m)
      * (n + 1) ^ (2 ^ (31 - Z.of_nat pb)) * (3 * (n * (n + 1))) ^ S
    <= (2 * Z.of_nat w) * n ^ (2 ^ (31 - Z.of_nat pb)) * (2 ^ 32 - 3) ^ Z.of_nat (dim + m)
       * (3 * (n * (n + 1)) + 1) ^ S.
Proof.
  intros prg dbg seed strs elems dim m es pb w sh r n S Hpb Hw H64 Hsh Hel Hdec Hn HS Hcol.
  apply (union_bound _ dim m w (fun c => column elems pb c)); auto.
  - apply Z.pow_nonneg. lia.
  - intros c Hc. split; [now rewrite column_length|]. split; [|auto].
    unfold column. apply Forall_forall. intros x Hx. apply in_map_iff in Hx. destruct Hx as (b & <- & _).
    pose proof (chunk_range b pb c). lia.
  - intros t Ht Hok. destruct (tapes_accepted _ _ Ht) as [L D]. unfold index_run_wrong.
    assert (Hpb' : (1 <= pb <= 32)%nat) by lia.
    destruct (shard_inv _ _ _ _ _ _ _ _ _ _ Hpb' Hw Hsh) as (Hm & elems' & Hst & Esh).
    destruct (gen_qp_ok prg seed dim elems' m es pb w t) as [rest G].
    { rewrite D, map_length. lia. }
    destruct (generate_index_query_params (index_common_params prg (sh_params sh)) (sh_params sh) t) as [[qp rest']| | |] eqn:Eg;
      try (rewrite Esh in Eg; cbn [sh_params shard_of] in Eg; congruence).
    destruct (index_generate_query dbg qp r) as [qp' [q| | |]] eqn:Eq; try reflexivity.
    destruct (index_retrieval prg dbg seed strs elems dim m es pb w sh t rest' qp qp' r q Hpb Hw H64 Hsh Hel Hdec Eg Eq)
      as (bytes & resp & row & H1 & H2 & H3 & _ & H5).
    rewrite H1. cbn [bind]. rewrite H2. cbn [bind]. rewrite H3.
    rewrite (proj2 (same_row_spec _ _)); [reflexivity|]. apply H5. intros c Hc.
    rewrite D, firstn_all_skip by exact L. apply Hok. exact Hc.
Qed.

(** @C61 The fraction is out of all tapes: there are (2^32 - 3)^n of them. *)
Lemma all_tapes : forall n, count_tapes (fun _ => true) n = (2 ^ 32 - 3) ^ Z.of_nat n.
Proof.
  intros n. unfold count_tapes.
  assert (E : forall l : list (list Z), filter (fun _ => true) l = l) by (induction l as [|x l IH]; cbn; congruence).
  rewrite E, tapes_length, Nat2Z.inj_pow, accepted_length. reflexivity.
Qed.

Lemma count_nonneg : forall P n, 0 <= count_tapes P n.
Proof. intros. unfold count_tapes. apply Nat2Z.is_nonneg. Qed.

(** The index configurations of the repository's Makefile (lines 81-90): rows, element size in bits, plaintext bits,
    and the proved number of bits of the failure probability. *)
Definition index_configs : list (Z * Z * Z * Z) :=
  [(2 ^ 16, 8192, 10, 58); (2 ^ 17, 8192, 10, 23); (2 ^ 18, 8192, 10, 6); (2 ^ 19, 8192, 9, 127); (2 ^ 20, 8192, 9, 58);
   (2 ^ 14, 819200, 10, 259); (2 ^ 17, 245760, 10, 19); (2 ^ 20, 2048, 9, 60)].

Lemma ceil_div_unique : forall es pb w w', (1 <= pb)%nat -> is_ceil_div es pb w -> Z.of_nat es <= Z.of_nat pb * w' < Z.of_nat es + Z.of_nat pb -> Z.of_nat w = w'.
Proof.
  intros es pb w w' H [H1 H2] [H3 H4]. assert (0 <= w') by nia.
  specialize (H2 (Z.to_nat w') ltac:(nia)). apply Z.le_antisymm; nia.
Qed.

(** From the general bound to a number. *)
Lemma numeric_bound : forall cnt tot m pb w (M e : Z) (k kb : nat) n K,
  0 <= cnt -> 0 <= tot -> (pb <= 31)%nat -> kb = (31 - pb)%nat ->
  tail_ok n kb e k (2 * Z.of_nat w) K = true ->
  Z.of_nat m * (2 ^ Z.of_nat pb - 1) ^ 2 <= e * 2 ^ Z.of_nat k ->
  (forall S, Z.of_nat m * (2 ^ Z.of_nat pb - 1) ^ 2 <= S -> 1 <= n ->
     cnt * (n + 1) ^ (2 ^ (31 - Z.of_nat pb)) * (3 * (n * (n + 1))) ^ S
     <= (2 * Z.of_nat w) * n ^ (2 ^ (31 - Z.of_nat pb)) * tot * (3 * (n * (n + 1)) + 1) ^ S) ->
  cnt * 2 ^ K <= tot.
Proof.
  intros cnt tot m pb w M e k kb n K Hc Ht Hpb -> H Hs HH.
  apply (tail_ok_sound n (31 - pb) e k (2 * Z.of_nat w) K); auto; [lia|].
  rewrite Nat2Z.inj_sub by lia. change (Z.of_nat 31) with 31. apply HH; [exact Hs|].
  unfold tail_ok in H. rewrite !andb_true_iff, Z.leb_le in H. tauto.
Qed.

(** @C61 In every configuration the Makefile runs, the probability of a wrong row is below
    2^-bits, whatever the database content, the row and the dimension. *)
Lemma index_failure_shipped :
  forall prg dbg seed strs elems dim m es pb w sh r mz ez pz bits,
    In (mz, ez, pz, bits) index_configs ->
    Z.of_nat m = mz -> Z.of_nat es = ez -> Z.of_nat pb = pz -> is_ceil_div es pb w ->
    shard_from_base64_strings prg dbg seed strs dim m es pb = Ok sh ->
    length elems = m ->
    (forall i, (i < m)%nat -> b64_decode (nth i strs []) = Ok (nth i elems [])) ->
    count_tapes (index_run_wrong prg dbg sh r (map (chunk (nth r elems []) pb) (seq 0 w))) (dim + m) * 2 ^ bits
    <= count_tapes (fun _ => true) (dim + m).
Proof.
  intros prg dbg seed strs elems dim m es pb w sh r mz ez pz bits Hin Hm He Hp Hw Hsh Hel Hdec.
  rewrite all_tapes.
  assert (G : forall n S, (1 <= pb <= 31)%nat -> Z.of_nat es < 2 ^ 64 -> Z.of_nat m * (2 ^ Z.of_nat pb - 1) ^ 2 <= S -> 1 <= n ->
    count_tapes (index_run_wrong prg dbg sh r (map (chunk (nth r elems []) pb) (seq 0 w))) (dim + m)
      * (n + 1) ^ (2 ^ (31 - Z.of_nat pb)) * (3 * (n * (n + 1))) ^ S
    <= (2 * Z.of_nat w) * n ^ (2 ^ (31 - Z.of_nat pb)) * (2 ^ 32 - 3) ^ Z.of_nat (dim + m)
       * (3 * (n * (n + 1)) + 1) ^ S).
  { intros n S Hpb H64 HS Hn.
    assert (C : forall c, 0 <= sum_squares (column elems pb c) <= Z.of_nat m * (2 ^ Z.of_nat pb - 1) ^ 2).
    { intros c. rewrite <- Hel, <- (column_length elems pb c). apply column_bound.
      unfold column. apply Forall_forall. intros x Hx. apply in_map_iff in Hx. destruct Hx as (b & <- & _).
      apply (chunk_range b pb c). }
    apply index_failure_fraction with (seed := seed) (strs := strs) (es := es); auto.
    - specialize (C 0%nat). lia.
    - intros c _. specialize (C c). lia. }
  assert (T0 : 0 <= (2 ^ 32 - 3) ^ Z.of_nat (dim + m)) by (apply Z.pow_nonneg; lia).
  pose proof (count_nonneg (index_run_wrong prg dbg sh r (map (chunk (nth r elems []) pb) (seq 0 w))) (dim + m)) as C0.
  set (cnt := count_tapes _ _) in *. set (tot := (2 ^ 32 - 3) ^ _) in *. clearbody cnt tot.
  clear Hsh Hdec Hel. 
  cbn [index_configs In] in Hin.
  Ltac one n k c := (* c : the ceiling *)
    match goal with
    | Hin : _ = _, Hm : Z.of_nat ?m = _, He : Z.of_nat ?es = _, Hp : Z.of_nat ?pb = _, Hw : is_ceil_div ?es ?pb ?w, G : _ |- _ =>
      injection Hin as <- <- <- <-;
      let Ew := fresh in
      assert (Ew : Z.of_nat w = c) by (apply (ceil_div_unique es pb w c); [lia|exact Hw|lia]);
      apply (numeric_bound _ _ m pb w 0 1 k (31 - pb) n); auto;
      [ lia
      | replace (31 - pb)%nat with (31 - Z.to_nat (Z.of_nat pb))%nat by lia; rewrite Ew, Hp; vm_compute; reflexivity
      | rewrite Hm, Hp; vm_compute; discriminate
      | intros S HS Hn; apply G; auto; lia ]
    end.
  destruct Hin as [H|[H|[H|[H|[H|[H|[H|[H|[]]]]]]]]].
  - one 21845 36%nat 820.
  - one 43690 37%nat 820.
  - one 87381 38%nat 820.
  - one 21845 37%nat 911.
  - one 43690 38%nat 911.
  - one 5461 34%nat 81920.
  - one 43690 37%nat 24576.
  - one 43690 38%nat 228.
Qed.

(** ** C62 *)

Lemma kv_gen_qp_total : forall prg pseed dim db H w tape,
  (dim + H <= length (draws tape))%nat ->
  let p := kv_params_of prg pseed dim db H w in
  exists qp rest, generate_kv_query_params (kv_common_params prg p) p tape = Ok (qp, rest).
Proof.
  intros prg pseed dim db H w tape Ht p. unfold p, generate_kv_query_params, kv_common_params.
  cbn [kp_dim kp_m kp_public_seed kp_rhs kp_elem_size kp_plaintext_bits kp_filter_params kv_params_of].
  fold (pubmat prg pseed dim H).
  pose proof (random_ternary_vector_draws dim tape) as H1.
  replace (dim <=? length (draws tape))%nat with true in H1 by lia.
  destruct H1 as (t1 & -> & H2). cbn [bind].
  fold (secret dim tape). fold (words (secret dim tape)).
  pose proof (pubmat_shape prg pseed dim H) as [HAl HAF].
  assert (Hs : length (words (secret dim tape)) = dim).
  { rewrite words_length. unfold secret. rewrite firstn_length. lia. }
  destruct (mult_left_ok (pubmat prg pseed dim H) (words (secret dim tape)) t1) as (t2 & -> & H3).
  { eapply Forall_impl; [|exact HAF]. simpl. intros; congruence. }
  { rewrite H2, skipn_length. lia. }
  cbn [bind]. rewrite mult_right_ok by (rewrite Hs; apply kv_rhs_lengths).
  cbn [bind]. eexists. eexists. reflexivity.
Qed.

Lemma kv_shard_cols : forall prg dbg fe rnd fseed pseed kvs dim m es pb w sh,
  (1 <= pb <= 31)%nat -> is_ceil_div es pb w ->
  sane_estimates fe (length kvs) ->
  Forall (fun kv => length (kv_value kv) = w) kvs ->
  kv_shard_new prg dbg fe rnd fseed pseed kvs dim m es pb = Ok sh ->
  (exists H, ks_params sh = kv_params_of prg pseed dim (ks_db sh) H w /\ kp_m (ks_params sh) = H) /\
  forall c, (c < w)%nat -> length (nth c (kd_entries (ks_db sh)) []) = kp_m (ks_params sh) /\
    Forall (fun x => 0 <= x < 2 ^ Z.of_nat pb) (nth c (kd_entries (ks_db sh)) []).
Proof.
  intros prg dbg fe rnd fseed pseed kvs dim m es pb w sh Hpb Hw Hsane HF Hsh.
  unfold kv_shard_new in Hsh. apply bind_Ok in Hsh as (db & Hdb & Hsh).
  destruct (kv_db_inv dbg fe rnd fseed kvs m es pb db ltac:(lia) Hdb)
    as (kv0 & g & H0 & Hg & Em & Ees & Epb & Hfp & Hs & HW & _ & HC).
  assert (HW' : length (kv_value kv0) = w).
  { rewrite Forall_forall in HF. apply HF. eapply nth_error_In; eauto. }
  rewrite HW' in *.
  destruct (geometry_valid _ _ _ _ Hsane Hg) as [Vg _].
  rewrite <- Ees, <- Epb in Hw.
  rewrite (kv_shard_of_db_ok prg pseed db dim w (g_arrlen g) w) in Hsh; auto; [|lia|now apply geom_pos].
  injection Hsh as <-. cbn [ks_db ks_params] in *. split.
  - exists (g_arrlen g). split; reflexivity.
  - intros c Hc. cbn [kp_m kv_params_of]. split; [apply (shape_nth _ w); auto|].
    destruct (HC c Hc) as (f & Ef & EF & _).
    apply (fingerprints_mod_range f (Z.of_nat pb)); auto; [lia|]. eapply from_slice_mod; eauto.
Qed.

(** @C62 Of all tapes of accepted random words, the number on which a keyword run (parameters,
    query for a stored key, answer, decoding) does not end with the stored value: with S a
    bound on the sum of squares of every column of the filter matrix and n >= 1 arbitrary,
    their fraction is at most 2 w (n / (n+1))^(2^(31-pb)) (1 + 1 / (3 n (n+1)))^S. *)
Lemma kv_failure_fraction : forall prg dbg fe rnd fseed pseed kvs dim m es pb w sh i kv n S,
  (1 <= pb <= 31)%nat -> is_ceil_div es pb w -> Z.of_nat es < 2 ^ 64 ->
  sane_estimates fe (length kvs) ->
  Forall (fun kv => length (kv_value kv) = w) kvs ->
  kv_shard_new prg dbg fe rnd fseed pseed kvs dim m es pb = Ok sh ->
  (dbg = true \/ exists slots,
     (forall key, get_hash_evals dbg (kd_filter_params (ks_db sh)) key = Ok (slots key)) /\
     forall j, (load slots (map kv_key kvs) j <= 63)%nat) ->
  nth_error kvs i = Some kv -> last_with_hash fseed (map kv_key kvs) i (kv_key kv) ->
  1 <= n -> 0 <= S ->
  (forall c, (c < w)%nat -> sum_squares (nth c (kd_entries (ks_db sh)) []) <= S) ->
  count_tapes (kv_run_wrong prg dbg sh (kv_key kv) (map (fun x => x mod 2 ^ Z.of_nat pb) (kv_value kv)))
      (dim + kp_m (ks_params sh))
    * (n + 1) ^ (2 ^ (31 - Z.of_nat pb)) * (3 * (n * (n + 1))) ^ S
  <= (2 * Z.of_nat w) * n ^ (2 ^ (31 - Z.of_nat pb)) * (2 ^ 32 - 3) ^ Z.of_nat (dim + kp_m (ks_params sh))
     * (3 * (n * (n + 1)) + 1) ^ S.
Proof.
  intros prg dbg fe rnd fseed pseed kvs dim m es pb w sh i kv n S Hpb Hw H64 Hsane HF Hsh Hload Hi Hlast Hn HS Hcol.
  destruct (kv_shard_cols prg dbg fe rnd fseed pseed kvs dim m es pb w sh Hpb Hw Hsane HF Hsh) as ((H & Ep & Em) & Hc).
  apply (union_bound _ dim (kp_m (ks_params sh)) w (fun c => nth c (kd_entries (ks_db sh)) [])); auto.
  - apply Z.pow_nonneg. lia.
  - intros c Hcw. destruct (Hc c Hcw) as [L R]. split; [exact L|]. split; [|auto].
    eapply Forall_impl; [|exact R]. cbn. lia.
  - intros t Ht Hok. destruct (tapes_accepted _ _ Ht) as [L D]. unfold kv_run_wrong.
    destruct (kv_gen_qp_total prg pseed dim (ks_db sh) H w t) as (qp & rest & G).
    { rewrite D, map_length, L, Em. lia. }
    rewrite <- Ep in G. rewrite G.
    destruct (kv_retrieval prg dbg fe rnd fseed pseed kvs dim m es pb w sh t rest qp i kv
              Hpb Hw H64 Hsane HF Hsh Hload Hi Hlast G)
      as (qp' & q & bytes & resp & row & H1 & H2 & H3 & H4 & H5 & H6).
    rewrite H1, H2. cbn [bind]. rewrite H3. cbn [bind]. rewrite H4.
    rewrite (proj2 (same_row_spec _ _)); [reflexivity|]. apply H6. intros c Hcw.
    rewrite D, firstn_all_skip by exact L. apply Hok. exact Hcw.
Qed.

(** The keyword configurations of the Makefile (lines 60-69) with the number of slots of the
    filter the f64 arithmetic gives for 2^16 .. 2^20 keys: slots, element size in bits,
    plaintext bits, proved bits. *)
Definition kv_configs : list (Z * Z * Z * Z) :=
  [(77824, 8192, 10, 47); (155648, 8192, 10, 18); (303104, 8192, 10, 4); (598016, 8192, 9, 110); (1179648, 8192, 9, 50);
   (20480, 819200, 10, 204); (155648, 245760, 10, 13); (1179648, 2048, 9, 52)].

(** @C62 With a filter of at most that many slots, the probability that a stored key's value
    does not come back is below 2^-bits, whatever the keys, the values and the dimension. *)
Lemma kv_failure_shipped : forall prg dbg fe rnd fseed pseed kvs dim m es pb w sh i kv mz ez pz bits,
  In (mz, ez, pz, bits) kv_configs ->
  Z.of_nat (kp_m (ks_params sh)) <= mz -> Z.of_nat es = ez -> Z.of_nat pb = pz -> is_ceil_div es pb w ->
  sane_estimates fe (length kvs) ->
  Forall (fun kv => length (kv_value kv) = w) kvs ->
  kv_shard_new prg dbg fe rnd fseed pseed kvs dim m es pb = Ok sh ->
  (dbg = true \/ exists slots,
     (forall key, get_hash_evals dbg (kd_filter_params (ks_db sh)) key = Ok (slots key)) /\
     forall j, (load slots (map kv_key kvs) j <= 63)%nat) ->
  nth_error kvs i = Some kv -> last_with_hash fseed (map kv_key kvs) i (kv_key kv) ->
  count_tapes (kv_run_wrong prg dbg sh (kv_key kv) (map (fun x => x mod 2 ^ Z.of_nat pb) (kv_value kv)))
      (dim + kp_m (ks_params sh)) * 2 ^ bits
  <= count_tapes (fun _ => true) (dim + kp_m (ks_params sh)).
Proof.
  intros prg dbg fe rnd fseed pseed kvs dim m es pb w sh i kv mz ez pz bits Hin Hm He Hp Hw Hsane HF Hsh Hload Hi Hlast.
  rewrite all_tapes.
  assert (G : forall n S, (1 <= pb <= 31)%nat -> Z.of_nat es < 2 ^ 64 ->
    Z.of_nat (kp_m (ks_params sh)) * (2 ^ Z.of_nat pb - 1) ^ 2 <= S -> 1 <= n ->
    count_tapes (kv_run_wrong prg dbg sh (kv_key kv) (map (fun x => x mod 2 ^ Z.of_nat pb) (kv_value kv))) (dim + kp_m (ks_params sh))
      * (n + 1) ^ (2 ^ (31 - Z.of_nat pb)) * (3 * (n * (n + 1))) ^ S
    <= (2 * Z.of_nat w) * n ^ (2 ^ (31 - Z.of_nat pb)) * (2 ^ 32 - 3) ^ Z.of_nat (dim + kp_m (ks_params sh))
       * (3 * (n * (n + 1)) + 1) ^ S).
  { intros n S Hpb H64 HS Hn.
    destruct (kv_shard_cols prg dbg fe rnd fseed pseed kvs dim m es pb w sh Hpb Hw Hsane HF Hsh) as (_ & Hc).
    apply kv_failure_fraction with (fe := fe) (rnd := rnd) (fseed := fseed) (pseed := pseed) (kvs := kvs) (m := m) (es := es) (i := i); auto.
    - assert (0 <= Z.of_nat (kp_m (ks_params sh)) * (2 ^ Z.of_nat pb - 1) ^ 2)
        by (apply Z.mul_nonneg_nonneg; [lia|apply Z.pow_even_nonneg; now exists 1]). lia.
    - intros c Hcw. destruct (Hc c Hcw) as [L R]. destruct (column_bound pb _ R) as [_ B]. rewrite L in B. lia. }
  assert (T0 : 0 <= (2 ^ 32 - 3) ^ Z.of_nat (dim + kp_m (ks_params sh))) by (apply Z.pow_nonneg; lia).
  pose proof (count_nonneg (kv_run_wrong prg dbg sh (kv_key kv) (map (fun x => x mod 2 ^ Z.of_nat pb) (kv_value kv))) (dim + kp_m (ks_params sh))) as C0.
  set (cnt := count_tapes _ _) in *. set (tot := (2 ^ 32 - 3) ^ _) in *. clearbody cnt tot.
  clear Hsane HF Hsh Hload Hi Hlast.
  generalize dependent (kp_m (ks_params sh)). intros mm Hm G.
  cbn [kv_configs In] in Hin.
  Ltac onek n e k c :=
    match goal with
    | Hin : _ = _, Hm : Z.of_nat ?m <= _, He : Z.of_nat ?es = _, Hp : Z.of_nat ?pb = _, Hw : is_ceil_div ?es ?pb ?w, G : _ |- _ =>
      injection Hin as <- <- <- <-;
      let Ew := fresh in
      assert (Ew : Z.of_nat w = c) by (apply (ceil_div_unique es pb w c); [lia|exact Hw|lia]);
      apply (numeric_bound _ _ m pb w 0 e k (31 - pb) n); auto;
      [ lia
      | replace (31 - pb)%nat with (31 - Z.to_nat (Z.of_nat pb))%nat by lia; rewrite Ew, Hp; vm_compute; reflexivity
      | rewrite Hp; eapply Z.le_trans; [apply Z.mul_le_mono_nonneg_r; [|exact Hm]; vm_compute; discriminate|vm_compute; discriminate]
      | intros S HS Hn; apply G; auto; lia ]
    end.
  destruct Hin as [H|[H|[H|[H|[H|[H|[H|[H|[]]]]]]]]].
  - onek 25941 19 32%nat 820.
  - onek 51882 19 33%nat 820.
  - onek 101034 37 33%nat 820.
  - onek 24917 73 31%nat 911.
  - onek 49152 9 35%nat 911.
  - onek 6826 5 32%nat 81920.
  - onek 51882 19 33%nat 24576.
  - onek 49152 9 35%nat 228.
Qed.

(** @C61 example: a database of 2^16 rows of 1 KiB (every string decodes to the same 1024
    arbitrary bytes) meets all hypotheses of the first configuration. *)
Example index_shipped_example : forall prg dbg seed dim s bytes,
  b64_decode s = Ok bytes -> length bytes = Z.to_nat 1024 ->
  exists m es w strs elems sh,
    In (Z.of_nat m, Z.of_nat es, Z.of_nat 10, 58) index_configs /\ is_ceil_div es 10 w /\
    shard_from_base64_strings prg dbg seed strs dim m es 10 = Ok sh /\ length elems = m /\
    (forall i, (i < m)%nat -> b64_decode (nth i strs []) = Ok (nth i elems [])).
Proof.
  intros prg dbg seed dim s bytes Hs Hl.
  assert (G : forall m es w, (0 < m)%nat -> Z.of_nat m = 2 ^ 16 -> Z.of_nat es = 8192 -> Z.of_nat w = 820 ->
    exists sh, In (Z.of_nat m, Z.of_nat es, Z.of_nat 10, 58) index_configs /\ is_ceil_div es 10 w /\
    shard_from_base64_strings prg dbg seed (repeat s m) dim m es 10 = Ok sh /\ length (repeat bytes m) = m /\
    (forall i, (i < m)%nat -> b64_decode (nth i (repeat s m) []) = Ok (nth i (repeat bytes m) []))).
  { intros m es w H0 Hm He Hw.
    assert (D : forall i, (i < m)%nat -> b64_decode (nth i (repeat s m) []) = Ok (nth i (repeat bytes m) [])).
    { intros i Hi. rewrite !nth_repeat' by exact Hi. exact Hs. }
    assert (C : is_ceil_div es 10 w) by (split; [lia|intros; lia]).
    eexists. split; [rewrite Hm, He; left; reflexivity|]. split; [exact C|]. split.
    - apply (shard_ok prg dbg seed (repeat s m) dim m es 10 w (repeat bytes m)); auto; [lia|].
      split; [apply repeat_length|]. split; [rewrite repeat_length; lia|]. intros i Hi. split; [auto|].
      rewrite nth_repeat', Hl by exact Hi. lia.
    - split; [apply repeat_length|exact D]. }
  destruct (G (Z.to_nat (2 ^ 16)) (Z.to_nat 8192) (Z.to_nat 820)) as [sh Hsh];
    [lia | apply Z2Nat.id; lia | apply Z2Nat.id; lia | apply Z2Nat.id; lia |].
  exists (Z.to_nat (2 ^ 16)), (Z.to_nat 8192), (Z.to_nat 820), (repeat s (Z.to_nat (2 ^ 16))), (repeat bytes (Z.to_nat (2 ^ 16))), sh.
  exact Hsh.
Qed.

(** Three keys with 228-entry values. *)
Definition wide_kvs : list key_value :=
  [{| kv_key := key4 1; kv_value := repeat 500 228 |}; {| kv_key := key4 2; kv_value := repeat 511 228 |};
   {| kv_key := key4 3; kv_value := repeat 7 228 |}].

(** @C62 example: three keys and 228-entry values, 2048-bit values of 9-bit chunks: the shard
    is built whatever the randomness, and meets the hypotheses for the last configuration. *)
Example kv_shipped_example : forall prg rnd pseed dim m, exists sh kv,
  In (1179648, 2048, 9, 52) kv_configs /\ is_ceil_div 2048 9 228 /\
  sane_estimates (est 3 12) (length wide_kvs) /\
  Forall (fun kv => length (kv_value kv) = 228%nat) wide_kvs /\
  kv_shard_new prg true (est 3 12) rnd seed0 pseed wide_kvs dim m 2048 9 = Ok sh /\
  Z.of_nat (kp_m (ks_params sh)) <= 1179648 /\
  nth_error wide_kvs 1 = Some kv /\ last_with_hash seed0 (map kv_key wide_kvs) 1 (kv_key kv).
Proof.
  intros prg rnd pseed dim m.
  destruct construct_example as (g & slots & Hg & Hev & ND & HP & Hl).
  assert (C : is_ceil_div 2048 9 228) by (split; [lia|intros; lia]).
  assert (S : sane_estimates (est 3 12) (length wide_kvs)) by (apply est_sane; cbn; lia).
  assert (F : Forall (fun kv => length (kv_value kv) = 228%nat) wide_kvs)
    by (repeat constructor; cbn [kv_value]; apply repeat_length).
  destruct (kv_build_iff_peelable prg true (est 3 12) rnd seed0 pseed wide_kvs dim m 2048 9 228 g slots)
    as [(_ & sh & E & Em & _)|[NP _]]; auto; try lia; [discriminate| |contradiction].
  exists sh. eexists. split; [cbn; tauto|]. split; [exact C|]. split; [exact S|]. split; [exact F|]. split; [exact E|].
  split; [|split; [reflexivity|exact ex_last]].
  rewrite Em. assert (X : geometry true (est 3 12) (length ex_keys) = Ok {| g_seglen := 8; g_mask := 7; g_scl := 8; g_segcount := 1; g_arrlen := Z.to_nat 24 |}) by reflexivity.
  rewrite X in Hg. injection Hg as <-. cbn. lia.
Qed.
