(** * Claims about the matrix, sampling and rounding primitives (C08-C13). *)
From Verif Require Import Base Spec Mat Lwe Db Api Base_facts Fmt_facts Mat_facts Index_facts IndexProto_facts.
Local Open Scope Z_scope.

(** @C08 The vector product is the inner product modulo 2^32. *)
Lemma inner_product :
  forall row col : list Z,
    length row = length col -> vec_mult_u32_u32 row col = Ok (dot row col mod 2 ^ 32).
Proof. intros row col H. rewrite vec_mult_closed, H, Nat.eqb_refl. reflexivity. Qed.

(** @C08 Vectors of different lengths give the input-size error. *)
Lemma inner_product_mismatch :
  forall row col : list Z,
    length row <> length col -> vec_mult_u32_u32 row col = Err EInputSize.
Proof.
  intros row col H. rewrite vec_mult_closed.
  destruct (Nat.eqb_spec (length row) (length col)); [contradiction|reflexivity].
Qed.

(** @C08 example with wrap-around, and a mismatch. *)
Example inner_product_example :
  vec_mult_u32_u32 [4294967295; 2; 65536] [3; 5; 65536] = Ok 7 /\
  vec_mult_u32_u32 [1; 2] [3] = Err EInputSize.
Proof. split; vm_compute; reflexivity. Qed.

(** @C09 The format switch of a rectangular matrix is its transpose. *)
Lemma format_switch_transposes :
  forall (M : list (list Z)) (h w : nat),
    shape M h w -> (0 < h)%nat ->
    exists T, swap_matrix_fmt M = Ok T /\ is_transpose M T h w.
Proof.
  intros M h w HM Hh. exists (transpose M w). split; [now apply (swap_matrix_rect M h w)|].
  destruct HM as [<- HM]. split; [apply transpose_shape|].
  intros i j Hi Hj. now apply transpose_at.
Qed.

(** @C09 Switching twice gives the matrix back. *)
Lemma format_switch_twice :
  forall (M : list (list Z)) (h w : nat),
    shape M h w -> (0 < h)%nat -> (0 < w)%nat ->
    exists T, swap_matrix_fmt M = Ok T /\ swap_matrix_fmt T = Ok M.
Proof.
  intros M h w HM Hh Hw. pose proof (swap_swap M h w HM Hh Hw) as H.
  destruct (swap_matrix_fmt M) as [T| | |]; try discriminate. exists T. auto.
Qed.

(** @C09 It panics exactly on the empty matrix and on a row shorter than the first one; in
    every other case it succeeds. *)
Lemma format_switch_panics_iff :
  forall M : list (list Z),
    (swap_matrix_fmt M = Panic <->
     M = [] \/ exists r, In r M /\ (length r < length (nth 0 M []))%nat) /\
    (swap_matrix_fmt M <> Panic -> exists T, swap_matrix_fmt M = Ok T).
Proof.
  intros [|r0 M].
  - split; [split; auto|intros H; exfalso; apply H; reflexivity].
  - cbn [nth].
    destruct (Forall_Exists_dec (fun r => (length r0 <= length r)%nat)
                (fun r => le_dec (length r0) (length r)) M) as [HF|HE].
    + rewrite (swap_matrix_ok r0 M HF). split; [|eauto]. split; [discriminate|].
      intros [H|(r & [<-|Hr] & Hlt)]; [discriminate|lia|].
      rewrite Forall_forall in HF. specialize (HF r Hr). lia.
    + assert (HE' : Exists (fun r => (length r < length r0)%nat) M).
      { eapply Exists_impl; [|exact HE]. intros a Ha. cbv beta in Ha. lia. }
      rewrite (swap_matrix_short r0 M HE'). split; [|congruence]. split; [intros _|auto].
      right. apply Exists_exists in HE'. destruct HE' as (r & Hr & Hl). exists r. simpl. auto.
Qed.

(** @C09 At the database level: the format switch of either database applied twice is the
    identity on databases with a rectangular non-empty matrix. *)
Lemma database_switch_twice :
  (forall (db : index_db) (h w : nat),
     shape (id_entries db) h w -> (0 < h)%nat -> (0 < w)%nat ->
     exists t, index_switch_fmt db = Ok t /\ index_switch_fmt t = Ok db) /\
  (forall (db : kv_db) (h w : nat),
     shape (kd_entries db) h w -> (0 < h)%nat -> (0 < w)%nat ->
     exists t, kv_switch_fmt db = Ok t /\ kv_switch_fmt t = Ok db).
Proof.
  split; intros db h w HM Hh Hw; destruct (format_switch_twice _ h w HM Hh Hw) as (T & H1 & H2).
  - unfold index_switch_fmt. rewrite H1. cbn [bind]. eexists. split; [reflexivity|].
    cbn [id_entries id_m id_elem_size id_plaintext_bits]. rewrite H2. now destruct db.
  - unfold kv_switch_fmt. rewrite H1. cbn [bind]. eexists. split; [reflexivity|].
    cbn [kd_entries kd_m kd_elem_size kd_plaintext_bits kd_filter_params]. rewrite H2.
    now destruct db.
Qed.

(** @C09 examples: a 2x3 matrix, a ragged one, a matrix with a longer second row (cut). *)
Example format_switch_example :
  shape [[1; 2; 3]; [4; 5; 6]] 2 3 /\
  swap_matrix_fmt [[1; 2; 3]; [4; 5; 6]] = Ok [[1; 4]; [2; 5]; [3; 6]] /\
  swap_matrix_fmt [[1; 2]; [3]] = Panic /\
  swap_matrix_fmt [[1]; [2; 3]] = Ok [[1; 2]].
Proof. split; [split; [reflexivity|repeat constructor]|]. repeat split; vm_compute; reflexivity. Qed.

(** ** Rounding *)

Lemma cdiv_half E d h : d = 2 * h -> 1 <= h -> cdiv (E - h) d = (E + h - 1) / d.
Proof.
  intros Hd Hh. unfold cdiv.
  assert (Hp : 0 < d) by lia.
  apply (Z.div_unique_pos _ _ _ ((E + h - 1) - d * (- (- (E - h) / d)))); [|ring].
  pose proof (Z.div_mod (- (E - h)) d ltac:(lia)) as H1.
  pose proof (Z.mod_pos_bound (- (E - h)) d Hp) as H2.
  generalize dependent ((- (E - h)) mod d). generalize ((- (E - h)) / d). intros q r H1 H2.
  nia.
Qed.

(** @C10 Decoding one response word. If word i of the response is
    right_i + delta*D + E modulo 2^32, with right the client's own vector and
    delta = 2^32 / 2^plaintext_bits, then entry i of the parsed row is
    (D + ceil((E - delta/2) / delta)) mod 2^plaintext_bits; it is D exactly when E is
    congruent to a number in (-delta/2, delta/2]. *)
Lemma rounding_recovers :
  forall (dbg : bool) (qp : query_params) (resp : list Z) (pb w i : nat) (D E : Z),
    qp_plaintext_bits qp = pb -> (1 <= pb <= 31)%nat -> is_ceil_div (qp_elem_size qp) pb w ->
    (w <= length (qp_rhs qp))%nat -> (w <= length resp)%nat -> (i < w)%nat ->
    0 <= D < 2 ^ Z.of_nat pb ->
    nth i resp 0 mod 2 ^ 32 =
      (nth i (qp_rhs qp) 0 + 2 ^ (32 - Z.of_nat pb) * D + E) mod 2 ^ 32 ->
    exists row,
      index_parse_resp_as_row dbg qp resp = Ok row /\ length row = w /\
      nth i row 0 =
        (D + cdiv (E - 2 ^ (31 - Z.of_nat pb)) (2 ^ (32 - Z.of_nat pb))) mod 2 ^ Z.of_nat pb /\
      (nth i row 0 = D <->
       congruent_in E (- 2 ^ (31 - Z.of_nat pb)) (2 ^ (31 - Z.of_nat pb))).
Proof.
  intros dbg qp resp pb w i D E <- Hpb Hw Hr Hl Hi HD HE.
  rewrite (index_parse_closed dbg qp resp w) by auto.
  eexists. split; [reflexivity|]. split; [now rewrite map_length, seq_length|].
  rewrite nth_map_seq by auto.
  set (pb := qp_plaintext_bits qp) in *.
  fold (psize pb) in *. fold (half pb) in *. fold (delta pb) in *.
  rewrite (decode_noise pb _ _ D E) by auto.
  rewrite (cdiv_half E (delta pb) (half pb)) by (try apply delta_half; try apply half_pos; lia).
  split; [reflexivity|]. apply decode_noise_iff; auto.
Qed.

(** @C10 example: 10-bit plaintexts (delta = 2^22): noise exactly delta/2 still rounds to D,
    noise delta/2 + 1 does not, noise -delta/2 does not, -delta/2 + 1 does. *)
Example rounding_example :
  let qp := {| qp_lhs := []; qp_rhs := [123456789]; qp_elem_size := 8; qp_plaintext_bits := 10;
               qp_extra := None; qp_used := true |} in
  let word E := (123456789 + 4194304 * 77 + E) mod 2 ^ 32 in
  is_ceil_div 8 10 1 /\
  index_parse_resp_as_row true qp [word 2097152] = Ok [77] /\
  index_parse_resp_as_row true qp [word 2097153] = Ok [78] /\
  index_parse_resp_as_row true qp [word (-2097151)] = Ok [77] /\
  index_parse_resp_as_row true qp [word (-2097152)] = Ok [76].
Proof.
  split; [|repeat split; vm_compute; reflexivity].
  split; [lia|]. intros w' H. lia.
Qed.

(** ** Ternary sampling *)

(** @C11 One draw, word by word: the three largest words are skipped, every other word is
    consumed and gives 0, 1 or 2^32-1 according to three consecutive ranges. *)
Lemma ternary_draw :
  forall (v : Z) (rest : list Z),
    0 <= v < 2 ^ 32 ->
    random_ternary (v :: rest) =
      if v <? 1431655765 then Ok (0, rest)
      else if v <? 2863311529 then Ok (1, rest)
      else if v <? 2 ^ 32 - 3 then Ok (2 ^ 32 - 1, rest)
      else random_ternary rest.
Proof.
  intros v rest Hv. cbn [random_ternary]. rewrite tern_accept, tern_class.
  unfold accepted_word, ternary_class.
  change (2 ^ 32 - 3) with 4294967293. change (2 ^ 32 - 1) with 4294967295.
  change (2 ^ 32) with 4294967296 in Hv.
  destruct (Z.leb_spec v 4294967292), (Z.leb_spec v 1431655764), (Z.leb_spec v 2863311528),
    (Z.ltb_spec v 1431655765), (Z.ltb_spec v 2863311529), (Z.ltb_spec v 4294967293);
    cbn [negb]; try reflexivity; lia.
Qed.

Lemma how_many_interval a b n :
  0 <= a <= b -> 0 <= n ->
  how_many (fun v => (a <=? v) && (v <? b)) n = Z.min b n - Z.min a n.
Proof.
  intros Hab Hn. unfold how_many. rewrite <- (Z2Nat.id n) at 2 3 by lia.
  generalize (Z.to_nat n) as k. clear Hn n. induction k as [|k IH].
  - cbn [seq map filter length Z.of_nat]. lia.
  - rewrite seq_S', map_app, filter_app, app_length, Nat2Z.inj_add, IH.
    cbn [map filter Nat.add].
    destruct (Z.leb_spec a (Z.of_nat k)), (Z.ltb_spec (Z.of_nat k) b);
      cbn [andb length Z.of_nat]; lia.
Qed.

Lemma how_many_ext P Q n :
  (forall v, 0 <= v < n -> P v = Q v) -> how_many P n = how_many Q n.
Proof.
  intros H. unfold how_many. do 2 f_equal. apply filter_ext_in.
  intros v Hv. apply in_map_iff in Hv. destruct Hv as (i & <- & Hi). apply in_seq in Hi.
  apply H. lia.
Qed.

(** Does this first word make the sampler return t immediately? *)
Definition draws_value (t v : Z) : bool :=
  match random_ternary [v] with Ok (x, _) => x =? t | _ => false end.

Lemma ternary_count_aux t a b :
  0 <= a <= b -> b <= 2 ^ 32 ->
  (forall v, 0 <= v < 2 ^ 32 -> draws_value t v = ((a <=? v) && (v <? b))) ->
  how_many (draws_value t) (2 ^ 32) = b - a.
Proof.
  intros H1 H2 H. rewrite (how_many_ext _ _ _ H), how_many_interval; lia.
Qed.

(** @C11 Exact distribution over one u32 word: of the 2^32 words, 1431655765 give 0,
    1431655764 give 1, 1431655764 give -1 (as 2^32-1) and 3 are rejected. *)
Lemma ternary_distribution :
  let gives t v := match random_ternary [v] with Ok (x, _) => x =? t | _ => false end in
  let rejected v := match random_ternary [v] with Ok _ => false | _ => true end in
  how_many (gives 0) (2 ^ 32) = 1431655765 /\
  how_many (gives 1) (2 ^ 32) = 1431655764 /\
  how_many (gives (2 ^ 32 - 1)) (2 ^ 32) = 1431655764 /\
  how_many rejected (2 ^ 32) = 3.
Proof.
  cbv zeta.
  split; [|split; [|split]].
  - change (how_many (draws_value 0) (2 ^ 32) = 1431655765).
    rewrite (ternary_count_aux 0 0 1431655765); try lia. intros v Hv. unfold draws_value.
    rewrite ternary_draw by auto. change (2 ^ 32 - 3) with 4294967293.
    destruct (Z.leb_spec 0 v), (Z.ltb_spec v 1431655765), (Z.ltb_spec v 2863311529),
      (Z.ltb_spec v 4294967293); try reflexivity; lia.
  - change (how_many (draws_value 1) (2 ^ 32) = 1431655764).
    rewrite (ternary_count_aux 1 1431655765 2863311529); try lia. intros v Hv. unfold draws_value.
    rewrite ternary_draw by auto. change (2 ^ 32 - 3) with 4294967293.
    destruct (Z.leb_spec 1431655765 v), (Z.ltb_spec v 1431655765), (Z.ltb_spec v 2863311529),
      (Z.ltb_spec v 4294967293); try reflexivity; lia.
  - change (how_many (draws_value (2 ^ 32 - 1)) (2 ^ 32) = 1431655764).
    rewrite (ternary_count_aux (2 ^ 32 - 1) 2863311529 4294967293); try lia.
    intros v Hv. unfold draws_value.
    rewrite ternary_draw by auto. change (2 ^ 32 - 3) with 4294967293.
    destruct (Z.leb_spec 2863311529 v), (Z.ltb_spec v 1431655765), (Z.ltb_spec v 2863311529),
      (Z.ltb_spec v 4294967293); try reflexivity; lia.
  - rewrite (how_many_ext _ (fun v => (4294967293 <=? v) && (v <? 4294967296))).
    + rewrite how_many_interval; lia.
    + intros v Hv. rewrite ternary_draw by auto. change (2 ^ 32 - 3) with 4294967293.
      change (2 ^ 32) with 4294967296 in Hv.
      destruct (Z.leb_spec 4294967293 v), (Z.ltb_spec v 1431655765), (Z.ltb_spec v 2863311529),
        (Z.ltb_spec v 4294967293), (Z.ltb_spec v 4294967296); try reflexivity; lia.
Qed.

(** @C11 A vector of n ternary draws, on any tape: it has n entries, each 0, 1 or 2^32-1,
    they are the classes of the first n accepted words in order and nothing else is
    consumed; it never ends iff fewer than n words are acceptable. *)
Lemma ternary_vector :
  forall (n : nat) (tape : list Z),
    ((n <= length (draws tape))%nat ->
     exists v rest,
       random_ternary_vector n tape = Ok (v, rest) /\ length v = n /\
       Forall (fun x => x = 0 \/ x = 1 \/ x = 2 ^ 32 - 1) v /\
       map signed32 v = firstn n (draws tape) /\ draws rest = skipn n (draws tape)) /\
    ((length (draws tape) < n)%nat -> random_ternary_vector n tape = Hang).
Proof.
  intros n tape. pose proof (random_ternary_vector_draws n tape) as H.
  pose proof (draws_ternary tape) as Hd.
  destruct (Nat.leb_spec n (length (draws tape))) as [Hn|Hn].
  - split; [intros _|lia]. destruct H as (rest & H & Hr). do 2 eexists. split; [exact H|].
    split; [rewrite map_length, firstn_length; lia|].
    assert (Hf : Forall (fun d => d = 0 \/ d = 1 \/ d = -1) (firstn n (draws tape))).
    { rewrite <- (firstn_skipn n (draws tape)) in Hd. apply Forall_app in Hd. tauto. }
    split; [|split; auto].
    + apply Forall_map. eapply Forall_impl; [|exact Hf]. intros a [->|[->| ->]]; vm_compute; auto.
    + rewrite map_map. rewrite <- (map_id (firstn n (draws tape))) at 2.
      apply map_ext_in. intros a Ha. rewrite Forall_forall in Hf.
      destruct (Hf a Ha) as [->|[->| ->]]; reflexivity.
  - split; [lia|auto].
Qed.

(** @C11 example: a tape with rejected words in it. *)
Example ternary_example :
  random_ternary_vector 3 [0; 4294967293; 2863311528; 4294967295; 2863311529; 5]
  = Ok ([0; 1; 4294967295], [5]).
Proof. vm_compute. reflexivity. Qed.

(** @C12 Refuted: the accepted words are not spread evenly; 0 is hit once more than 1. *)
Lemma ternary_uniform_refuted :
  let gives t v := match random_ternary [v] with Ok (x, _) => x =? t | _ => false end in
  how_many (gives 0) (2 ^ 32) <> how_many (gives 1) (2 ^ 32).
Proof.
  cbv zeta. pose proof ternary_distribution as H. cbv zeta in H. destruct H as (H0 & H1 & _).
  rewrite H0, H1. discriminate.
Qed.

(** ** Agreement on the public matrix *)

Lemma generate_params_rhs_closed prg h w vm (cols : list (list Z)) seed dim :
  (0 < h)%nat -> (w <= length cols)%nat -> Forall (fun c => length c = h) cols ->
  (forall r i, length r = h -> (i < w)%nat -> vm r i = Ok (dot r (nth i cols []) mod two32)) ->
  generate_params_rhs prg (Ok h) (Ok w) vm seed dim =
  Ok (map (fun i => map (fun r => dot r (nth i cols []) mod two32)
                        (transpose (pubmat prg seed dim h) dim)) (seq 0 w)).
Proof.
  intros Hh Hw Hc Hv. unfold generate_params_rhs. cbn [bind].
  fold (pubmat prg seed dim h).
  rewrite (swap_matrix_rect _ h dim) by (auto; apply pubmat_shape). cbn [bind].
  apply mapM_Ok. intros i Hi. apply in_seq in Hi.
  apply mapM_Ok. intros r Hr. apply Hv; [|lia].
  destruct (transpose_shape (pubmat prg seed dim h) dim) as [_ HF].
  rewrite Forall_forall in HF. rewrite (HF r Hr). apply pubmat_shape.
Qed.

Lemma agreement_aux prg h w vm cols seed dim s rhs :
  (0 < h)%nat -> (w <= length cols)%nat -> Forall (fun c => length c = h) cols ->
  (forall r i, length r = h -> (i < w)%nat -> vm r i = Ok (dot r (nth i cols []) mod two32)) ->
  length s = dim ->
  generate_params_rhs prg (Ok h) (Ok w) vm seed dim = Ok rhs ->
  exists v, mult_right rhs s = Ok v /\ length v = w /\
    forall c, (c < w)%nat ->
      nth c v 0 = dot (map (dot s) (generate_lwe_matrix_from_seed prg seed dim h)) (nth c cols []) mod two32.
Proof.
  intros Hh Hw Hc Hv Hs H. rewrite (generate_params_rhs_closed prg h w vm cols) in H by auto.
  injection H as <-.
  set (A := pubmat prg seed dim h).
  destruct (pubmat_shape prg seed dim h) as [HAl HAr]. fold A in HAl, HAr.
  rewrite mult_right_ok.
  - eexists. split; [reflexivity|]. split; [now rewrite !map_length, seq_length|].
    intros c Hcw. rewrite map_map, nth_map_seq by auto. subst dim.
    fold A. apply client_rhs.
    + exact HAr.
    + rewrite Forall_forall in Hc. rewrite Hc; [now symmetry|]. apply nth_In. lia.
  - apply Forall_map, Forall_forall. intros i _. rewrite map_length.
    destruct (transpose_shape A dim) as [E _]. rewrite E. now symmetry.
Qed.

(** @C13 Index: for a database whose columns all have m entries, the params right-hand side
    applied to a secret s is, column by column, the product of s*A with that column, A being
    the matrix the client derives from the same params. *)
Lemma index_matrix_agreement :
  forall (prg : list Z -> nat -> Z) (db : index_db) (dim : nat) (seed : list Z)
         (p : index_params) (w : nat) (s : list Z),
    shape (id_entries db) w (id_m db) -> (0 < id_m db)%nat -> (1 <= id_plaintext_bits db)%nat ->
    is_ceil_div (id_elem_size db) (id_plaintext_bits db) w ->
    index_params_new prg db dim seed = Ok p -> length s = dim ->
    exists v, mult_right (ip_rhs p) s = Ok v /\ length v = w /\
      forall c, (c < w)%nat ->
        nth c v 0 = dot (map (dot s) (index_common_params prg p)) (nth c (id_entries db) []) mod 2 ^ 32.
Proof.
  intros prg db dim seed p w s [Hl Hr] Hm Hpb Hw Hp Hs. unfold index_params_new in Hp.
  apply bind_Ok in Hp. destruct Hp as (rhs & Hrhs & E). injection E as <-.
  unfold index_matrix_height, index_row_width_self in Hrhs.
  destruct (get_row_width_pos (id_elem_size db) (id_plaintext_bits db)) as (w' & E & Hw'); [lia|].
  rewrite E in Hrhs. rewrite (is_ceil_div_unique _ _ _ _ Hw' Hw) in Hrhs.
  cbn [ip_rhs]. unfold index_common_params. cbn [ip_public_seed ip_dim ip_m].
  eapply agreement_aux; try exact Hrhs; auto; [lia|].
  intros r i Hri Hi. unfold index_vec_mult. rewrite (idx_nth _ i []) by lia. cbn [bind].
  rewrite Forall_forall in Hr. rewrite Hri, (Hr (nth i (id_entries db) [])) by (apply nth_In; lia).
  rewrite Nat.eqb_refl. cbn [negb]. rewrite vec_mult_closed.
  rewrite Hri, (Hr (nth i (id_entries db) [])) by (apply nth_In; lia).
  rewrite Nat.eqb_refl. reflexivity.
Qed.

(** @C13 Key-value: the same for a KV database (h = number of filter slots). *)
Lemma kv_matrix_agreement :
  forall (prg : list Z -> nat -> Z) (db : kv_db) (dim : nat) (seed : list Z)
         (fp : filter_params) (p : kv_params) (n h w : nat) (s : list Z),
    shape (kd_entries db) n h -> (0 < h)%nat -> (0 < n)%nat -> (1 <= kd_plaintext_bits db)%nat ->
    is_ceil_div (kd_elem_size db) (kd_plaintext_bits db) w -> (w <= n)%nat ->
    kv_params_new prg db dim seed fp = Ok p -> length s = dim ->
    exists v, mult_right (kp_rhs p) s = Ok v /\ length v = w /\
      forall c, (c < w)%nat ->
        nth c v 0 = dot (map (dot s) (kv_common_params prg p)) (nth c (kd_entries db) []) mod 2 ^ 32.
Proof.
  intros prg db dim seed fp p n h w s [Hl Hr] Hh Hn Hpb Hw Hwn Hp Hs. unfold kv_params_new in Hp.
  assert (Hht : kv_matrix_height db = Ok h).
  { unfold kv_matrix_height. rewrite (idx_nth _ 0 []) by lia. cbn [bind].
    rewrite Forall_forall in Hr. rewrite Hr; auto. apply nth_In. lia. }
  rewrite Hht in Hp. cbn [bind] in Hp.
  apply bind_Ok in Hp. destruct Hp as (rhs & Hrhs & E). injection E as <-.
  unfold kv_row_width_self in Hrhs.
  destruct (get_row_width_pos (kd_elem_size db) (kd_plaintext_bits db)) as (w' & E & Hw'); [lia|].
  rewrite E in Hrhs. rewrite (is_ceil_div_unique _ _ _ _ Hw' Hw) in Hrhs.
  cbn [kp_rhs]. unfold kv_common_params. cbn [kp_public_seed kp_dim kp_m].
  eapply agreement_aux; try exact Hrhs; auto; [lia|].
  intros r i Hri Hi. unfold kv_vec_mult. rewrite (idx_nth _ i []) by lia. cbn [bind].
  rewrite vec_mult_closed.
  rewrite Forall_forall in Hr. rewrite Hri, (Hr (nth i (kd_entries db) [])) by (apply nth_In; lia).
  rewrite Nat.eqb_refl. reflexivity.
Qed.

(** @C13 example: a concrete generator, database and secret. *)
Example matrix_agreement_example :
  let prg := fun (s : list Z) (k : nat) => (Z.of_nat k * 2654435761 + 12345) mod 2 ^ 32 in
  let db := {| id_entries := [[3; 1; 4]; [1; 5; 9]]; id_m := 3; id_elem_size := 16;
               id_plaintext_bits := 8 |} in
  exists p, index_params_new prg db 2 [] = Ok p /\ shape (id_entries db) 2 3 /\
    is_ceil_div 16 8 2 /\
    mult_right (ip_rhs p) [1; 4294967295] =
      Ok (map (fun c => dot (map (dot [1; 4294967295]) (index_common_params prg p)) c mod 2 ^ 32)
              (id_entries db)).
Proof.
  cbv zeta. eexists. split; [vm_compute; reflexivity|].
  split; [split; [reflexivity|repeat constructor]|].
  split; [split; [lia|intros; lia]|]. vm_compute. reflexivity.
Qed.
