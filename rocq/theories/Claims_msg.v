(** C83: the texts of errors. *)
From Coq Require Import String.
From Verif Require Import Base Spec SpecMsg Fmt Mat Lwe Hash Bfusep Base64 Db Api Files Msg Base_facts Fmt_facts Claims_format Claims_wire Msg_facts.
Local Open Scope list_scope.
Local Open Scope Z_scope.

Lemma tmapM_err {A B} (f : A -> tres B) l e : tmapM f l = TErr e ->
  exists a x b, l = a ++ x :: b /\ f x = TErr e /\ Forall (fun y => exists v, f y = TOk v) a.
Proof.
  induction l as [|x l IH]; [discriminate|]. cbn [tmapM]. destruct (f x) as [v|g| |] eqn:E; cbn [tbind]; try discriminate.
  - destruct (tmapM f l) as [w|g| |]; cbn [tbind]; try discriminate. intros H. destruct (IH H) as (a & y & b & -> & F & N).
    exists (x :: a), y, b. split; [reflexivity|]. split; [exact F|]. constructor; [now exists v|exact N].
  - intros H. injection H as ->. exists [], x, l. repeat split; [exact E|constructor].
Qed.
Lemma seq_split m a x b : seq 0 m = a ++ x :: b -> (x < m)%nat /\ a = seq 0 x.
Proof.
  intros E. assert (L : (length a < m)%nat).
  { apply (f_equal (@length nat)) in E. rewrite seq_length, app_length in E. cbn [length] in E. lia. }
  replace m with (length a + (m - length a))%nat in E by lia. rewrite seq_app in E.
  assert (X : seq 0 (length a) = a /\ seq (0 + length a) (m - length a) = x :: b).
  { split; [apply (f_equal (firstn (length a))) in E|apply (f_equal (skipn (length a))) in E].
    - rewrite !firstn_app, seq_length, !Nat.sub_diag, firstn_O, !app_nil_r in E.
      rewrite !firstn_all2 in E by (rewrite ?seq_length; lia). exact E.
    - rewrite !skipn_app, seq_length, !Nat.sub_diag, !skipn_O in E. rewrite !skipn_all2 in E by (rewrite ?seq_length; lia). exact E. }
  destruct X as [<- X]. rewrite seq_length in *. remember (m - length a)%nat as k. destruct k as [|k]; [lia|]. cbn [seq] in X. injection X as <- _.
  split; [lia|]. reflexivity.
Qed.
Lemma bits_err dbg bits f : m_bits_to_u32 dbg bits = TErr f ->
  (32 < length bits)%nat /\ f = unexpected_input_size (bytes_of "bytes are too long to parse as u16, length: " ++ show ((length bits + 7) / 8)).
Proof.
  unfold m_bits_to_u32. rewrite bits_to_bytes_closed. cbn [lift tbind]. rewrite map_length, seq_length.
  set (n := ((length bits + 7) / 8)%nat). destruct (Nat.ltb_spec 4 n) as [H|H].
  - intros E. injection E as <-. split; [|reflexivity]. unfold n in H. clear - H. destruct (Nat.le_gt_cases (length bits) 32) as [L|L]; [|exact L].
    assert ((length bits + 7) / 8 < 5)%nat by (apply Nat.div_lt_upper_bound; lia). lia.
  - unfold m_u32_sized_bytes. rewrite app_length, map_length, seq_length, repeat_length.
    replace (n + (4 - n))%nat with 4%nat by lia. discriminate.
Qed.
Lemma chunk_err dbg bits pb w f : m_chunk_row dbg bits pb w = TErr f -> (32 < pb)%nat /\ exists n, (4 < n)%nat /\
  (n <= (length bits + 7) / 8)%nat /\ f = unexpected_input_size (bytes_of "bytes are too long to parse as u16, length: " ++ show n).
Proof.
  intros H. apply tmapM_err in H as (a & i & b & _ & H & _). cbv zeta in H.
  set (s := if _ : bool then _ else _) in H. destruct s as [v|e| |] eqn:E; unfold s in E; cbn [lift tbind] in H; try discriminate H.
  - apply bits_err in H as [L ->].
    assert (B : (length v <= length bits)%nat /\ (length v <= pb)%nat).
    { destruct (Nat.ltb_spec ((i + 1) * pb) (length bits)) as [X|X].
      - unfold slice_to in E. destruct (_ && _)%bool; [|discriminate E]. injection E as <-. rewrite firstn_length, skipn_length. split; nia.
      - unfold slice_from in E. destruct (_ <=? _)%nat; [|discriminate E]. injection E as <-. rewrite skipn_length. split; nia. }
    split; [lia|]. exists ((length v + 7) / 8)%nat. split; [|split; [|reflexivity]].
    + assert (5 <= (length v + 7) / 8)%nat by (apply Nat.div_le_lower_bound; lia). lia.
    + apply Nat.div_le_mono; lia.
  - exfalso. destruct (_ <? _)%nat; [exact (ne_slice_to _ _ _ e E)|exact (ne_slice_from _ _ e E)].
Qed.
Lemma b64_err b s f : m_b64_decode b s = TErr f -> (forall e, b64_decode s <> Ok e) /\ f_display f = fst (b s) /\ f_debug f = snd (b s).
Proof.
  unfold m_b64_decode. destruct (b64_decode s) as [v|e| |] eqn:E; cbn [lift]; try discriminate. intros H. injection H as <-. repeat split. discriminate.
Qed.
Lemma b64_ok b s bytes : m_b64_decode b s = TOk bytes -> b64_decode s = Ok bytes.
Proof. unfold m_b64_decode. destruct (b64_decode s) as [v|e| |]; cbn [lift]; try discriminate. intros H. injection H as ->. reflexivity. Qed.

Lemma wide_size n f : is_length n -> f = unexpected_input_size (bytes_of "bytes are too long to parse as u16, length: " ++ show n) ->
  f_display f = size_text (wide_details n) /\ f_debug f = wide_debug n.
Proof.
  intros H ->. cbn [unexpected_input_size f_display f_debug]. rewrite show_count by exact H. split; [reflexivity|].
  unfold debug_string, wide_debug, wide_details.
  assert (N : forall l, Forall (fun c => c <> 34 /\ c <> 92) l ->
     flat_map (fun c => if c =? 34 then [92; 34] else if c =? 92 then [92; 92] else [c]) l = l).
  { intros l F. induction F as [|c l [A B] F IH]; [reflexivity|]. cbn [flat_map]. rewrite IH.
    destruct (Z.eqb_spec c 34); [contradiction|]. destruct (Z.eqb_spec c 92); [contradiction|]. reflexivity. }
  rewrite N.
  - change (txt "ErrorUnexpectedInputSize { details: """) with (bytes_of "ErrorUnexpectedInputSize { details: " ++ [34]).
    change (txt """ }") with ([34] ++ bytes_of " }").
    change (txt "bytes are too long to parse as u16, length: ") with (bytes_of "bytes are too long to parse as u16, length: ").
    rewrite <- !app_assoc. reflexivity.
  - apply Forall_app. split; [repeat (constructor; [split; discriminate|]); constructor|].
    eapply Forall_impl; [|apply count_digits; exact H]. cbv beta. intros c X. lia.
Qed.

(** @C83 The texts belong to the errors: without them, the calls below are the ones of the rest of
    the model, for every argument. *)
Lemma texts_belong :
  (forall row col, forget (m_vec_mult row col) = vec_mult_u32_u32 row col) /\
  (forall dbg bits, forget (m_bits_to_u32 dbg bits) = bits_to_u32_le dbg bits) /\
  (forall b64 prg dbg seed strs dim m es pb,
     forget (m_shard_from_base64_strings b64 prg dbg seed strs dim m es pb) = shard_from_base64_strings prg dbg seed strs dim m es pb) /\
  (forall b64 sha prg dbg fe rnd fseed seed keys values dim m es pb,
     forget (m_kv_shard b64 sha prg dbg fe rnd fseed seed keys values dim m es pb) =
     kv_shard_from_base64_strings sha prg dbg fe rnd fseed seed keys values dim m es pb) /\
  (forall cp p tape, forget (m_index_query_params cp p tape) = generate_index_query_params cp p tape) /\
  (forall cp p tape, forget (m_kv_query_params cp p tape) = generate_kv_query_params cp p tape) /\
  (forall dbg qp row, forget (m_index_query dbg qp row) = snd (index_generate_query dbg qp row)) /\
  (forall dbg qp key, forget (m_kv_query dbg qp key) = snd (kv_generate_query dbg qp key)) /\
  (forall dbg qp resp key, forget (m_kv_parse_row dbg qp resp key) = kv_parse_resp_as_row dbg qp resp key).
Proof.
  repeat split; intros.
  - apply f_vec_mult.
  - apply f_bits.
  - apply f_shard.
  - apply f_kv_shard.
  - apply f_index_params.
  - apply f_kv_params.
  - apply f_index_query.
  - apply f_kv_query.
  - apply f_kv_parse.
Qed.

(** @C83 A row times a column of another length: the text gives both lengths, and from the text
    both can be told. *)
Lemma product_text : forall row col, is_length (length row) -> is_length (length col) ->
  (length row <> length col -> exists f, m_vec_mult row col = TErr f /\ f_display f = lengths_text (length row) (length col)) /\
  forall a b, is_length a -> is_length b -> lengths_text (length row) (length col) = lengths_text a b -> length row = a /\ length col = b.
Proof.
  intros row col R C. split.
  - intros N. unfold m_vec_mult. destruct (Nat.eqb_spec (length row) (length col)) as [E|_]; [contradiction|]. cbn [negb].
    eexists. split; [reflexivity|]. cbn [unexpected_input_size f_display]. rewrite !show_count by assumption. reflexivity.
  - intros a b A B E. unfold lengths_text, size_text in E. apply app_inv_head in E.
    eapply two_counts in E; [exact E|reflexivity|reflexivity|reflexivity|reflexivity|assumption..].
Qed.

Lemma mult_right_err rhs s f : is_length (length s) -> Forall (fun c => is_length (length c)) rhs -> m_mult_right rhs s = TErr f ->
  exists c, first_with (fun c => length c <> length s) rhs c /\ f_display f = lengths_text (length s) (length c).
Proof.
  intros S R H. apply tmapM_err in H as (a & i & b & Es & H & N). apply seq_split in Es as [Hi ->].
  assert (HI : forall j, (j < length rhs)%nat -> idx rhs j = Ok (nth j rhs [])).
  { intros j Hj. unfold idx. now rewrite (nth_error_nth' rhs [] Hj). }
  rewrite HI in H by exact Hi. cbn [lift tbind] in H. exists (nth i rhs []).
  unfold m_vec_mult in H. destruct (Nat.eqb_spec (length s) (length (nth i rhs []))) as [E|E]; cbn [negb] in H.
  - exfalso. revert H. apply lift_ok. unfold vec_mult_u32_u32. rewrite (proj2 (Nat.eqb_eq _ _) E). cbn [negb]. ne.
  - split.
    + exists (firstn i rhs), (skipn (Datatypes.S i) rhs). split; [|split; [intros X; now apply E|]].
      * rewrite <- (firstn_skipn i rhs) at 1. f_equal. clear - Hi. revert i Hi. induction rhs as [|c l IH]; intros [|i] Hi; cbn [length] in *; try lia; [reflexivity|].
        cbn [nth skipn]. apply IH. lia.
      * apply Forall_forall. intros c Hc. apply In_nth with (d := []) in Hc as (j & Hj & <-). rewrite firstn_length in Hj.
        rewrite Forall_forall in N. destruct (N j) as [v V]; [apply in_seq; lia|]. rewrite HI in V by lia. cbn [lift tbind] in V.
        assert (NF : nth j (firstn i rhs) [] = nth j rhs []).
        { clear - Hj. revert i j Hj. induction rhs as [|c l IH]; intros [|i] [|j] Hj; cbn [length firstn nth] in *; try lia; try reflexivity. apply IH. lia. }
        rewrite NF. intros X. unfold m_vec_mult in V. rewrite (proj2 (Nat.eqb_neq _ _)) in V by (intros Y; now rewrite Y in X). discriminate V.
    + injection H as <-. cbn [unexpected_input_size f_display]. rewrite Forall_forall in R.
      rewrite !show_count by (try exact S; apply R, nth_In; exact Hi). reflexivity.
Qed.
Lemma tfoldM_err {A S} (f : S -> A -> tres S) l : forall s e, tfoldM f l s = TErr e ->
  exists a x b s', l = a ++ x :: b /\ f s' x = TErr e /\ Forall (fun y => exists s1 s2, f s1 y = TOk s2) a.
Proof.
  induction l as [|x l IH]; intros s e; [discriminate|]. cbn [tfoldM]. destruct (f s x) as [v|g| |] eqn:E; cbn [tbind]; try discriminate.
  - intros H. destruct (IH _ _ H) as (a & y & b & s' & -> & F & N). exists (x :: a), y, b, s'. split; [reflexivity|]. split; [exact F|].
    constructor; [now exists s, v|exact N].
  - intros H. injection H as ->. exists [], x, l, s. repeat split; [exact E|constructor].
Qed.
Lemma first_col (s : list Z) (l : list (list Z)) i : (i < length l)%nat -> length (nth i l []) <> length s ->
  (forall j, (j < i)%nat -> length (nth j l []) = length s) -> first_with (fun c : list Z => length c <> length s) l (nth i l ([] : list Z)).
Proof.
  intros Hi N B. exists (firstn i l), (skipn (Datatypes.S i) l). split; [|split; [exact N|]].
  - rewrite <- (firstn_skipn i l) at 1. f_equal. clear - Hi. revert i Hi. induction l as [|c l IH]; intros [|i] Hi; cbn [length] in *; try lia; [reflexivity|].
    cbn [nth skipn]. apply IH. lia.
  - apply Forall_forall. intros c Hc. apply In_nth with (d := []) in Hc as (j & Hj & <-). rewrite firstn_length in Hj.
    assert (NF : nth j (firstn i l) [] = nth j l []).
    { clear - Hj. revert i j Hj. induction l as [|c l IH]; intros [|i] [|j] Hj; cbn [length firstn nth] in *; try lia; try reflexivity. apply IH. lia. }
    rewrite NF, B by lia. intros X. now apply X.
Qed.
Lemma mult_left_err cp s t f : is_length (length s) -> Forall (fun c => is_length (length c)) cp -> m_mult_left cp s t = TErr f ->
  exists c, first_with (fun c => length c <> length s) cp c /\ f_display f = lengths_text (length s) (length c).
Proof.
  intros S R H. unfold m_mult_left in H. apply tfoldM_err in H as (a & i & b & [acc t'] & Es & H & N). apply seq_split in Es as [Hi ->].
  assert (HI : forall j, (j < length cp)%nat -> idx cp j = Ok (nth j cp [])).
  { intros j Hj. unfold idx. now rewrite (nth_error_nth' cp [] Hj). }
  rewrite HI in H by exact Hi. cbn [lift tbind] in H. exists (nth i cp []).
  assert (K : forall c, length c = length s -> forall e, m_vec_mult s c <> TErr e).
  { intros c E e. unfold m_vec_mult. rewrite (proj2 (Nat.eqb_eq _ _)) by now symmetry. cbn [negb]. apply lift_ok.
    unfold vec_mult_u32_u32. rewrite (proj2 (Nat.eqb_eq _ _)) by now symmetry. cbn [negb]. ne. }
  destruct (Nat.eq_dec (length (nth i cp [])) (length s)) as [E|E].
  - exfalso. destruct (m_vec_mult s (nth i cp [])) as [v|g| |] eqn:V; cbn [tbind] in H; try discriminate H; [|exact (K _ E g V)].
    destruct (random_ternary t') as [[x t2]|e| |] eqn:T; cbn [lift tbind] in H; try discriminate H. exact (ne_ternary _ e T).
  - split.
    + apply first_col; [exact Hi|exact E|]. intros j Hj. rewrite Forall_forall in N. destruct (N j) as ([acc1 t1] & s2 & V); [apply in_seq; lia|].
      rewrite HI in V by lia. cbn [lift tbind] in V. destruct (Nat.eq_dec (length (nth j cp [])) (length s)) as [X|X]; [exact X|]. exfalso.
      unfold m_vec_mult in V. rewrite (proj2 (Nat.eqb_neq _ _)) in V by (intros Y; now apply X). discriminate V.
    + unfold m_vec_mult in H. rewrite (proj2 (Nat.eqb_neq _ _)) in H by (intros Y; now apply E). cbn [negb tbind] in H. injection H as <-.
      cbn [unexpected_input_size f_display]. rewrite Forall_forall in R. rewrite !show_count by (try exact S; apply R, nth_In; exact Hi). reflexivity.
Qed.
Lemma ternaries_length w : forall t s t', random_ternary_vector w t = Ok (s, t') -> length s = w.
Proof.
  induction w as [|w IH]; intros t s t'; cbn [random_ternary_vector]; [intros H; now injection H as <- <-|].
  destruct (random_ternary t) as [[x t1]|e| |]; cbn [bind]; try discriminate.
  destruct (random_ternary_vector w t1) as [[xs t2]|e| |] eqn:E; cbn [bind]; try discriminate.
  intros H. injection H as <- <-. cbn [length]. f_equal. eapply IH. exact E.
Qed.

(** @C83 Parameters whose dimension does not fit their matrices: the text gives the dimension and
    the length of the first column that differs, of the public matrix or of the right-hand side. *)
Lemma params_text :
  (forall cp p tape f, is_length (ip_dim p) -> Forall (fun c => is_length (length c)) (cp ++ ip_rhs p) -> m_index_query_params cp p tape = TErr f ->
     exists c, (first_with (fun c => length c <> ip_dim p) cp c \/ first_with (fun c => length c <> ip_dim p) (ip_rhs p) c) /\
       f_display f = lengths_text (ip_dim p) (length c)) /\
  (forall cp p tape f, is_length (kp_dim p) -> Forall (fun c => is_length (length c)) (cp ++ kp_rhs p) -> m_kv_query_params cp p tape = TErr f ->
     exists c, (first_with (fun c => length c <> kp_dim p) cp c \/ first_with (fun c => length c <> kp_dim p) (kp_rhs p) c) /\
       f_display f = lengths_text (kp_dim p) (length c)).
Proof.
  split; intros cp p tape f D R H; apply Forall_app in R as [R1 R2].
  - unfold m_index_query_params in H. destruct (random_ternary_vector (ip_dim p) tape) as [[s t]|e| |] eqn:E; cbn [lift tbind] in H; try discriminate H;
      [|exfalso; exact (ne_ternaries _ _ e E)].
    apply ternaries_length in E. rewrite <- E in D |- *.
    destruct (m_mult_left cp s t) as [[lhs t1]|g| |] eqn:L; cbn [tbind] in H; try discriminate H.
    + destruct (m_mult_right (ip_rhs p) s) as [rhs|g| |] eqn:G; cbn [tbind] in H; try discriminate H. injection H as <-.
      apply mult_right_err in G as (c & F & X); [|assumption..]. exists c. split; [right; exact F|exact X].
    + injection H as <-. apply mult_left_err in L as (c & F & X); [|assumption..]. exists c. split; [left; exact F|exact X].
  - unfold m_kv_query_params in H. destruct (random_ternary_vector (kp_dim p) tape) as [[s t]|e| |] eqn:E; cbn [lift tbind] in H; try discriminate H;
      [|exfalso; exact (ne_ternaries _ _ e E)].
    apply ternaries_length in E. rewrite <- E in D |- *.
    destruct (m_mult_left cp s t) as [[lhs t1]|g| |] eqn:L; cbn [tbind] in H; try discriminate H.
    + destruct (m_mult_right (kp_rhs p) s) as [rhs|g| |] eqn:G; cbn [tbind] in H; try discriminate H. injection H as <-.
      apply mult_right_err in G as (c & F & X); [|assumption..]. exists c. split; [right; exact F|exact X].
    + injection H as <-. apply mult_left_err in L as (c & F & X); [|assumption..]. exists c. split; [left; exact F|exact X].
Qed.

(** @C83 Unequal numbers of keys and values: the text gives both, and from it both can be told. *)
Lemma counts_are_told : forall b64 sha prg dbg fe rnd fseed seed keys values dim m es pb,
  is_length (length keys) -> is_length (length values) -> length keys <> length values ->
  (exists f, m_kv_shard b64 sha prg dbg fe rnd fseed seed keys values dim m es pb = TErr f /\
             f_display f = counts_text (length keys) (length values)) /\
  forall a b, is_length a -> is_length b -> counts_text (length keys) (length values) = counts_text a b ->
    length keys = a /\ length values = b.
Proof.
  intros b64 sha prg dbg fe rnd fseed seed keys values dim m es pb K V N. split.
  - unfold m_kv_shard, m_kv_db. rewrite (proj2 (Nat.eqb_neq _ _) N). cbn [negb tbind]. eexists. split; [reflexivity|].
    cbn [string_error f_display]. rewrite !show_count by assumption. reflexivity.
  - intros a b A B E. unfold counts_text in E. eapply two_counts in E; [exact E|reflexivity|reflexivity|reflexivity|reflexivity|assumption..].
Qed.

(** @C83 What a wide chunk is told: the number of its bytes, and that it does not fit a u16. That
    is not the limit (refuted): every chunk of 17 to 32 bits is accepted, so that the text, which
    only appears above 32 bits, names a limit of half the real one. *)
Lemma wide_text_refuted : forall dbg bits, is_length (length bits) ->
  ((16 < length bits <= 32)%nat -> m_bits_to_u32 dbg bits = TOk (bits_value bits)) /\
  ((32 < length bits)%nat -> exists f, m_bits_to_u32 dbg bits = TErr f /\
     f_display f = size_text (txt "bytes are too long to parse as u16, length: " ++ SpecWire.count ((length bits + 7) / 8))).
Proof.
  intros dbg bits L. pose proof (f_bits dbg bits) as F. pose proof (bits_to_u32_exact dbg bits) as [X1 X2]. split.
  - intros H. rewrite X1 in F by lia. destruct (m_bits_to_u32 dbg bits) as [v|g| |]; cbn [forget] in F; try discriminate F. injection F as ->. reflexivity.
  - intros H. rewrite X2 in F by lia. destruct (m_bits_to_u32 dbg bits) as [v|g| |] eqn:E; cbn [forget] in F; try discriminate F.
    exists g. split; [reflexivity|]. apply bits_err in E as [_ E]. apply wide_size in E as [E _]; [exact E|].
    unfold is_length in *. assert ((length bits + 7) / 8 <= length bits)%nat; [|lia].
    apply Nat.div_le_upper_bound; [discriminate|]. lia.
Qed.

(** @C83 A failed build from strings: the text is about the first element whose own row fails, and
    is a function of that element: the base64 text if it does not decode, otherwise the number of
    bytes of a chunk of it that is too wide. *)
Lemma build_text : forall b64 prg dbg seed strs dim m es pb f,
  (forall s e, In s strs -> b64_decode s = Ok e -> is_length (8 * length e + 7)) ->
  m_shard_from_base64_strings b64 prg dbg seed strs dim m es pb = TErr f ->
  exists i w, (i < m)%nat /\ (i < length strs)%nat /\ get_row_width es pb = Ok w /\
    (forall j, (j < i)%nat -> exists row, index_construct_row dbg (nth j strs []) pb w = Ok row) /\
    let s := nth i strs [] in
    ((forall e, b64_decode s <> Ok e) /\ f_display f = fst (b64 s) \/
     exists e n, b64_decode s = Ok e /\ (32 < pb)%nat /\ (4 < n <= length e)%nat /\ f_display f = size_text (wide_details n)).
Proof.
  intros b64 prg dbg seed strs dim m es pb f SH H. unfold m_shard_from_base64_strings in H.
  destruct (m_index_db_new b64 dbg strs m es pb) as [db|g| |] eqn:E; cbn [tbind] in H; try discriminate H.
  { exfalso. destruct (index_params_new prg db dim seed) as [p|e| |] eqn:P; cbn [lift tbind] in H; try discriminate H. exact (ne_index_params _ _ _ _ e P). }
  injection H as <-. unfold m_index_db_new in E. destruct (m_index_rows b64 dbg strs m es pb) as [rows|h| |] eqn:R; cbn [tbind] in E; try discriminate E.
  { exfalso. destruct (swap_matrix_fmt rows) as [p|e| |] eqn:P; cbn [lift tbind] in E; try discriminate E. exact (ne_swap _ e P). }
  injection E as <-. unfold m_index_rows in R. destruct (get_row_width es pb) as [w|e| |] eqn:W; cbn [lift tbind] in R; try discriminate R;
    [|exfalso; exact (ne_row_width _ _ e W)].
  apply tmapM_err in R as (a & i & b & Es & R & N). apply seq_split in Es as [Hi ->].
  assert (HI : forall j, (j < length strs)%nat -> idx strs j = Ok (nth j strs [])).
  { intros j Hj. unfold idx. now rewrite (nth_error_nth' strs [] Hj). }
  assert (HO : forall j, (length strs <= j)%nat -> idx strs j = Panic).
  { intros j Hj. unfold idx. now rewrite (proj2 (nth_error_None _ _) Hj). }
  destruct (Nat.lt_ge_cases i (length strs)) as [Li|Li]; [|rewrite HO in R by exact Li; discriminate R].
  exists i, w. repeat split; auto.
  - intros j Hj. rewrite Forall_forall in N. destruct (N j) as [v V]; [apply in_seq; lia|]. rewrite HI in V by lia. cbn [lift tbind] in V.
    exists v. rewrite <- (f_index_row b64 dbg (nth j strs []) pb w), V. reflexivity.
  - rewrite HI in R by exact Li. cbn [lift tbind] in R. cbv zeta. set (s := nth i strs []) in *. unfold m_index_row in R.
    destruct (m_b64_decode b64 s) as [bytes|g| |] eqn:B; cbn [tbind] in R; try discriminate R.
    + right. apply b64_ok in B. exists bytes. apply chunk_err in R as [P (n & N4 & Nn & ->)]. exists n. rewrite bytes_to_bits_length in Nn.
      pose proof (SH s bytes (nth_In strs [] Li) B) as Ls.
      assert (Q : ((8 * length bytes + 7) / 8 = length bytes)%nat).
      { symmetry. apply (Nat.div_unique _ _ _ 7); lia. }
      rewrite Q in Nn. repeat split; auto. apply wide_size; [|reflexivity]. unfold is_length in *. lia.
    + injection R as <-. left. apply b64_err in B as (B & D & _). split; [exact B|exact D].
Qed.
Lemma tcollect_err {A B} (f : A -> tres B) l r e : tmap_all f l = TOk r -> tcollect r = TErr e ->
  exists a x b, l = a ++ x :: b /\ f x = TErr e /\ Forall (fun y => exists v, f y = TOk v) a.
Proof.
  revert r. induction l as [|x l IH]; intros r R C; cbn [tmap_all] in R.
  - injection R as <-. discriminate C.
  - destruct (f x) as [v|g| |] eqn:E; try discriminate R; destruct (tmap_all f l) as [t|h| |]; cbn [tbind] in R; try discriminate R; injection R as <-; cbn [tcollect] in C.
    + destruct (tcollect t) as [w|h| |] eqn:T; cbn [tbind] in C; try discriminate C. injection C as ->. destruct (IH t eq_refl T) as (a & y & b & -> & F & N).
      exists (x :: a), y, b. split; [reflexivity|]. split; [exact F|]. constructor; [now exists v|exact N].
    + injection C as ->. exists [], x, l. repeat split; [exact E|constructor].
Qed.

(** @C83 A failed key-value build from as many keys as values: the text is about the first value
    whose row fails, wrapped, and again a function of that value. *)
Lemma pairs_are_told : forall b64 sha prg dbg fe rnd fseed seed keys values dim m es pb f,
  (forall k, length (sha k) = 32%nat) -> (forall s e, In s values -> b64_decode s = Ok e -> is_length (8 * length e + 7)) ->
  length keys = length values -> m_kv_shard b64 sha prg dbg fe rnd fseed seed keys values dim m es pb = TErr f ->
  exists i, (i < length values)%nat /\
    (forall j, (j < i)%nat -> exists row, kv_construct_row dbg (nth j values []) pb es = Ok row) /\
    let s := nth i values [] in
    ((forall e, b64_decode s <> Ok e) /\ f_display f = pairs_text (snd (b64 s)) \/
     exists e n, b64_decode s = Ok e /\ (32 < pb)%nat /\ (4 < n <= length e)%nat /\ f_display f = pairs_text (wide_debug n)).
Proof.
  intros b64 sha prg dbg fe rnd fseed seed keys values dim m es pb f HS SH L H. unfold m_kv_shard in H.
  destruct (m_kv_db b64 sha dbg fe rnd fseed keys values m es pb) as [db|g| |] eqn:E; cbn [tbind] in H; try discriminate H.
  { exfalso. revert H. apply lift_ok, ne_kv_shard. }
  injection H as <-. unfold m_kv_db in E. rewrite (proj2 (Nat.eqb_eq _ _) L) in E. cbn [negb] in E.
  set (F := fun i => tbind (lift (idx keys i)) _) in E.
  pose proof (f_map_all F (fun i => forget (F i)) (seq 0 (length keys)) (fun a => eq_refl)) as NE.
  destruct (tmap_all F (seq 0 (length keys))) as [r|h| |] eqn:R; cbn [tbind] in E; [|contradiction|discriminate E|discriminate E].
  destruct (tcollect r) as [kvs|h| |] eqn:C; try discriminate E; [exfalso; revert E; apply lift_ok, ne_kv_db|].
  injection E as <-. destruct (tcollect_err F _ r h R C) as (a & i & b & Es & Fi & N). apply seq_split in Es as [Hi ->].
  assert (HI : forall l j, (j < length l)%nat -> idx l j = Ok (nth j l ([] : list Z))).
  { intros l j Hj. unfold idx. now rewrite (nth_error_nth' l [] Hj). }
  assert (FE : forall j, (j < length keys)%nat -> F j = m_kv_from_base64_strings b64 sha dbg (nth j keys []) (nth j values []) es pb).
  { intros j Hj. unfold F. rewrite (HI keys j Hj), (HI values j) by lia. reflexivity. }
  exists i. split; [lia|]. split.
  - intros j Hj. rewrite Forall_forall in N. destruct (N j) as [v V]; [apply in_seq; lia|]. rewrite FE in V by lia.
    pose proof (f_kv_from b64 sha dbg (nth j keys []) (nth j values []) es pb) as X. rewrite V in X. cbn [forget] in X. symmetry in X.
    unfold kv_from_base64_strings in X. destruct (sha256_into_u64_sized sha (nth j keys [])); cbn [bind] in X; try discriminate X.
    destruct (kv_construct_row dbg (nth j values []) pb es) as [row|e| |]; cbn [bind] in X; try discriminate X. now exists row.
  - rewrite FE in Fi by exact Hi. cbv zeta. set (s := nth i values []) in *. unfold m_kv_from_base64_strings in Fi.
    assert (K : exists key, m_sha256_into_u64 sha (nth i keys []) = TOk key).
    { unfold m_sha256_into_u64, sha256_into_u64_sized. rewrite HS. cbn [Nat.eqb negb lift]. eexists; reflexivity. }
    destruct K as [key K]. rewrite K in Fi. cbn [tbind] in Fi.
    destruct (m_kv_row b64 dbg s pb es) as [row|g| |] eqn:V; cbn [tbind] in Fi; try discriminate Fi. injection Fi as <-. unfold m_kv_row in V.
    destruct (get_row_width es pb) as [w|e| |] eqn:W; cbn [lift tbind] in V; try discriminate V; [|exfalso; exact (ne_row_width _ _ e W)].
    cbn [string_error f_display].
    destruct (m_b64_decode b64 s) as [bytes|g'| |] eqn:B; cbn [tbind] in V; try discriminate V.
    + right. apply b64_ok in B. exists bytes. apply chunk_err in V as [P (n & N4 & Nn & ->)]. exists n. rewrite bytes_to_bits_length in Nn.
      pose proof (SH s bytes (nth_In values [] (eq_ind _ (fun x => (i < x)%nat) Hi _ L)) B) as Ls.
      assert (Q : ((8 * length bytes + 7) / 8 = length bytes)%nat).
      { symmetry. apply (Nat.div_unique _ _ _ 7); lia. }
      rewrite Q in Nn. repeat split; auto. assert (LN : is_length n) by (unfold is_length in *; lia). rewrite (proj2 (wide_size n _ LN eq_refl)). reflexivity.
    + injection V as <-. left. apply b64_err in B as (B & _ & D). split; [exact B|]. rewrite D. reflexivity.
Qed.

(** @C83 The texts say which element is bad (refuted): two inputs whose bad element is at
    different places give the same error, in both modes and whatever base64 says. *)
Lemma bad_element_refuted : forall b64 prg dbg seed sha fe rnd fseed k1 k2, length (sha k1) = 32%nat -> length (sha k2) = 32%nat ->
  let good := b64_encode [1; 2] in
  let bad := [33] in
  exists f g,
    m_shard_from_base64_strings b64 prg dbg seed [good; bad] 1 2 16 8 = TErr f /\
    m_shard_from_base64_strings b64 prg dbg seed [bad; good] 1 2 16 8 = TErr f /\
    m_kv_shard b64 sha prg dbg fe rnd fseed seed [k1; k2] [good; bad] 1 2 16 8 = TErr g /\
    m_kv_shard b64 sha prg dbg fe rnd fseed seed [k1; k2] [bad; good] 1 2 16 8 = TErr g.
Proof.
  intros b64 prg dbg seed sha fe rnd fseed k1 k2 H1 H2 good bad.
  exists {| f_kind := EBase64; f_display := fst (b64 bad); f_debug := snd (b64 bad) |},
    (string_error EConstructKV (bytes_of "Error occurred constructing KVs: " ++ debug_some (snd (b64 bad)))).
  split; [destruct dbg; vm_compute; reflexivity|]. split; [destruct dbg; vm_compute; reflexivity|].
  assert (S : forall k, length (sha k) = 32%nat -> exists key, m_sha256_into_u64 sha k = TOk key).
  { intros k H. unfold m_sha256_into_u64, sha256_into_u64_sized. rewrite H. cbn [Nat.eqb negb lift]. eexists; reflexivity. }
  destruct (S k1 H1) as [x1 E1], (S k2 H2) as [x2 E2].
  assert (G : m_kv_row b64 dbg good 8 16 = TOk [1; 2]) by (destruct dbg; vm_compute; reflexivity).
  assert (B : m_kv_row b64 dbg bad 8 16 = TErr {| f_kind := EBase64; f_display := fst (b64 bad); f_debug := snd (b64 bad) |}) by (destruct dbg; vm_compute; reflexivity).
  split; unfold m_kv_shard, m_kv_db; cbn [length Nat.eqb negb seq tmap_all]; unfold idx; cbn [nth_error lift tbind];
    unfold m_kv_from_base64_strings; rewrite E1, E2; cbn [tbind]; rewrite G, B; reflexivity.
Qed.

(** @C83 The queries: the text is one of three constants, it tells the reason, and it says nothing
    else: neither the row, nor the key, nor the secret behind the parameters has a part in it. *)
Lemma query_texts :
  (forall dbg qp row f, m_index_query dbg qp row = TErr f ->
     qp_used qp = true /\ f_display f = reused_text \/
     qp_used qp = false /\ f_display f = overflow_text /\
       exists x, nth_error (qp_lhs qp) row = Some x /\ exists d, get_rounding_factor dbg (qp_plaintext_bits qp) = Ok d /\ 2 ^ 32 <= x + d) /\
  (forall dbg qp key f, m_kv_query dbg qp key = TErr f ->
     qp_used qp = true /\ f_display f = reused_text \/
     qp_used qp = false /\ qp_extra qp = None /\ f_display f = no_filter_text) /\
  (forall dbg qp resp key f, m_kv_parse_row dbg qp resp key = TErr f -> qp_extra qp = None /\ f_display f = no_filter_text) /\
  NoDup [reused_text; overflow_text; no_filter_text].
Proof.
  split; [|split; [|split]].
  - intros dbg qp row f H. unfold m_index_query in H. destruct (qp_used qp) eqn:U; [injection H as <-; left; split; reflexivity|]. right.
    split; [reflexivity|]. destruct (get_rounding_factor dbg (qp_plaintext_bits qp)) as [d|e| |] eqn:G; cbn [lift tbind] in H; try discriminate H;
      [|exfalso; exact (ne_factor _ _ e G)].
    unfold idx in H. destruct (nth_error (qp_lhs qp) row) as [x|] eqn:N; cbn [lift tbind] in H; [|discriminate H].
    destruct (Z.leb_spec two32 (x + d)) as [L|L]; cbn [negb] in H.
    + injection H as <-. split; [reflexivity|]. exists x. split; [reflexivity|]. exists d. split; [reflexivity|exact L].
    + exfalso. revert H. apply lift_ok, ne_set.
  - intros dbg qp key f H. unfold m_kv_query in H. destruct (qp_used qp) eqn:U; [injection H as <-; left; split; reflexivity|]. right.
    split; [reflexivity|]. destruct (get_rounding_factor dbg (qp_plaintext_bits qp)) as [d|e| |] eqn:G; cbn [lift tbind] in H; try discriminate H;
      [|exfalso; exact (ne_factor _ _ e G)].
    destruct (qp_extra qp) as [fp|]; [|injection H as <-; split; reflexivity].
    exfalso. destruct (get_hash_evals dbg fp key) as [l|e| |] eqn:E; cbn [lift tbind] in H; try discriminate H; [|exact (ne_evals _ _ _ e E)].
    revert H. apply lift_ok. ne.
  - intros dbg qp resp key f H. unfold m_kv_parse_row in H.
    destruct (get_rounding_factor dbg (qp_plaintext_bits qp)) as [d|e| |] eqn:G; cbn [lift tbind] in H; try discriminate H; [|exfalso; exact (ne_factor _ _ e G)].
    destruct (get_rounding_floor dbg (qp_plaintext_bits qp)) as [d1|e| |] eqn:G1; cbn [lift tbind] in H; try discriminate H; [|exfalso; exact (ne_floor _ _ e G1)].
    destruct (get_plaintext_size dbg (qp_plaintext_bits qp)) as [d2|e| |] eqn:G2; cbn [lift tbind] in H; try discriminate H; [|exfalso; exact (ne_size _ _ e G2)].
    destruct (qp_extra qp) as [fp|] eqn:X; [|injection H as <-; split; reflexivity].
    exfalso. revert H. apply lift_ok. unfold kv_parse_resp_as_row. rewrite G, G1, G2, X. cbn [bind]. apply ne_bind; [apply ne_row_width|]. intros w.
    apply ne_mapM. intros i. unfold round_word, add32. ne.
  - repeat constructor; cbn [In]; intros H; repeat (destruct H as [H|H]; [discriminate H|]); exact H.
Qed.

(** @C83 example: what a user reads: a product of three by two words, a 40-bit chunk, a database
    of a bad string, three keys for one value, a query made twice. *)
Example texts_example : forall b64 prg sha fe rnd qp,
  m_vec_mult [1; 2; 3] [4; 5] = TErr (unexpected_input_size (txt "row_len: 3, col_len:2,")) /\
  m_bits_to_u32 true (repeat true 40) = TErr (unexpected_input_size (txt "bytes are too long to parse as u16, length: 5")) /\
  m_shard_from_base64_strings b64 prg true [] [[33]] 1 1 16 8 = TErr {| f_kind := EBase64; f_display := fst (b64 [33]); f_debug := snd (b64 [33]) |} /\
  m_shard_from_base64_strings b64 prg true [] [b64_encode [1; 2; 3; 4; 5]] 1 1 40 40 =
    TErr (unexpected_input_size (txt "bytes are too long to parse as u16, length: 5")) /\
  m_kv_shard b64 sha prg true fe rnd [] [] [[1]; [2]; [3]] [[4]] 1 1 16 8 =
    TErr (string_error EKeyValueCount (txt "Number of keys (3) does not match number of values (1)")) /\
  (forall f, m_index_query true (set_used true qp) 0 = TErr f -> f_display f = reused_text) /\
  m_index_query true (set_used true qp) 0 = TErr query_params_reused.
Proof.
  intros b64 prg sha fe rnd qp. repeat (split; [vm_compute; reflexivity|]). split; [|reflexivity].
  intros f H. change (TErr query_params_reused = TErr f :> tres (list Z)) in H. injection H as <-. reflexivity.
Qed.
