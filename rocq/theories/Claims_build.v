(** C38, C63: every outcome of the construction of a shard. *)
From Verif Require Import Base Spec SpecFilter Fmt Base64 Hash Fuse3 Bfusep Mat Lwe Db Api Claims_format Claims_index Claims_filter Claims_kv Claims_kvbuild Base_facts Fmt_facts Codec_facts Index_facts IndexProto_facts KV_facts.
Local Open Scope Z_scope.

Lemma first_bad (good : nat -> Prop) (dec : forall i, good i \/ ~ good i) m :
  (forall i, (i < m)%nat -> good i) \/ exists k, (k < m)%nat /\ (forall i, (i < k)%nat -> good i) /\ ~ good k.
Proof.
  induction m as [|m IH]; [left; lia|]. destruct IH as [IH|(k & Hk & H)].
  - destruct (dec m) as [G|G].
    + left. intros i Hi. destruct (Nat.eq_dec i m) as [->|]; [exact G|apply IH; lia].
    + right. exists m. repeat split; auto.
  - right. exists k. split; [lia|exact H].
Qed.

(** @C38 every outcome of the construction of an index shard with 1 to 32 plaintext bits: a shard
    is built exactly when there are between 1 and as many rows as strings, and every string of a row
    decodes to an element that reaches the last chunk; otherwise the first string that is not so
    decides: an undecodable string gives the base64 error, a missing string or a short element a
    panic. The LWE dimension, the seed and the build profile do not matter. *)
Lemma index_build_exact :
  forall (prg : list Z -> nat -> Z) (dbg : bool) (seed : list Z) (strs : list (list Z)) (dim m es pb w : nat),
    (1 <= pb <= 32)%nat -> is_ceil_div es pb w ->
    let build := shard_from_base64_strings prg dbg seed strs dim m es pb in
    let good i := (i < length strs)%nat /\
                  exists e, b64_decode (nth i strs []) = Ok e /\ (w * pb <= 8 * length e + pb)%nat in
    ((exists sh, build = Ok sh) <-> (0 < m)%nat /\ forall i, (i < m)%nat -> good i) /\
    (build = Err EBase64 <->
       exists k, (k < m)%nat /\ (forall i, (i < k)%nat -> good i) /\
         (k < length strs)%nat /\ forall e, b64_decode (nth k strs []) <> Ok e) /\
    (build = Panic <->
       m = 0%nat \/
       exists k, (k < m)%nat /\ (forall i, (i < k)%nat -> good i) /\
         ((length strs <= k)%nat \/
          exists e, b64_decode (nth k strs []) = Ok e /\ (8 * length e + pb < w * pb)%nat)).
Proof.
  intros prg dbg seed strs dim m es pb w Hpb Hw build good.
  assert (dec : forall i, good i \/ ~ good i).
  { intros i. unfold good. destruct (Nat.lt_ge_cases i (length strs)) as [H|H]; [|right; intros [X _]; lia].
    destruct (b64_decode_cases (nth i strs [])) as [(e & E)|E].
    - destruct (Nat.le_gt_cases (w * pb) (8 * length e + pb)) as [L|L]; [left; eauto|].
      right. intros (_ & e' & E' & L'). assert (e' = e) by congruence. subst e'. lia.
    - right. intros (_ & e' & E' & _). congruence. }
  (* outcome at the first bad position *)
  assert (OUT : forall k, (k < m)%nat -> (forall i, (i < k)%nat -> good i) ->
    ((k < length strs)%nat -> (forall e, b64_decode (nth k strs []) <> Ok e) -> build = Err EBase64) /\
    ((length strs <= k)%nat \/ (exists e, b64_decode (nth k strs []) = Ok e /\ (8 * length e + pb < w * pb)%nat) -> build = Panic)).
  { intros k Hk HG. unfold build, shard_from_base64_strings, index_db_new, construct_rows.
    destruct (get_row_width_pos es pb) as (w' & -> & Hw'); [lia|].
    rewrite (is_ceil_div_unique _ _ _ _ Hw' Hw). cbn [bind].
    replace (seq 0 m) with (seq 0 k ++ k :: seq (S k) (m - S k)).
    2:{ change (k :: seq (S k) (m - S k)) with (seq k (S (m - S k))). rewrite <- seq_app. f_equal. lia. }
    rewrite mapM_first_fail.
    - split.
      + intros H N. rewrite (idx_nth strs k []) by lia. cbn [bind]. unfold index_construct_row.
        destruct (b64_decode_cases (nth k strs [])) as [(e & E)|E]; [exfalso; exact (N e E)|]. rewrite E. reflexivity.
      + intros [H|(e & E & L)].
        * rewrite idx_oob by lia. reflexivity.
        * destruct (Nat.lt_ge_cases k (length strs)) as [H|H]; [|rewrite idx_oob by lia; reflexivity].
          rewrite (idx_nth strs k []) by lia. cbn [bind]. unfold index_construct_row. rewrite E. cbn [bind].
          rewrite chunk_row_panic; [reflexivity|exact Hpb|]. now rewrite bytes_to_bits_length.
    - intros i Hi. apply in_seq in Hi. destruct (HG i ltac:(lia)) as (H & e & E & L).
      rewrite (idx_nth strs i []) by lia. cbn [bind]. eexists. apply construct_row_ok; eauto. }
  assert (OKIFF : (exists sh, build = Ok sh) <-> (0 < m)%nat /\ forall i, (i < m)%nat -> good i).
  { split.
    - intros (sh & E). destruct (shard_inv _ _ _ _ _ _ _ _ w _ Hpb Hw E) as (Hm & elems & (L & LS & ST) & _).
      split; [exact Hm|]. intros i Hi. destruct (ST i Hi). split; [lia|eauto].
    - intros (Hm & HG).
      assert (HE : exists elems, stored strs m pb w elems).
      { assert (X : forall n, (n <= m)%nat -> exists el, length el = n /\ forall i, (i < n)%nat ->
            b64_decode (nth i strs []) = Ok (nth i el []) /\ (w * pb <= 8 * length (nth i el []) + pb)%nat).
        { induction n as [|n IH]; intros Hn; [exists []; split; [reflexivity|lia]|].
          destruct IH as (el & L & IH); [lia|]. destruct (HG n ltac:(lia)) as (_ & e & E & LE).
          exists (el ++ [e]). rewrite app_length. cbn [length]. split; [lia|]. intros i Hi.
          destruct (Nat.eq_dec i n) as [->|].
          - rewrite app_nth2 by lia. rewrite L, Nat.sub_diag. split; assumption.
          - rewrite app_nth1 by lia. apply IH. lia. }
        destruct (X m (le_n m)) as (el & L & ST). exists el. split; [exact L|]. split; [|exact ST].
        destruct (HG (m - 1)%nat ltac:(lia)) as (H & _). lia. }
      destruct HE as (elems & ST). exists (shard_of prg seed dim elems m es pb w). now apply shard_ok. }
  split; [exact OKIFF|].
  assert (Z0 : m = 0%nat -> build = Panic) by (intros E; unfold build; subst m; apply zero_m_panics).
  destruct (first_bad good dec m) as [ALL|(k & Hk & HG & NG)].
  - destruct (Nat.eq_dec m 0) as [M|M].
    + rewrite (Z0 M). split; [split; [discriminate|intros (k & X & _); lia]|]. split; auto.
    + assert (M0 : (0 < m)%nat) by lia. destruct (proj2 OKIFF (conj M0 ALL)) as (sh & E). rewrite E.
      split; (split; [discriminate|]).
      * intros (k & Hk & _ & _ & N). destruct (ALL k Hk) as (_ & e & X & _). exfalso. exact (N e X).
      * intros [X|(k & Hk & _ & [X|(e & X & L)])]; [contradiction| |]; destruct (ALL k Hk) as (B & e' & X' & L').
        -- lia.
        -- assert (e' = e) by congruence. subst e'. lia.
  - assert (UNIQ : forall k' (P : Prop), (k' < m)%nat -> (forall i, (i < k')%nat -> good i) -> ~ good k' -> k' = k).
    { intros k' _ Hk' HG' NG'. destruct (Nat.lt_trichotomy k' k) as [X|[X|X]]; [exfalso; apply NG'; auto|exact X|exfalso; apply NG; auto]. }
    destruct (OUT k Hk HG) as [O1 O2].
    assert (BAD : ((k < length strs)%nat /\ (forall e, b64_decode (nth k strs []) <> Ok e)) \/
                  ((length strs <= k)%nat \/ (exists e, b64_decode (nth k strs []) = Ok e /\ (8 * length e + pb < w * pb)%nat))).
    { destruct (Nat.lt_ge_cases k (length strs)) as [H|H]; [|tauto].
      destruct (b64_decode_cases (nth k strs [])) as [(e & E)|E]; [|left; split; [exact H|congruence]].
      right. right. exists e. split; [exact E|]. destruct (Nat.le_gt_cases (w * pb) (8 * length e + pb)) as [L|L]; [|exact L].
      exfalso. apply NG. split; [exact H|eauto]. }
    destruct BAD as [[B1 B2]|BAD].
    + rewrite (O1 B1 B2). split; [split; [|reflexivity]|split; [discriminate|]].
      * intros _. exists k. auto.
      * intros [X|(k' & Hk' & HG' & BAD')]; [lia|]. assert (k' = k).
        { apply (UNIQ k' True Hk' HG'). intros (G1 & e & G2 & G3). destruct BAD' as [Y|(e' & Y & L)]; [lia|].
          assert (e' = e) by congruence. subst e'. lia. }
        subst k'. destruct BAD' as [Y|(e' & Y & L)]; [lia|exfalso; exact (B2 _ Y)].
    + rewrite (O2 BAD). split; [split; [discriminate|]|split; [|reflexivity]].
      * intros (k' & Hk' & HG' & B1 & B2). assert (k' = k).
        { apply (UNIQ k' True Hk' HG'). intros (G1 & e & G2 & G3). exact (B2 _ G2). }
        subst k'. destruct BAD as [Y|(e' & Y & L)]; [lia|exfalso; exact (B2 _ Y)].
      * intros _. right. exists k. auto.
Qed.

(** @C38 example: all three outcomes, and the boundary of a short element (20 bits in chunks of 10
    need at least 10 bits). *)
Example index_build_example :
  let prg := fun (s : list Z) (k : nat) => Z.of_nat k in
  is_ceil_div 20 10 2 /\
  (exists sh, shard_from_base64_strings prg true [] [b64_encode [1; 2]; b64_encode [3; 4; 5]; [33]] 2 2 20 10 = Ok sh) /\
  shard_from_base64_strings prg true [] [b64_encode [1; 2]; [33]; b64_encode [3]] 2 3 20 10 = Err EBase64 /\
  shard_from_base64_strings prg true [] [b64_encode [1; 2]; b64_encode [3]; [33]] 2 3 20 10 = Panic.
Proof.
  cbv zeta. split; [unfold is_ceil_div; split; [lia|intros w H; lia]|]. split; [eexists; vm_compute; reflexivity|]. split; vm_compute; reflexivity.
Qed.

(** With more than 32 plaintext bits. *)
Lemma chunk_row_one dbg bits pb :
  (length bits <= 32)%nat -> (32 < pb)%nat ->
  chunk_row dbg bits pb 1 = Ok [bits_value (firstn pb (skipn 0 bits))].
Proof.
  intros L P. unfold chunk_row. cbn [seq mapM]. rewrite Nat.mul_0_l, Nat.add_0_l, Nat.mul_1_l.
  destruct (Nat.ltb_spec pb (length bits)) as [H|_]; [lia|].
  unfold slice_from. rewrite (proj2 (Nat.leb_le 0 (length bits))) by lia. cbn [bind].
  rewrite bits_to_u32_le_closed, skipn_O. destruct (Nat.leb_spec (length bits) 32) as [_|X]; [|lia]. cbn [bind].
  rewrite firstn_all2 by lia. reflexivity.
Qed.

Lemma chunk_row_two dbg bits pb w :
  (length bits <= 32)%nat -> (32 < pb)%nat -> chunk_row dbg bits pb (S (S w)) = Panic.
Proof.
  intros L P. unfold chunk_row. cbn [seq mapM]. rewrite Nat.mul_0_l, Nat.add_0_l, Nat.mul_1_l.
  destruct (Nat.ltb_spec pb (length bits)) as [H|_]; [lia|].
  unfold slice_from at 1. rewrite (proj2 (Nat.leb_le 0 (length bits))) by lia. cbn [bind].
  rewrite bits_to_u32_le_closed, skipn_O. destruct (Nat.leb_spec (length bits) 32) as [_|X]; [|lia]. cbn [bind].
  destruct (Nat.ltb_spec ((1 + 1) * pb) (length bits)) as [H|_]; [lia|].
  unfold slice_from. destruct (Nat.leb_spec pb (length bits)) as [X|_]; [lia|]. reflexivity.
Qed.

Lemma row_outcome dbg s e pb w :
  (1 <= pb)%nat -> b64_decode s = Ok e ->
  ((w * pb <= 8 * length e + pb)%nat -> (w = 0 \/ pb <= 32 \/ length e <= 4)%nat ->
     index_construct_row dbg s pb w = Ok (map (chunk e pb) (seq 0 w))) /\
  ((32 < pb)%nat -> (0 < w)%nat -> (4 < length e)%nat -> index_construct_row dbg s pb w = Err EInputSize) /\
  ((8 * length e + pb < w * pb)%nat -> (pb <= 32 \/ length e <= 4)%nat -> index_construct_row dbg s pb w = Panic).
Proof.
  intros Hpb E. destruct (Nat.le_gt_cases pb 32) as [P|P].
  - split; [|split].
    + intros L _. apply construct_row_ok; auto.
    + lia.
    + intros L _. unfold index_construct_row. rewrite E. cbn [bind]. apply chunk_row_panic; [lia|]. now rewrite bytes_to_bits_length.
  - unfold index_construct_row. rewrite E. cbn [bind]. pose proof (bytes_to_bits_length e) as BL.
    split; [|split].
    + intros L D. destruct w as [|[|w]].
      * reflexivity.
      * rewrite chunk_row_one by lia. unfold chunk. rewrite bytes_to_bits_spec. reflexivity.
      * exfalso. destruct D as [D|[D|D]]; [discriminate|lia|]. nia.
    + intros _ W L. apply first_chunk_wide; lia.
    + intros L D. destruct D as [D|D]; [lia|]. destruct w as [|[|w]]; [lia|lia|]. apply chunk_row_two; lia.
Qed.

(** @C38 every outcome of the construction of an index shard, for every value of every argument:
    no rows or zero plaintext bits panic; otherwise the first string that is missing or does not fit
    decides, and a shard is built exactly when there is none. A missing string panics, an undecodable
    one gives the base64 error, an element that ends before the last chunk starts panics, and with
    more than 32 plaintext bits an element of more than 4 bytes gives the input size error. *)
Lemma index_build_total :
  forall (prg : list Z -> nat -> Z) (dbg : bool) (seed : list Z) (strs : list (list Z)) (dim m es pb w : nat),
    let build := shard_from_base64_strings prg dbg seed strs dim m es pb in
    let short e := (8 * length e + pb < w * pb)%nat /\ (pb <= 32 \/ length e <= 4)%nat in
    let wide (e : list Z) := (32 < pb)%nat /\ (0 < w)%nat /\ (4 < length e)%nat in
    let good i := (i < length strs)%nat /\ exists e, b64_decode (nth i strs []) = Ok e /\ ~ short e /\ ~ wide e in
    (pb = 0%nat \/ m = 0%nat -> build = Panic) /\
    ((0 < pb)%nat -> (0 < m)%nat -> is_ceil_div es pb w ->
      ((forall i, (i < m)%nat -> good i) /\ exists sh, build = Ok sh) \/
      (exists k, (k < m)%nat /\ (forall i, (i < k)%nat -> good i) /\
         ((length strs <= k)%nat /\ build = Panic \/
          (k < length strs)%nat /\ (forall e, b64_decode (nth k strs []) <> Ok e) /\ build = Err EBase64 \/
          (k < length strs)%nat /\ exists e, b64_decode (nth k strs []) = Ok e /\
            (short e /\ build = Panic \/ wide e /\ build = Err EInputSize)))).
Proof.
  intros prg dbg seed strs dim m es pb w build short wide good.
  split.
  { intros [E|E]; unfold build; subst; [|apply zero_m_panics].
    unfold shard_from_base64_strings, index_db_new, construct_rows, get_row_width, divn. reflexivity. }
  intros Hpb Hm Hw.
  assert (SW : forall e, (short e \/ ~ short e) /\ (wide e \/ ~ wide e)) by (intros e; unfold short, wide; lia).
  assert (FIT : forall e, ~ short e -> ~ wide e ->
    (w * pb <= 8 * length e + pb)%nat /\ (w = 0 \/ pb <= 32 \/ length e <= 4)%nat).
  { intros e NS NW. unfold short, wide in *. destruct (Nat.eq_dec w 0) as [->|Nw]; [lia|].
    revert NS NW. generalize (w * pb)%nat. intros; lia. }
  assert (dec : forall i, good i \/ ~ good i).
  { intros i. unfold good. destruct (Nat.lt_ge_cases i (length strs)) as [H|H]; [|right; intros [X _]; lia].
    destruct (b64_decode_cases (nth i strs [])) as [(e & E)|E].
    - destruct (SW e) as [[S|S] [W|W]];
        try (right; intros (_ & e' & E' & N1 & N2); assert (e' = e) by congruence; subst e'; contradiction).
      left. eauto.
    - right. intros (_ & e' & E' & _). congruence. }
  destruct (first_bad good dec m) as [ALL|(k & Hk & HG & NG)].
  - left. split; [exact ALL|].
    assert (X : forall n, (n <= m)%nat -> exists el, length el = n /\ forall i, (i < n)%nat ->
        (i < length strs)%nat /\ b64_decode (nth i strs []) = Ok (nth i el []) /\
        index_construct_row dbg (nth i strs []) pb w = Ok (map (chunk (nth i el []) pb) (seq 0 w))).
    { induction n as [|n IH]; intros Hn; [exists []; split; [reflexivity|lia]|].
      destruct IH as (el & L & IH); [lia|]. destruct (ALL n ltac:(lia)) as (B & e & E & NS & NW).
      destruct (FIT e NS NW) as [F1 F2].
      exists (el ++ [e]). rewrite app_length. cbn [length]. split; [lia|]. intros i Hi.
      destruct (Nat.eq_dec i n) as [->|].
      - rewrite app_nth2 by lia. rewrite L, Nat.sub_diag. cbn [nth]. split; [exact B|]. split; [exact E|].
        now apply (row_outcome dbg _ e pb w Hpb E).
      - rewrite app_nth1 by lia. apply IH. lia. }
    destruct (X m (le_n m)) as (elems & HL & ST).
    unfold build, shard_from_base64_strings.
    assert (DB : index_db_new dbg strs m es pb = Ok (db_of elems m es pb w)).
    { unfold index_db_new, construct_rows.
      destruct (get_row_width_pos es pb) as (w' & -> & Hw'); [lia|].
      rewrite (is_ceil_div_unique _ _ _ _ Hw' Hw). cbn [bind].
      rewrite (mapM_Ok _ (fun i => map (chunk (nth i elems []) pb) (seq 0 w))).
      2:{ intros i Hi. apply in_seq in Hi. destruct (ST i) as (H1 & H2 & H3); [lia|].
          rewrite (idx_nth strs i []) by lia. cbn [bind]. exact H3. }
      cbn [bind]. clear - HL Hm. subst m.
      replace (map (fun i => map (chunk (nth i elems []) pb) (seq 0 w)) (seq 0 (length elems)))
        with (map (fun b => map (chunk b pb) (seq 0 w)) elems).
      2:{ rewrite <- (map_nth_seq elems []) at 1. now rewrite map_map. }
      rewrite (Mat_facts.swap_matrix_rect _ (length elems) w); [|split|lia].
      - cbn [bind]. rewrite columns_transpose. reflexivity.
      - apply map_length.
      - apply Forall_map, Forall_forall. intros. now rewrite map_length, seq_length. }
    rewrite DB. cbn [bind]. rewrite index_params_new_ok by (auto; lia). cbn [bind]. eexists. reflexivity.
  - right. exists k. split; [exact Hk|]. split; [exact HG|].
    assert (OUT : build = (let* rows := (let* e := idx strs k in index_construct_row dbg e pb w) in Panic)
                  \/ (exists r, (let* e := idx strs k in index_construct_row dbg e pb w) = Ok r)).
    { destruct (let* e := idx strs k in index_construct_row dbg e pb w) as [r|x| |] eqn:EF; [right; eauto|left..];
        unfold build, shard_from_base64_strings, index_db_new, construct_rows;
        destruct (get_row_width_pos es pb) as (w' & -> & Hw'); try lia;
        rewrite (is_ceil_div_unique _ _ _ _ Hw' Hw); cbn [bind];
        (replace (seq 0 m) with (seq 0 k ++ k :: seq (S k) (m - S k));
         [|change (k :: seq (S k) (m - S k)) with (seq k (S (m - S k))); rewrite <- seq_app; f_equal; lia]);
        (rewrite mapM_first_fail;
         [rewrite EF; reflexivity
         |intros i Hi; apply in_seq in Hi; destruct (HG i ltac:(lia)) as (H & e & E & NS & NW);
          destruct (FIT e NS NW); rewrite (idx_nth strs i []) by lia; cbn [bind]; eexists; now apply (row_outcome dbg _ e pb w Hpb E)]). }
    destruct (Nat.lt_ge_cases k (length strs)) as [B|B].
    2:{ left. split; [exact B|]. destruct OUT as [->|(r & R)]; rewrite idx_oob in * by lia; [reflexivity|discriminate]. }
    right. rewrite (idx_nth strs k []) in OUT by lia. cbn [bind] in OUT.
    destruct (b64_decode_cases (nth k strs [])) as [(e & E)|E].
    + right. split; [exact B|]. exists e. split; [exact E|].
      destruct (row_outcome dbg _ e pb w Hpb E) as (_ & RW & RS).
      destruct (SW e) as [[S|S] W].
      * left. split; [exact S|]. rewrite (RS (proj1 S) (proj2 S)) in OUT. destruct OUT as [->|(r & R)]; [reflexivity|discriminate].
      * destruct W as [W|W].
        -- right. split; [exact W|]. destruct W as (W1 & W2 & W3). rewrite (RW W1 W2 W3) in OUT.
           destruct OUT as [->|(r & R)]; [reflexivity|discriminate].
        -- exfalso. apply NG. split; [exact B|eauto].
    + left. split; [exact B|]. split; [congruence|].
      unfold index_construct_row in OUT. rewrite E in OUT. destruct OUT as [->|(r & R)]; [reflexivity|discriminate].
Qed.

(** @C38 example: with 40 plaintext bits, four bytes fit in one chunk and five do not, and a second
    chunk starts after the end of an element of four bytes. *)
Example index_build_wide_example :
  let prg := fun (s : list Z) (k : nat) => Z.of_nat k in
  is_ceil_div 40 40 1 /\ is_ceil_div 41 40 2 /\
  (exists sh, shard_from_base64_strings prg true [] [b64_encode [1; 2; 3; 4]; b64_encode [5]] 2 2 40 40 = Ok sh) /\
  shard_from_base64_strings prg true [] [b64_encode [1]; b64_encode [1; 2; 3; 4; 5]] 2 2 40 40 = Err EInputSize /\
  shard_from_base64_strings prg true [] [b64_encode [1; 2; 3; 4]] 2 1 41 40 = Panic.
Proof.
  cbv zeta. split; [unfold is_ceil_div; split; [lia|intros w H; lia]|]. split; [unfold is_ceil_div; split; [lia|intros w H; lia]|].
  split; [eexists; vm_compute; reflexivity|]. split; vm_compute; reflexivity.
Qed.

(** ** Key-value *)
Lemma map_all_panic {A B} (f : A -> res B) l :
  (forall x, In x l -> f x <> Hang) -> (exists x, In x l /\ f x = Panic) -> map_all f l = Panic.
Proof.
  induction l as [|y l IH]; intros NH (x & Hx & E); [destruct Hx|]. cbn [map_all].
  destruct (f y) eqn:Ey; [| |reflexivity|exfalso; apply (NH y); [now left|exact Ey]];
    (destruct Hx as [->|Hx]; [congruence|]); (rewrite IH; [reflexivity|intros z Hz; apply NH; now right|eauto]).
Qed.

Lemma all_or_some (P : nat -> Prop) (dec : forall i, P i \/ ~ P i) n :
  (exists i, (i < n)%nat /\ P i) \/ forall i, (i < n)%nat -> ~ P i.
Proof.
  destruct (first_bad (fun i => ~ P i) (fun i => match dec i with or_introl p => or_intror (fun q => q p) | or_intror q => or_introl q end) n)
    as [H|(k & Hk & _ & H)]; [now right|left]. exists k. split; [exact Hk|]. destruct (dec k); [assumption|contradiction].
Qed.

(** @C63 every outcome of building a key-value shard from strings, for keys whose digests have
    distinct filter hashes and overload no slot: different numbers of keys and values give the
    count error; otherwise a decodable value that does not reach the last chunk panics, wherever it
    stands; otherwise an undecodable value gives the construction error; otherwise no pairs at all
    panic, and with pairs a shard is built exactly when the digests are peelable, and a panic
    otherwise. Nothing else matters. *)
Lemma kv_build_exact :
  forall sha256 prg dbg fe rnd fseed pseed keys values dim m es pb w g slots digest,
  (1 <= pb <= 31)%nat -> (dbg = true -> (8 <= pb)%nat) -> is_ceil_div es pb w -> (0 < w)%nat ->
  (forall k, sha256_into_u64_sized sha256 k = Ok (digest k)) ->
  geometry dbg fe (length keys) = Ok g -> sane_estimates fe (length keys) ->
  evaluates dbg fseed (g_seglen g) (g_mask g) (g_scl g) slots ->
  NoDup (map (fun k => mix256 (digest k) fseed) keys) ->
  (forall j, (load slots (map digest keys) j <= 63)%nat) ->
  let build := kv_shard_from_base64_strings sha256 prg dbg fe rnd fseed pseed keys values dim m es pb in
  let short i := exists b, b64_decode (nth i values []) = Ok b /\ (8 * length b + pb < w * pb)%nat in
  let undecodable i := forall b, b64_decode (nth i values []) <> Ok b in
  let n := length values in
  (length keys <> n /\ build = Err EKeyValueCount) \/
  (length keys = n /\
   (((exists i, (i < n)%nat /\ short i) /\ build = Panic) \/
    ((forall i, (i < n)%nat -> ~ short i) /\
     (((exists i, (i < n)%nat /\ undecodable i) /\ build = Err EConstructKV) \/
      ((forall i, (i < n)%nat -> ~ undecodable i) /\
       ((keys <> [] /\ peelable slots (map digest keys) /\ exists sh, build = Ok sh) \/
        ((keys = [] \/ ~ peelable slots (map digest keys)) /\ build = Panic))))))).
Proof.
  intros sha prg dbg fe rnd fseed pseed keys values dim m es pb w g slots digest Hpb Hdb Hw Hw0 Hsha Eg Hs Hev ND Hl build short undecodable n.
  assert (Hpb' : (1 <= pb <= 32)%nat) by lia.
  destruct (Nat.eq_dec (length keys) n) as [EL|NE].
  2:{ left. split; [exact NE|]. apply kv_count_mismatch. exact NE. }
  right. split; [exact EL|]. subst n.
  set (f := fun i => let* k := idx keys i in let* v := idx values i in kv_from_base64_strings sha dbg k v es pb).
  assert (B : build = let* rs := map_all f (seq 0 (length keys)) in
     match collect_results rs with
     | Err _ => Err EConstructKV | Ok kvs => kv_shard_new prg dbg fe rnd fseed pseed kvs dim m es pb
     | Panic => Panic | Hang => Hang end).
  { unfold build, kv_shard_from_base64_strings, kv_db_from_base64_strings.
    destruct (Nat.eqb_spec (length keys) (length values)) as [_|]; [|contradiction]. cbn [negb]. fold f.
    destruct (map_all f (seq 0 (length keys))) as [rs| | |]; [|reflexivity|reflexivity|reflexivity]. cbn [bind].
    destruct (collect_results rs); reflexivity. }
  clearbody build. subst build.
  assert (C : forall i, (i < length values)%nat ->
     (exists b, b64_decode (nth i values []) = Ok b /\ (w * pb <= 8 * length b + pb)%nat /\
        f i = Ok {| kv_key := digest (nth i keys []); kv_value := map (chunk b pb) (seq 0 w) |}) \/
     (short i /\ f i = Panic) \/ (undecodable i /\ f i = Err EBase64)).
  { intros i Hi. unfold f. rewrite (idx_nth keys i []), (idx_nth values i []) by lia. cbn [bind].
    unfold kv_from_base64_strings. rewrite Hsha. cbn [bind].
    unfold kv_construct_row. destruct (get_row_width_pos es pb) as (w' & E & Hw'); [lia|]. rewrite E.
    rewrite (is_ceil_div_unique _ _ _ _ Hw' Hw). cbn [bind].
    destruct (b64_decode_cases (nth i values [])) as [(b & Eb)|Eb]; rewrite Eb; cbn [bind].
    - destruct (Nat.le_gt_cases (w * pb) (8 * length b + pb)) as [L|L].
      + left. exists b. split; [reflexivity|]. split; [exact L|].
        rewrite chunk_row_closed by (rewrite ?bytes_to_bits_length; auto). cbn [bind]. do 2 f_equal. apply row_of_bits_chunk.
      + right. left. split; [exists b; split; [exact Eb|exact L]|]. rewrite chunk_row_panic by (rewrite ?bytes_to_bits_length; auto). reflexivity.
    - right. right. split; [intros b X; congruence|reflexivity]. }
  assert (DS : forall i, short i \/ ~ short i).
  { intros i. unfold short. destruct (b64_decode_cases (nth i values [])) as [(b & Eb)|Eb].
    - destruct (Nat.le_gt_cases (w * pb) (8 * length b + pb)) as [L|L]; [|left; eauto].
      right. intros (b' & E' & L'). assert (b' = b) by congruence. subst b'. lia.
    - right. intros (b' & E' & _). congruence. }
  assert (DU : forall i, undecodable i \/ ~ undecodable i).
  { intros i. unfold undecodable. destruct (b64_decode_cases (nth i values [])) as [(b & Eb)|Eb].
    - right. intros X. exact (X b Eb).
    - left. intros b X. congruence. }
  destruct (all_or_some short DS (length values)) as [(i & Hi & Si)|NS].
  { left. split; [eauto|]. rewrite map_all_panic; [reflexivity| |].
    - intros x Hx. apply in_seq in Hx. destruct (C x ltac:(lia)) as [(b & _ & _ & ->)|[[_ ->]|[_ ->]]]; discriminate.
    - exists i. split; [apply in_seq; lia|]. destruct (C i Hi) as [(b & E & L & _)|[[_ E]|[U _]]]; [|exact E|].
      + exfalso. destruct Si as (b' & E' & L'). assert (b' = b) by congruence. subst b'. lia.
      + exfalso. destruct Si as (b' & E' & L'). exact (U _ E'). }
  right. split; [exact NS|].
  destruct (map_all_total f (seq 0 (length keys))) as (rs & Ers).
  { intros i Hi. apply in_seq in Hi. destruct (C i ltac:(lia)) as [(b & _ & _ & E)|[[X _]|[_ E]]]; [eauto| |eauto].
    exfalso. exact (NS i ltac:(lia) X). }
  rewrite Ers. cbn [bind]. apply map_all_inv in Ers. pose proof (Forall2_len _ _ _ Ers) as L. rewrite seq_length in L.
  apply (Forall2_nth _ _ _ 0%nat (inl EIo)) in Ers as [_ Ers]. rewrite seq_length in Ers.
  destruct (all_or_some undecodable DU (length values)) as [(i & Hi & Ui)|NU].
  { left. split; [eauto|]. specialize (Ers i ltac:(lia)). rewrite seq_nth in Ers by lia. cbn [Nat.add] in Ers.
    destruct (C i Hi) as [(b & E & _)|[[(b & E & _) _]|[_ E]]]; [exfalso; exact (Ui _ E)|exfalso; exact (Ui _ E)|].
    rewrite E in Ers. destruct (nth i rs (inl EIo)) as [e|] eqn:En; [|discriminate].
    assert (He : In (inl e) rs) by (rewrite <- En; apply nth_In; lia).
    destruct (collect_err rs e He) as (e' & ->). reflexivity. }
  right. split; [exact NU|].
  destruct (collect_total rs) as [(kvs & Ec)|(e & Ec)].
  2:{ exfalso. assert (X : exists e, In (inl e) rs).
      { clear - Ec. revert e Ec. induction rs as [|[e'|b] rs IH]; intros e Ec; cbn [collect_results] in Ec; [discriminate|exists e'; now left|].
        destruct (collect_results rs) eqn:E2; cbn [bind] in Ec; try discriminate. destruct (IH _ eq_refl) as (e2 & H2). exists e2. now right. }
      destruct X as (e' & He). apply In_nth with (d := inl EIo) in He as (i & Hi & En).
      specialize (Ers i ltac:(lia)). rewrite seq_nth, En in Ers by lia. cbn [Nat.add] in Ers.
      destruct (C i ltac:(lia)) as [(b & _ & _ & E)|[[X _]|[U _]]]; [congruence|exact (NS i ltac:(lia) X)|exact (NU i ltac:(lia) U)]. }
  rewrite Ec. apply collect_Ok in Ec. subst rs. rewrite map_length in L.
  assert (KV : forall i, (i < length keys)%nat -> exists b, nth i kvs {| kv_key := []; kv_value := [] |} =
             {| kv_key := digest (nth i keys []); kv_value := map (chunk b pb) (seq 0 w) |}).
  { intros i Hi. specialize (Ers i Hi). rewrite seq_nth in Ers by lia. cbn [Nat.add] in Ers.
    destruct (C i ltac:(lia)) as [(b & _ & _ & E)|[[X _]|[U _]]]; [|exfalso; exact (NS i ltac:(lia) X)|exfalso; exact (NU i ltac:(lia) U)].
    exists b. rewrite E in Ers. rewrite (nth_indep _ _ (inr {| kv_key := []; kv_value := [] |})) in Ers by (rewrite map_length; lia).
    rewrite map_nth in Ers. congruence. }
  assert (EK : map kv_key kvs = map digest keys).
  { apply (list_eq_nth _ _ []); [rewrite !map_length; lia|]. intros i Hi. rewrite map_length in Hi.
    rewrite (nth_map' kv_key kvs i [] {| kv_key := []; kv_value := [] |}) by lia.
    rewrite (nth_map' digest keys i [] []) by lia. destruct (KV i ltac:(lia)) as (b & ->). reflexivity. }
  destruct keys as [|k0 keys'].
  { right. split; [now left|]. cbn [length] in L. destruct kvs as [|? ?]; [|cbn [length] in L; discriminate L]. reflexivity. }
  assert (KN : kvs <> []) by (intros ->; discriminate L).
  assert (VF : Forall (fun kv => length (kv_value kv) = w) kvs).
  { apply Forall_forall. intros kv Hin. apply In_nth with (d := {| kv_key := []; kv_value := [] |}) in Hin as (i & Hi & <-).
    destruct (KV i ltac:(lia)) as (b & ->). cbn [kv_value]. now rewrite map_length, seq_length. }
  assert (ND' : NoDup (map (fun kv => mix256 (kv_key kv) fseed) kvs)).
  { rewrite <- (map_map kv_key (fun x => mix256 x fseed)), EK, map_map. exact ND. }
  rewrite L in Eg, Hs. rewrite <- EK in Hl |- *.
  destruct (kv_build_iff_peelable prg dbg fe rnd fseed pseed kvs dim m es pb w g slots Hpb Hdb Hw Hw0 KN VF Eg Hs Hev ND' Hl)
    as [(P & sh & E & _)|[P E]].
  - left. split; [discriminate|]. split; [exact P|eauto].
  - right. split; [now right|exact E].
Qed.

(** @C63 example: a short value later in the list panics although an earlier one is undecodable;
    without it the construction error is returned. *)
Example kv_build_exact_example :
  let sha := fun _ : list Z => repeat 1 32 in
  kv_shard_from_base64_strings sha ex_prg true (est 2 0) ex_rnd seed0 [] [[107]; [108]] [[33]; b64_encode [3]]
    2 2 20 10 = Panic /\
  kv_shard_from_base64_strings sha ex_prg true (est 2 0) ex_rnd seed0 [] [[107]; [108]] [[33]; b64_encode [3; 4]]
    2 2 20 10 = Err EConstructKV.
Proof. split; vm_compute; reflexivity. Qed.
