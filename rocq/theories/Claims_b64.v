(** C85: the errors of base64 decoding. *)
From Coq Require Import String.
Import String.
From Verif Require Import Base Spec SpecMsg SpecB64 Base64 Fmt Mat Lwe Hash Bfusep Db Api Files Msg B64Msg Sha256 ChaCha Base_facts Codec_facts B64Msg_facts Crypto_facts Claims_wire Msg_facts Claims_msg.
Local Open Scope Z_scope.
Local Open Scope list_scope.

Lemma sym_in v : 0 <= v < 64 -> In (b64_sym v) alphabet.
Proof.
  intros H. assert (A : Forall (fun i => In (b64_sym (Z.of_nat i)) alphabet) (seq 0 64)).
  { apply Forall_forall. intros i Hi. assert (B : forallb (fun i => existsb (Z.eqb (b64_sym (Z.of_nat i))) alphabet) (seq 0 64) = true) by (vm_compute; reflexivity).
    rewrite forallb_forall in B. specialize (B i Hi). apply existsb_exists in B as (x & Hx & E). apply Z.eqb_eq in E. now rewrite E. }
  rewrite Forall_forall in A. specialize (A (Z.to_nat v)). rewrite Z2Nat.id in A by lia. apply A, in_seq. lia.
Qed.
Lemma val_sym c v : b64_val c = Some v -> b64_sym v = c.
Proof.
  unfold b64_val. intros H.
  destruct ((65 <=? c) && (c <=? 90)) eqn:E1; [injection H as <-; apply andb_prop in E1; unfold b64_sym; destruct (Z.ltb_spec (c - 65) 26); lia|].
  destruct ((97 <=? c) && (c <=? 122)) eqn:E2.
  { injection H as <-. apply andb_prop in E2. unfold b64_sym. destruct (Z.ltb_spec (c - 97 + 26) 26); [lia|]. destruct (Z.ltb_spec (c - 97 + 26) 52); lia. }
  destruct ((48 <=? c) && (c <=? 57)) eqn:E3.
  { injection H as <-. apply andb_prop in E3. unfold b64_sym. destruct (Z.ltb_spec (c - 48 + 52) 26); [lia|]. destruct (Z.ltb_spec (c - 48 + 52) 52); [lia|]. destruct (Z.ltb_spec (c - 48 + 52) 62); lia. }
  destruct (Z.eqb_spec c 43) as [->|]; [injection H as <-; reflexivity|]. destruct (Z.eqb_spec c 47) as [->|]; [injection H as <-; reflexivity|discriminate].
Qed.
Lemma val_in c : (exists v, b64_val c = Some v) <-> In c alphabet.
Proof.
  split.
  - intros [v H]. rewrite <- (val_sym c v H). apply sym_in. eapply b64_val_range. exact H.
  - intros H. assert (A : forallb (fun c => match b64_val c with Some _ => true | None => false end) alphabet = true) by (vm_compute; reflexivity).
    rewrite forallb_forall in A. specialize (A c H). destruct (b64_val c) as [v|]; [now exists v|discriminate A].
Qed.
Lemma val_not_in c : b64_val c = None <-> ~ In c alphabet.
Proof. rewrite <- val_in. destruct (b64_val c) as [v|]; split; intros H; try reflexivity; try discriminate H. - exfalso. apply H. now exists v. - intros [v X]. discriminate X. Qed.

Lemma error_none s : b64_error s = None <-> exists bs, b64_decode s = Ok bs.
Proof.
  rewrite decode_shape. unfold b64_error. destruct (Nat.eqb_spec (length s mod 4) 1) as [E|E].
  - split; [|intros (H & _); contradiction]. cbv zeta. destruct (_ && _); discriminate.
  - cbv zeta. destruct (b64_tail_ok _ _); cbn [negb].
    + destruct (Z.eqb_spec (b64_value (nth (b64_run s - 1) s 0) mod b64_spare (b64_run s)) 0) as [Z|Z]; split; intros H; auto; try discriminate H. destruct H as (_ & _ & H). contradiction.
    + split; [discriminate|]. intros (_ & H & _). discriminate H.
Qed.

(** @C85 A text decodes exactly if there is no error, and every error is one of three. *)
Lemma errors_are_exact : forall s,
  (b64_error s = None <-> exists bytes, b64_decode s = Ok bytes) /\
  (b64_error s = Some InvalidLength -> (length s mod 4 = 1)%nat /\ forall t, (length t mod 4 = 1)%nat -> forall bytes, b64_decode t <> Ok bytes).
Proof.
  intros s. split; [apply error_none|]. unfold b64_error. destruct (Nat.eqb_spec (length s mod 4) 1) as [E|E].
  - intros _. split; [exact E|]. intros t L bytes H. destruct (proj1 (decode_shape t) (ex_intro _ bytes H)) as (N & _). contradiction.
  - cbv zeta. destruct (negb _); [discriminate|]. destruct (_ =? 0); discriminate.
Qed.

(** @C85 A foreign byte: the byte at the offset is the one that is named, it is not in the alphabet,
    and it is no padding in its place; it is the first such byte, unless the text has an
    impossible length, when it is the last one. Whatever else is changed, a text with this byte
    (if it is not "=") at this offset does not decode. *)
Lemma foreign_byte : forall s i c, b64_error s = Some (InvalidByte i c) ->
  foreign s c i /\
  ((length s mod 4 <> 1)%nat -> forall j, (j < i)%nat -> symbol_at s j) /\
  ((length s mod 4 = 1)%nat -> i = (length s - 1)%nat /\ c <> equals_sign) /\
  (c <> equals_sign -> forall t bytes, nth_error t i = Some c -> b64_decode t <> Ok bytes).
Proof.
  intros s i c H.
  assert (LAST : c <> equals_sign -> b64_val c = None -> forall t bytes, nth_error t i = Some c -> b64_decode t <> Ok bytes).
  { intros NE V t bytes N D. destruct (proj1 (decode_shape t) (ex_intro _ bytes D)) as (_ & T & _).
    destruct (Nat.lt_ge_cases i (b64_run t)) as [L|L].
    - destruct (run_before t i L) as (c' & v & E & V'). rewrite N in E. injection E as <-. congruence.
    - assert (I : In c (skipn (b64_run t) t)).
      { apply (nth_error_In _ (i - b64_run t)). rewrite <- N. clear - L. revert i L. generalize (b64_run t). intros n. revert t. induction n as [|n IH]; intros t i L.
        - now rewrite Nat.sub_0_r.
        - destruct t as [|a t]; [cbn [skipn]; destruct (i - S n)%nat, i; reflexivity|]. destruct i as [|i]; [lia|]. cbn [skipn nth_error]. apply IH. lia. }
      destruct (skipn (b64_run t) t) as [|a l]; [destruct I|]. unfold b64_tail_ok in T. rewrite !Bool.andb_true_iff, forallb_forall in T. destruct T as [[T _] _].
      specialize (T c I). apply Z.eqb_eq in T. contradiction. }
  unfold b64_error in H. destruct (Nat.eqb_spec (length s mod 4) 1) as [E|E]; cbv zeta in H.
  - destruct (negb _ && _) eqn:B; [|discriminate H]. injection H as <- <-. apply andb_prop in B as [B1 B2].
    assert (NE : last s 0 <> equals_sign) by (intros X; rewrite X in B1; discriminate B1).
    assert (V : b64_val (last s 0) = None) by (destruct (b64_val (last s 0)); [discriminate B2|reflexivity]).
    assert (NN : nth_error s (length s - 1) = Some (last s 0)).
    { clear - E. destruct s as [|a s]; [discriminate E|]. clear E. revert a. induction s as [|b l IH]; intros a; [reflexivity|].
      specialize (IH b). cbn [length] in *. rewrite Nat.sub_succ, Nat.sub_0_r in *. exact IH. }
    split; [|split; [intros X; contradiction|split; [intros _; split; [reflexivity|exact NE]|intros _; apply LAST; assumption]]].
    split; [exact NN|]. split; [now apply val_not_in|]. intros X. contradiction.
  - destruct (b64_tail_ok _ _) eqn:T; cbn [negb] in H; [destruct (_ =? 0) in H; discriminate H|]. injection H as <- <-.
    assert (L : (b64_run s < length s)%nat).
    { pose proof (run_le s). destruct (Nat.eq_dec (b64_run s) (length s)) as [X|X]; [|lia]. rewrite X, skipn_all in T. discriminate T. }
    destruct (run_at s L) as (c & t & K & N & NN & V). rewrite NN in *. split; [|split; [|split; [intros X; contradiction|intros X; apply LAST; assumption]]].
    + split; [exact N|]. split; [now apply val_not_in|]. intros -> [[Q X]|[Q [X|X]]]; rewrite X, Q in T; discriminate T.
    + intros _ j Hj. destruct (run_before s j Hj) as (c' & v & A & B). exists c'. split; [exact A|]. apply val_in. now exists v.
Qed.

Lemma put_nth (s : list Z) i c j : (i < length s)%nat -> nth_error (firstn i s ++ [c] ++ skipn (S i) s) j = if (j =? i)%nat then Some c else nth_error s j.
Proof.
  revert i j. induction s as [|a s IH]; intros [|i] [|j] H; cbn [length] in H; try lia; try reflexivity.
  change (nth_error (firstn i s ++ [c] ++ skipn (S i) s) j = if (j =? i)%nat then Some c else nth_error s j). apply IH. lia.
Qed.
Lemma put_length (s : list Z) i c : (i < length s)%nat -> length (firstn i s ++ [c] ++ skipn (S i) s) = length s.
Proof. intros H. rewrite !app_length, firstn_length, skipn_length. cbn [length]. lia. Qed.
Lemma put_skipn (s : list Z) i c : (i < length s)%nat -> skipn (S i) (firstn i s ++ [c] ++ skipn (S i) s) = skipn (S i) s.
Proof. revert i. induction s as [|a s IH]; intros [|i] H; cbn [length] in H; try lia; [reflexivity|]. cbn [firstn app]. apply IH. lia. Qed.

(** @C85 A last symbol with bits that no byte takes up: it is the last symbol, only padding follows,
    and with another symbol in its place the text decodes. *)
Lemma last_symbol : forall s i c, b64_error s = Some (InvalidLastSymbol i c) ->
  spare (fun t => exists bytes, b64_decode t = Ok bytes) s c i.
Proof.
  intros s i c H. unfold b64_error in H. destruct (Nat.eqb_spec (length s mod 4) 1) as [E|E]; cbv zeta in H; [destruct (_ && _) in H; discriminate H|].
  destruct (b64_tail_ok _ _) eqn:T; cbn [negb] in H; [|discriminate H].
  destruct (Z.eqb_spec (b64_value (nth (b64_run s - 1) s 0) mod b64_spare (b64_run s)) 0) as [Z|Z]; [discriminate H|]. injection H as <- <-.
  set (k := b64_run s) in *. assert (K : (0 < k)%nat).
  { destruct k; [|lia]. exfalso. apply Z. change (b64_spare 0) with 1. apply Z.mod_1_r. }
  pose proof (run_le s) as RL. fold k in RL. set (i := (k - 1)%nat) in *. assert (SI : S i = k) by lia.
  destruct (run_before s i ltac:(fold k; lia)) as (c & v & N & V). assert (NC : nth i s 0 = c) by (apply nth_error_nth; exact N). rewrite NC in *.
  split; [exact N|]. split; [|split].
  - intros j Hj. destruct (run_before s j ltac:(fold k; lia)) as (c' & v' & A & B). exists c'. split; [exact A|]. apply val_in. now exists v'.
  - rewrite SI. unfold b64_tail_ok in T. destruct (skipn k s) as [|a l]; [constructor|]. rewrite !Bool.andb_true_iff, forallb_forall in T. destruct T as [[T _] _].
    apply Forall_forall. intros x Hx. apply Z.eqb_eq. apply T. exact Hx.
  - pose proof (b64_val_range c v V) as R. assert (VV : b64_value c = v) by (unfold b64_value; now rewrite V). rewrite VV in Z.
    assert (SP : 0 < b64_spare k) by (unfold b64_spare; destruct (_ =? _)%nat; [reflexivity|]; destruct (_ =? _)%nat; reflexivity).
    set (v' := v - v mod b64_spare k). pose proof (Z.mod_pos_bound v _ SP) as MB. pose proof (Z.mod_le v (b64_spare k) ltac:(lia) SP) as ML.
    assert (R' : 0 <= v' < 64) by (unfold v'; lia). exists (b64_sym v'). split; [now apply sym_in|].
    assert (V' : b64_val (b64_sym v') = Some v') by now apply b64_val_sym.
    split. { intros X. rewrite X, V in V'. injection V' as V'. unfold v' in V'. lia. }
    set (t := firstn i s ++ [b64_sym v'] ++ skipn (S i) s).
    assert (LT : length t = length s) by (apply put_length; lia).
    assert (RT : b64_run t = k).
    { apply run_char; [lia| |].
      - intros j Hj. unfold t. rewrite put_nth by lia. destruct (Nat.eqb_spec j i) as [->|NE]; [exists (b64_sym v'), v'; split; [reflexivity|exact V']|]. apply run_before. exact Hj.
      - intros x Hx. unfold t in Hx. rewrite put_nth in Hx by lia. rewrite (proj2 (Nat.eqb_neq k i)) in Hx by lia.
        destruct (run_at s) as (y & l & _ & A & _ & B); [apply nth_error_Some; unfold k in Hx; congruence|]. fold k in A. congruence. }
    apply decode_shape. rewrite RT, LT. split; [exact E|]. split.
    + unfold t. rewrite <- SI, put_skipn by lia. rewrite SI. exact T.
    + fold i. assert (X : nth i t 0 = b64_sym v') by (apply nth_error_nth; unfold t; rewrite put_nth by lia; now rewrite Nat.eqb_refl). rewrite X.
      unfold b64_value. rewrite V'. unfold v'. rewrite Zminus_mod_idemp_r, Z.sub_diag. apply Z.mod_0_l. lia.
Qed.

Lemma dec_byte c : is_u8 c -> dec_of c = number c.
Proof. unfold is_u8, two8. intros H. apply dec_of_number. unfold two64. lia. Qed.
Lemma number_count c : is_u8 c -> number c = SpecWire.count (Z.to_nat c) /\ is_length (Z.to_nat c).
Proof. unfold is_u8, two8, is_length, SpecWire.count. intros H. rewrite Z2Nat.id by lia. split; [reflexivity|lia]. Qed.

(** @C85 The three kinds of text, for every text that fails to decode. *)
Lemma decode_texts : forall s f, Forall is_u8 s -> is_length (length s) -> m_b64_decode b64_texts s = TErr f ->
  says (fun t => exists bytes, b64_decode t = Ok bytes) s (f_display f) /\
  says_inside (fun t => exists bytes, b64_decode t = Ok bytes) s (f_debug f).
Proof.
  intros s f U L H. apply b64_err in H as (N & -> & ->). unfold b64_texts.
  destruct (b64_error s) as [e|] eqn:E; [|exfalso; apply error_none in E as [bs E]; exact (N bs E)].
  assert (IN : forall i c, nth_error s i = Some c -> dec_of c = number c /\ show i = SpecWire.count i).
  { intros i c X. split; [apply dec_byte; rewrite Forall_forall in U; apply U; eapply nth_error_In; exact X|].
    apply show_count. assert (i < length s)%nat by (apply nth_error_Some; congruence). unfold is_length in *. lia. }
  unfold says, says_inside. destruct e as [i c| |i c]; cbn [fst snd b64_display b64_debug].
  - destruct (foreign_byte s i c E) as (F & _). destruct (IN i c (proj1 F)) as [-> ->].
    split; left; exists c, i; (split; [exact F|reflexivity]).
  - destruct (errors_are_exact s) as [_ X]. destruct (X E) as [Y _]. split; right; left; (split; [exact Y|reflexivity]).
  - pose proof (last_symbol s i c E) as F. destruct (IN i c (proj1 F)) as [-> ->].
    split; right; right; exists c, i; (split; [exact F|reflexivity]).
Qed.

(** @C85 From a text, and from one inside another error, the kind, the byte and the offset can be
    read back. *)
Lemma texts_are_readable : forall c i c' i', is_u8 c -> is_u8 c' -> is_length i -> is_length i' ->
  (foreign_text c i = foreign_text c' i' -> c = c' /\ i = i') /\ (spare_text c i = spare_text c' i' -> c = c' /\ i = i') /\
  (foreign_debug c i = foreign_debug c' i' -> c = c' /\ i = i') /\ (spare_debug c i = spare_debug c' i' -> c = c' /\ i = i') /\
  foreign_text c i <> spare_text c' i' /\ foreign_text c i <> length_text /\ spare_text c i <> length_text /\
  foreign_debug c i <> spare_debug c' i' /\ foreign_debug c i <> length_debug /\ spare_debug c i <> length_debug.
Proof.
  intros c i c' i' Uc Uc' Li Li'. unfold foreign_text, spare_text, foreign_debug, spare_debug.
  destruct (number_count c Uc) as [-> Lc]. destruct (number_count c' Uc') as [-> Lc'].
  assert (Z : Z.to_nat c = Z.to_nat c' -> c = c') by (unfold is_u8 in *; lia).
  split. { intros E. eapply two_counts in E; [destruct E as [E1 E2]; split; [exact (Z E1)|exact E2]|reflexivity|reflexivity|reflexivity|reflexivity|assumption..]. }
  split. { intros E. eapply two_counts in E; [destruct E as [E1 E2]; split; [exact (Z E1)|exact E2]|reflexivity|reflexivity|reflexivity|reflexivity|assumption..]. }
  split. { intros E. eapply two_counts in E; [destruct E as [E1 E2]; split; [exact (Z E2)|exact E1]|reflexivity|reflexivity|reflexivity|reflexivity|assumption..]. }
  split. { intros E. eapply two_counts in E; [destruct E as [E1 E2]; split; [exact (Z E2)|exact E1]|reflexivity|reflexivity|reflexivity|reflexivity|assumption..]. }
  repeat split; intros E; apply (f_equal (firstn 9)) in E; discriminate E.
Qed.

(** @C85 A failed build from strings says what is wrong with the first element whose row fails:
    the offending byte and its offset in the string, an impossible length, or (with more than 32
    bits per entry) the size of a chunk. *)
Lemma build_names_the_byte : forall prg dbg seed strs dim m es pb f,
  (forall s, In s strs -> Forall is_u8 s /\ is_length (length s)) ->
  (forall s e, In s strs -> b64_decode s = Ok e -> is_length (8 * length e + 7)) ->
  m_shard_from_base64_strings b64_texts prg dbg seed strs dim m es pb = TErr f ->
  exists i w, (i < m)%nat /\ (i < length strs)%nat /\ get_row_width es pb = Ok w /\
    (forall j, (j < i)%nat -> exists row, index_construct_row dbg (nth j strs []) pb w = Ok row) /\
    let s := nth i strs [] in
    (says (fun t => exists bytes, b64_decode t = Ok bytes) s (f_display f) \/
     exists e n, b64_decode s = Ok e /\ (32 < pb)%nat /\ (4 < n <= length e)%nat /\ f_display f = size_text (wide_details n)).
Proof.
  intros prg dbg seed strs dim m es pb f HU HL H. destruct (build_text _ _ _ _ _ _ _ _ _ _ HL H) as (i & w & A & B & C & D & E).
  exists i, w. split; [exact A|]. split; [exact B|]. split; [exact C|]. split; [exact D|]. cbv zeta in *. destruct E as [[E1 E2]|E]; [left|right; exact E].
  destruct (HU _ (nth_In strs [] B)) as [U L].
  destruct (b64_decode_cases (nth i strs [])) as [[bs X]|X]; [exfalso; exact (E1 bs X)|].
  destruct (decode_texts (nth i strs []) {| f_kind := EBase64; f_display := fst (b64_texts (nth i strs [])); f_debug := snd (b64_texts (nth i strs [])) |} U L) as [S _].
  { unfold m_b64_decode. rewrite X. reflexivity. }
  cbn [f_display] in S. rewrite E2. exact S.
Qed.

(** @C85 The same for key-value pairs, with SHA-256: the text inside. *)
Lemma pairs_name_the_byte : forall prg dbg fe rnd fseed seed keys values dim m es pb f,
  (forall s, In s values -> Forall is_u8 s /\ is_length (length s)) ->
  (forall s e, In s values -> b64_decode s = Ok e -> is_length (8 * length e + 7)) ->
  length keys = length values -> m_kv_shard b64_texts sha256 prg dbg fe rnd fseed seed keys values dim m es pb = TErr f ->
  exists i, (i < length values)%nat /\
    (forall j, (j < i)%nat -> exists row, kv_construct_row dbg (nth j values []) pb es = Ok row) /\
    let s := nth i values [] in
    ((exists t, says_inside (fun t => exists bytes, b64_decode t = Ok bytes) s t /\ f_display f = pairs_text t) \/
     exists e n, b64_decode s = Ok e /\ (32 < pb)%nat /\ (4 < n <= length e)%nat /\ f_display f = pairs_text (wide_debug n)).
Proof.
  intros prg dbg fe rnd fseed seed keys values dim m es pb f HU HL L H.
  destruct (pairs_are_told _ _ _ _ _ _ _ _ _ _ _ _ _ _ _ digest_length HL L H) as (i & A & B & E).
  exists i. split; [exact A|]. split; [exact B|]. cbv zeta in *. destruct E as [[E1 E2]|E]; [left|right; exact E].
  destruct (HU _ (nth_In values [] A)) as [U LL].
  destruct (b64_decode_cases (nth i values [])) as [[bs X]|X]; [exfalso; exact (E1 bs X)|].
  destruct (decode_texts (nth i values []) {| f_kind := EBase64; f_display := fst (b64_texts (nth i values [])); f_debug := snd (b64_texts (nth i values [])) |} U LL) as [_ S].
  { unfold m_b64_decode. rewrite X. reflexivity. }
  cbn [f_debug] in S. eexists. split; [exact S|exact E2].
Qed.

(** @C85 the texts of some strings that do not decode, and the two failed builds. *)
Example b64_texts_example :
  fst (b64_texts (bytes_of "AA!A")) = bytes_of "Invalid byte 33, offset 2." /\
  fst (b64_texts (bytes_of "A=AA")) = bytes_of "Invalid byte 61, offset 1." /\
  fst (b64_texts (bytes_of "AQI=AQI=")) = bytes_of "Invalid byte 61, offset 3." /\
  fst (b64_texts (bytes_of "AQI")) = [] /\ fst (b64_texts (bytes_of "AQI=")) = [] /\ fst (b64_texts (bytes_of "AQ=")) = [] /\
  fst (b64_texts (bytes_of "AAAAA")) = bytes_of "Encoded text cannot have a 6-bit remainder." /\
  fst (b64_texts (bytes_of "A!AA ")) = bytes_of "Invalid byte 32, offset 4." /\
  fst (b64_texts (bytes_of "AQJ=")) = bytes_of "Invalid last symbol 74, offset 2." /\
  m_shard_from_base64_strings b64_texts std_rng true [] [bytes_of "AQI="; bytes_of "AQ?="] 1 2 16 8 =
    TErr {| f_kind := EBase64; f_display := bytes_of "Invalid byte 63, offset 2."; f_debug := bytes_of "InvalidByte(2, 63)" |} /\
  (exists f, m_kv_shard b64_texts sha256 std_rng true {| fe_exp := fun _ => 3; fe_cap := fun _ => 12 |} (fun _ _ => 0) [] [] [[1]; [2]] [bytes_of "AQI="; bytes_of "AQ?="] 1 2 16 8 = TErr f /\
     f_display f = bytes_of "Error occurred constructing KVs: Some(InvalidByte(2, 63))").
Proof. repeat (split; [vm_compute; reflexivity|]). eexists. split; vm_compute; reflexivity. Qed.
