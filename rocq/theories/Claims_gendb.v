(** C67: the database generation script and its Makefile target. *)
From Coq Require Import String.
From Verif Require Import Base Spec Fmt Base64 Db Api Json Files SpecJson GenDb Base_facts Fmt_facts Codec_facts Mat_facts Index_facts IndexProto_facts Json_facts JsonSpec_facts Claims_format Claims_json.
Local Open Scope Z_scope.

(** What a variable says: unset or empty means the default; otherwise decimal digits. *)
Definition says (v : option (list Z)) (default n : nat) : Prop :=
  match v with
  | None => n = default
  | Some [] => n = default
  | Some s => digits s /\ decimal s (Z.of_nat n)
  end.

Lemma decimal_fold s n : decimal s n -> fold_left (fun n c => 10 * n + (c - 48)) s 0 = n.
Proof. induction 1 as [|s n c _ IH _]; [reflexivity|]. rewrite fold_left_app. cbn [fold_left]. now rewrite IH. Qed.

Lemma getenv_says v d n : says v d n -> getenv_or v d = Some n.
Proof.
  unfold says, getenv_or. destruct v as [[|c s]|]; try (intros ->; reflexivity).
  intros [[_ D] N]. unfold py_int. rewrite (decimal_fold _ _ N), Nat2Z.id.
  replace (forallb _ _) with true; [reflexivity|]. symmetry. apply forallb_forall. intros x Hx.
  rewrite Forall_forall in D. specialize (D x Hx). apply andb_true_iff. split; apply Z.leb_le; clear - D; lia.
Qed.

Definition b64_char (c : Z) : Prop := 43 <= c <= 122 /\ c <> 92.
Lemma b64_sym_char v : 0 <= v < 64 -> b64_char (b64_sym v).
Proof. intros H. unfold b64_char, b64_sym. repeat match goal with |- context[if ?b then _ else _] => destruct b eqn:? end; lia. Qed.

Lemma b64_encode_chars l : Forall is_u8 l -> Forall b64_char (b64_encode l).
Proof.
  assert (P : b64_char b64_pad) by (unfold b64_char, b64_pad; lia).
  assert (A : forall a, is_u8 a -> 0 <= a / 4 < 64 /\ 0 <= a mod 4 * 16 <= 48 /\ 0 <= a / 16 < 16 /\ 0 <= a mod 16 * 4 <= 60 /\ 0 <= a / 64 < 4 /\ 0 <= a mod 64 < 64).
  { intros a Ha. unfold is_u8, two8 in Ha. clear P. lia. }
  revert l. fix IH 1. intros [|a [|b [|c t]]] H; cbn [b64_encode]; [constructor|..].
  - inversion_clear H as [|? ? Ha _]. destruct (A a Ha) as (? & ? & ? & ? & ? & ?).
    repeat constructor; try exact P; try (apply b64_sym_char; clear - H H0; lia).
    all: first [apply P | apply b64_sym_char; clear - H H0; lia].
  - inversion_clear H as [|? ? Ha H']. inversion_clear H' as [|? ? Hb _].
    destruct (A a Ha) as (? & ? & ? & ? & ? & ?). destruct (A b Hb) as (? & ? & ? & ? & ? & ?).
    repeat apply Forall_cons; try exact P; [..|constructor]; apply b64_sym_char; clear P A IH; lia.
  - inversion_clear H as [|? ? Ha H']. inversion_clear H' as [|? ? Hb H'']. inversion_clear H'' as [|? ? Hc Ht].
    destruct (A a Ha) as (? & ? & ? & ? & ? & ?). destruct (A b Hb) as (? & ? & ? & ? & ? & ?). destruct (A c Hc) as (? & ? & ? & ? & ? & ?).
    repeat apply Forall_cons; [..|exact (IH t Ht)]; apply b64_sym_char; clear P A IH; lia.
Qed.

Lemma chars_plain s : Forall b64_char s -> json_chars s s.
Proof.
  induction 1 as [|c s [H1 H2] _ IH]; [constructor|]. apply c_plain; auto; clear - H1; lia.
Qed.
Lemma ascii_utf8 s : Forall (fun c => 0 <= c < 128) s -> utf8_text s.
Proof. induction 1 as [|c s H _ IH]; [constructor|]. change (c :: s) with ([c] ++ s). econstructor; [constructor; exact H|exact IH]. Qed.

Lemma items_blank t l : json_items t l -> json_items (32 :: t) l.
Proof.
  intros H. destruct H as [w1 s w2 v B1 V B2|w1 s w2 v t l B1 V B2 I].
  - change (32 :: w1 ++ s ++ w2) with ((32 :: w1) ++ s ++ w2). apply i_one; auto. constructor; auto.
  - change (32 :: w1 ++ s ++ w2 ++ 44 :: t) with ((32 :: w1) ++ s ++ w2 ++ 44 :: t). apply i_more; auto. constructor; auto.
Qed.
Lemma join_items l : l <> [] -> Forall (Forall b64_char) l -> json_items (join_comma l) (map JStr l).
Proof.
  induction l as [|s l IH]; [congruence|]. intros _ H. inversion_clear H as [|? ? Hs Hl].
  pose proof (v_str s s (chars_plain s Hs)) as V.
  destruct l as [|s2 l].
  - cbn [join_comma map]. assert (J := i_one [] (34 :: s ++ [34]) [] (JStr s)). cbn [app] in J. rewrite app_nil_r in J. apply J; auto; constructor.
  - specialize (IH ltac:(discriminate) Hl). change (join_comma (s :: s2 :: l)) with ((34 :: s ++ [34]) ++ 44 :: 32 :: join_comma (s2 :: l)).
    change (map JStr (s :: s2 :: l)) with (JStr s :: map JStr (s2 :: l)).
    apply (i_more [] (34 :: s ++ [34]) [] (JStr s) (32 :: join_comma (s2 :: l)) (map JStr (s2 :: l))); [constructor|exact V|constructor|].
    now apply items_blank.
Qed.

Lemma join_ascii l : Forall (Forall b64_char) l -> Forall (fun c => 0 <= c < 128) (join_comma l).
Proof.
  assert (Q : forall s, Forall b64_char s -> Forall (fun c => 0 <= c < 128) (34 :: s ++ [34])).
  { intros s H. constructor; [lia|]. apply Forall_app. split; [|constructor; [lia|constructor]].
    eapply Forall_impl; [|exact H]. unfold b64_char. cbn. intros; lia. }
  induction l as [|s l IH]; [constructor|]. intros H. inversion_clear H as [|? ? Hs Hl].
  destruct l as [|s2 l]; [exact (Q s Hs)|].
  change (join_comma (s :: s2 :: l)) with ((34 :: s ++ [34]) ++ 44 :: 32 :: join_comma (s2 :: l)).
  apply Forall_app. split; [exact (Q s Hs)|]. constructor; [lia|]. constructor; [lia|]. exact (IH Hl).
Qed.

Lemma dump_is_strings_file l : Forall (Forall b64_char) l -> strings_file (py_json_dump l) l.
Proof.
  intros H. split.
  - apply ascii_utf8. unfold py_json_dump. constructor; [lia|]. apply Forall_app. split; [now apply join_ascii|]. constructor; [lia|constructor].
  - exists [], (py_json_dump l), []. rewrite app_nil_r. split; [reflexivity|]. split; [constructor|]. split; [|constructor].
    unfold py_json_dump. destruct l as [|s l]; [apply (v_arr0 []); constructor|]. apply v_arr. apply join_items; [discriminate|exact H].
Qed.

(** Random bytes: as many as asked for. *)
Definition random_bytes (urandom : nat -> nat -> list Z) : Prop :=
  forall i n, length (urandom i n) = n /\ Forall is_u8 (urandom i n).

(** @C67 The script writes a JSON array of exactly 2^entries base64 strings, each of 2^size bytes
    (size counts bytes, not bits): fresh random bytes when DB_ALL_ONES is "0", all ones
    otherwise. *)
Lemma generated_file : forall env urandom e s,
  random_bytes urandom -> says (DB_NUM_ENTRIES_EXP env) 16 e -> says (DB_ELEMENT_SIZE_EXP env) 13 s ->
  exists path text blocks, generate_db env urandom = Some (path, text) /\
    strings_file text (map b64_encode blocks) /\ length blocks = (2 ^ e)%nat /\
    Forall (fun b => length b = (2 ^ s)%nat /\ Forall is_u8 b) blocks /\
    (DB_ALL_ONES env = Some (bytes_of "0") -> forall i, (i < 2 ^ e)%nat -> nth i blocks [] = urandom i (2 ^ s)%nat) /\
    (DB_ALL_ONES env <> Some (bytes_of "0") -> forall i, (i < 2 ^ e)%nat -> nth i blocks [] = repeat 255 (2 ^ s)%nat) /\
    (forall p, DB_OUTPUT_PATH env = Some p -> p <> [] -> path = p).
Proof.
  intros env urandom e s Hu He Hs. unfold generate_db. rewrite (getenv_says _ _ _ He), (getenv_says _ _ _ Hs).
  set (random := match DB_ALL_ONES env with Some t => _ | None => _ end).
  set (blocks := map (fun i => if random then urandom i (2 ^ s)%nat else repeat 255 (2 ^ s)%nat) (seq 0 (2 ^ e))).
  eexists. eexists. exists blocks. split; [reflexivity|].
  assert (FB : Forall (fun b => length b = (2 ^ s)%nat /\ Forall is_u8 b) blocks).
  { apply Forall_map, Forall_forall. intros i _. destruct random; [apply Hu|]. split; [apply repeat_length|].
    apply Forall_forall. intros x Hx. apply repeat_spec in Hx. subst x. unfold is_u8, two8. lia. }
  split.
  { replace (map _ (seq 0 (2 ^ e))) with (map b64_encode blocks) by
      (unfold blocks; rewrite map_map; apply map_ext; intros i; destruct random; reflexivity).
    apply dump_is_strings_file. apply Forall_map. eapply Forall_impl; [|exact FB]. intros b [_ Hb]. now apply b64_encode_chars. }
  split; [unfold blocks; now rewrite map_length, seq_length|]. split; [exact FB|].
  assert (N : forall i, (i < 2 ^ e)%nat -> nth i blocks [] = if random then urandom i (2 ^ s)%nat else repeat 255 (2 ^ s)%nat).
  { intros i Hi. unfold blocks. now rewrite nth_map_seq. }
  split; [|split].
  - intros E i Hi. rewrite (N i Hi). unfold random. rewrite E. destruct (list_eq_dec _ _ _); congruence.
  - intros E i Hi. rewrite (N i Hi). unfold random. destruct (DB_ALL_ONES env) as [t|]; [|reflexivity].
    destruct (list_eq_dec Z.eq_dec t (bytes_of "0")); [congruence|reflexivity].
  - intros p -> Hp. destruct p; [congruence|reflexivity].
Qed.

Lemma nth_repeat_lt {A} (x d : A) n i : (i < n)%nat -> nth i (repeat x n) d = x.
Proof. revert i. induction n as [|n IH]; intros [|i] H; cbn; try lia; auto. apply IH. lia. Qed.
Lemma pow2_pos e : (0 < 2 ^ e)%nat.
Proof. apply Nat.neq_0_lt_0, Nat.pow_nonzero. lia. Qed.

(** @C67 A shard loaded from the file with m = 2^entries and an element size of 8 * 2^size bits
    lists exactly the generated elements (plaintext_bits not dividing the element size, C05). *)
Lemma generated_shard : forall env urandom e s prg dbg seed d dim pb path text,
  random_bytes urandom -> says (DB_NUM_ENTRIES_EXP env) 16 e -> says (DB_ELEMENT_SIZE_EXP env) 13 s ->
  (1 <= pb <= 32)%nat -> ((8 * 2 ^ s) mod pb <> 0)%nat ->
  generate_db env urandom = Some (path, text) -> d path = Some text ->
  exists sh rows, shard_from_json_file prg dbg seed d path dim (2 ^ e) (8 * 2 ^ s) pb = Ok sh /\
    shard_into_row_iter dbg sh = Ok rows /\ strings_file text rows /\ length rows = (2 ^ e)%nat.
Proof.
  intros env urandom e s prg dbg seed d dim pb path text Hu He Hs Hpb Hdiv G Hd.
  destruct (generated_file env urandom e s Hu He Hs) as (path' & text' & blocks & G' & SF & Lb & FB & _).
  rewrite G in G'. assert (path' = path) by congruence. assert (text' = text) by congruence. subst path' text'.
  rewrite (proj1 (any_formatting_strings prg dbg seed d path text (map b64_encode blocks) dim (2 ^ e) (8 * 2 ^ s) pb Hd SF)).
  destruct (rows_are_inputs prg dbg seed blocks dim (2 ^ e) (8 * 2 ^ s) pb Hpb Hdiv) as (sh & Hsh & Hrows & _).
  - rewrite Lb. pose proof (pow2_pos e) as X. clear - X. lia.
  - eapply Forall_impl; [|exact FB]. intros b [L B]. split; [exact B|]. now rewrite L.
  - exists sh, (map b64_encode blocks). split; [exact Hsh|]. split.
    { rewrite Hrows. f_equal. apply firstn_all2. rewrite map_length, Lb. apply le_n. }
    split; [exact SF|]. now rewrite map_length.
Qed.

Lemma byte_bits_firstn b n : (n <= length b)%nat -> byte_string_bits (firstn n b) = firstn (8 * n) (byte_string_bits b).
Proof.
  intros H. unfold byte_string_bits. rewrite firstn_length, Nat.min_l by exact H.
  rewrite firstn_map. replace (firstn (8 * n) (seq 0 (8 * length b))) with (seq 0 (8 * n)).
  2:{ replace (8 * length b)%nat with (8 * n + (8 * length b - 8 * n))%nat by (clear - H; lia).
      rewrite seq_app, firstn_app, seq_length, Nat.sub_diag, firstn_O, app_nil_r. symmetry. apply firstn_all2. rewrite seq_length. apply le_n. }
  apply map_ext_in. intros i Hi. apply in_seq in Hi. unfold byte_string_bit. rewrite nth_firstn'; [reflexivity|].
  apply Nat.div_lt_upper_bound; clear - Hi; lia.
Qed.

Lemma Forall_firstn_u8 n b : Forall is_u8 b -> Forall is_u8 (firstn n b).
Proof. intros H. rewrite <- (firstn_skipn n b) in H. now apply Forall_app in H. Qed.

(** @C67 Refuted: "make gen-db writes elements of ELEMENT_SIZE_BITS bits". The target passes the
    size under a name the script does not read: whatever ELEMENT_SIZE_BITS is, every element
    has 2^13 bytes (unless the caller happens to export DB_ELEMENT_SIZE_EXP). *)
Lemma make_ignores_element_size_refuted : forall urandom nexp e bits ones,
  random_bytes urandom -> says (Some nexp) 16 e ->
  exists text blocks, generate_db (make_gen_db_env nexp bits ones None) urandom = Some (bytes_of "data/rand_db.json", text) /\
    strings_file text (map b64_encode blocks) /\ length blocks = (2 ^ e)%nat /\
    Forall (fun b => length b = (2 ^ 13)%nat) blocks.
Proof.
  intros urandom nexp e bits ones Hu He.
  destruct (generated_file (make_gen_db_env nexp bits ones None) urandom e 13 Hu He eq_refl)
    as (path & text & blocks & G & SF & L & FB & _ & _ & P).
  rewrite (P (bytes_of "data/rand_db.json") eq_refl ltac:(discriminate)) in G.
  exists text, blocks. split; [exact G|]. split; [exact SF|]. split; [exact L|]. eapply Forall_impl; [|exact FB]. now intros b [X _].
Qed.

(** @C67 The consequence with the Makefile's own values: the shard for 2^16 elements of 2^13 bits in
    10-bit chunks is built without complaint from the generated file, and entry i is only the
    first 2^10 of the 2^13 bytes of element i. *)
Lemma make_default_shard_truncates : forall urandom prg dbg seed d dim path text,
  random_bytes urandom ->
  generate_db (make_gen_db_env (bytes_of "16") (bytes_of "8192") (bytes_of "0") None) urandom = Some (path, text) ->
  d path = Some text ->
  exists sh, shard_from_json_file prg dbg seed d path dim (2 ^ 16) (2 ^ 13) 10 = Ok sh /\
    forall i, (i < 2 ^ 16)%nat ->
      index_get_db_entry dbg (sh_db sh) i = Ok (b64_encode (firstn (2 ^ 10) (urandom i (2 ^ 13)%nat))) /\
      b64_encode (firstn (2 ^ 10) (urandom i (2 ^ 13)%nat)) <> b64_encode (urandom i (2 ^ 13)%nat).
Proof.
  intros urandom prg dbg seed d dim path text Hu G Hd.
  assert (He : says (Some (bytes_of "16")) 16 16).
  { cbn. split; [split; [discriminate|]|].
    - repeat constructor; discriminate.
    - apply (dec_snoc [49] 1 54); [apply (dec_snoc [] 0 49); [constructor|lia]|lia]. }
  destruct (generated_file (make_gen_db_env (bytes_of "16") (bytes_of "8192") (bytes_of "0") None) urandom 16 13 Hu He eq_refl)
    as (path' & text' & blocks & G' & SF & Lb & FB & NB & _).
  rewrite G in G'. assert (path' = path) by congruence. assert (text' = text) by congruence. subst path' text'.
  specialize (NB eq_refl).
  assert (E13 : (2 ^ 13 = 8 * 2 ^ 10)%nat) by (change 13%nat with (3 + 10)%nat; now rewrite Nat.pow_add_r).
  assert (M : (2 ^ 13 mod 10 <> 0)%nat).
  { intros X. apply (f_equal Z.of_nat) in X. rewrite Nat2Z.inj_mod, Nat2Z.inj_pow in X. vm_compute in X. discriminate X. }
  rewrite (proj1 (any_formatting_strings prg dbg seed d path text (map b64_encode blocks) dim (2 ^ 16) (2 ^ 13) 10 Hd SF)).
  Local Opaque Nat.pow.
  destruct (get_row_width_pos (2 ^ 13) 10) as (w & _ & Hw); [lia|].
  pose proof (ceil_notdiv (2 ^ 13) 10 w ltac:(lia) Hw M) as [Hw1 Hw2].
  assert (Hst : stored (map b64_encode blocks) (2 ^ 16) 10 w blocks).
  { split; [exact Lb|]. split; [rewrite map_length, Lb; apply le_n|]. intros i Hi.
    rewrite Forall_forall in FB. destruct (FB (nth i blocks [])) as [L B]; [apply nth_In; rewrite Lb; exact Hi|].
    rewrite (nth_map' _ _ _ _ []) by (rewrite Lb; exact Hi). split; [now apply b64_roundtrip|].
    rewrite L. pose proof (Nat.mod_upper_bound (2 ^ 13) 10 ltac:(lia)) as X. clear - X Hw2 Hw1. lia. }
  exists (shard_of prg seed dim blocks (2 ^ 16) (2 ^ 13) 10 w).
  split; [apply shard_ok; auto; [lia|apply pow2_pos]|].
  intros i Hi. cbn [sh_db shard_of].
  rewrite Forall_forall in FB. destruct (FB (nth i blocks [])) as [L B]; [apply nth_In; rewrite Lb; exact Hi|].
  destruct Hst as (_ & _ & Hst). destruct (Hst i Hi) as [_ Hlen].
  rewrite db_entry_bits by (auto; try lia; rewrite Lb; exact Hi). rewrite Hw2.
  rewrite <- (NB i Hi). set (b := nth i blocks []) in *.
  assert (F : fit (2 ^ 13) (byte_string_bits b) = byte_string_bits (firstn (2 ^ 10) b)).
  { rewrite byte_bits_firstn by (rewrite L, E13; clear; lia). unfold fit. rewrite <- E13, firstn_app.
    replace (2 ^ 13 - length (byte_string_bits b))%nat with 0%nat; [now rewrite firstn_O, app_nil_r|].
    unfold byte_string_bits. rewrite map_length, seq_length, L. clear. lia. }
  rewrite F, <- bytes_to_bits_spec, bytes_roundtrip by now apply Forall_firstn_u8.
  cbn [bind]. split; [reflexivity|].
  intros X. apply (f_equal b64_decode) in X. rewrite !b64_roundtrip in X by (try apply Forall_firstn_u8; exact B).
  injection X as X. apply (f_equal (@length Z)) in X. rewrite firstn_length, L, E13 in X. pose proof (pow2_pos 10) as P. clear - X P. lia.
Qed.

(** @C67 Refuted: "run without settings, the script writes random elements" (its default file is
    rand_db.json): with DB_ALL_ONES unset every element is all ones. *)
Lemma default_is_not_random_refuted : forall urandom,
  random_bytes urandom ->
  exists text, generate_db {| DB_ALL_ONES := None; DB_NUM_ENTRIES_EXP := None; DB_ELEMENT_SIZE_EXP := None; DB_OUTPUT_PATH := None |} urandom
    = Some (bytes_of "rand_db.json", text) /\
  strings_file text (repeat (b64_encode (repeat 255 (2 ^ 13)%nat)) (2 ^ 16)%nat).
Proof.
  intros urandom Hu.
  set (env := {| DB_ALL_ONES := None |}).
  destruct (generated_file env urandom 16 13 Hu eq_refl eq_refl) as (path & text & blocks & G & SF & L & _ & _ & N & _).
  exists text. split.
  - rewrite G. f_equal. f_equal. unfold generate_db, env in G. cbn [DB_NUM_ENTRIES_EXP DB_ELEMENT_SIZE_EXP DB_OUTPUT_PATH DB_ALL_ONES getenv_or] in G. congruence.
  - replace (repeat _ _) with (map b64_encode blocks); [exact SF|].
    apply (list_eq_nth _ _ []); [now rewrite map_length, repeat_length|]. intros i Hi. rewrite map_length, L in Hi.
    rewrite (nth_map' _ _ _ _ []) by (rewrite L; exact Hi). rewrite (N ltac:(discriminate) i Hi).
    rewrite (nth_repeat_lt _ _ _ _ Hi). reflexivity.
Qed.

(** @C67 example: two random elements of two bytes; the file text. *)
Example generated_example :
  generate_db {| DB_ALL_ONES := Some (bytes_of "0"); DB_NUM_ENTRIES_EXP := Some (bytes_of "1");
                 DB_ELEMENT_SIZE_EXP := Some (bytes_of "01"); DB_OUTPUT_PATH := Some [] |}
    (fun i n => repeat (Z.of_nat i + 1) n) = Some (bytes_of "rand_db.json", bytes_of "[""AQE="", ""AgI=""]") /\
  says (Some (bytes_of "01")) 13 1 /\
  generate_db {| DB_ALL_ONES := None; DB_NUM_ENTRIES_EXP := Some (bytes_of "x"); DB_ELEMENT_SIZE_EXP := None; DB_OUTPUT_PATH := None |}
    (fun i n => repeat 0 n) = None.
Proof.
  split; [vm_compute; reflexivity|]. split; [|vm_compute; reflexivity].
  cbn. split; [split; [discriminate|]|].
  - repeat constructor; discriminate.
  - apply (dec_snoc [48] 0 49); [apply (dec_snoc [] 0 48); [constructor|lia]|lia].
Qed.
