(** Claims about key derivation, the public matrix and parameter ranges. *)
From Verif Require Import Base Spec Fmt Mat Lwe Db Api Base_facts Fmt_facts Mat_facts Index_facts IndexProto_facts.
Local Open Scope Z_scope.

(** ** C57 *)

(** @C57 a key string is hashed to the four little-endian 64-bit words of its digest: word
    w holds bytes 8w .. 8w+7, least significant first. *)
Lemma key_words : forall sha256 input, length (sha256 input) = 32%nat -> Forall is_u8 (sha256 input) ->
  exists ws, sha256_into_u64_sized sha256 input = Ok ws /\ length ws = 4%nat /\ Forall is_u64 ws /\
    forall i, (i < 32)%nat ->
      nth i (sha256 input) 0 = nth (i / 8) ws 0 / 256 ^ Z.of_nat (i mod 8) mod 256.
Proof.
  intros sha input HL HB. set (d := sha input) in *.
  exists (map (fun i => of_le_bytes (firstn 8 (skipn (8 * i) d))) (seq 0 4)).
  split; [unfold sha256_into_u64_sized; fold d; rewrite HL; reflexivity|].
  split; [reflexivity|].
  assert (LW : forall i, (i < 4)%nat -> length (firstn 8 (skipn (8 * i) d)) = 8%nat).
  { intros i Hi. rewrite firstn_length, skipn_length. lia. }
  assert (BW : forall i, Forall is_u8 (firstn 8 (skipn (8 * i) d))).
  { intros i. apply Forall_forall. intros x Hx. rewrite Forall_forall in HB. apply HB.
    rewrite <- (firstn_skipn (8 * i) d). apply in_or_app. right.
    rewrite <- (firstn_skipn 8 (skipn (8 * i) d)). apply in_or_app. left. exact Hx. }
  split.
  - apply Forall_forall. intros x Hx. apply in_map_iff in Hx. destruct Hx as (i & <- & Hi). apply in_seq in Hi.
    pose proof (of_le_bytes_range _ (BW i)) as R. rewrite LW in R by lia. exact R.
  - intros i Hi.
    assert (Hq : (i / 8 < 4)%nat) by (apply Nat.div_lt_upper_bound; lia).
    rewrite nth_map_seq by exact Hq. cbn [Nat.add].
    pose proof (Nat.mod_upper_bound i 8 ltac:(lia)) as Hr. pose proof (Nat.div_mod_eq i 8) as D.
    set (q := (i / 8)%nat) in *. set (r := (i mod 8)%nat) in *. clearbody q r.
    assert (N : nth i d 0 = nth r (firstn 8 (skipn (8 * q) d)) 0).
    { rewrite D. rewrite <- (firstn_skipn (8 * q) d) at 1. rewrite app_nth2 by (rewrite firstn_length; lia).
      replace (8 * q + r - length (firstn (8 * q) d))%nat with r by (rewrite firstn_length; lia).
      rewrite <- (firstn_skipn 8 (skipn (8 * q) d)) at 1. rewrite app_nth1; [reflexivity|]. rewrite LW by lia. exact Hr. }
    rewrite N. generalize (BW q). specialize (LW q Hq). revert LW. generalize (firstn 8 (skipn (8 * q) d)).
    clear. intros l HL HF. assert (Hrl : (r < length l)%nat \/ (length l <= r)%nat) by lia.
    revert r Hrl. clear HL. induction l as [|b l IH]; intros r Hr.
    + destruct r; cbn [nth of_le_bytes]; rewrite Z.div_0_l by (apply Z.pow_nonzero; lia); reflexivity.
    + apply Forall_cons_iff in HF. destruct HF as [Hb HF]. unfold is_u8, two8 in Hb. cbn [of_le_bytes].
      destruct r as [|r].
      * cbn [nth]. change (256 ^ Z.of_nat 0) with 1. rewrite Z.div_1_r.
        rewrite Z.mul_comm, Z.mod_add by lia. symmetry. apply Z.mod_small. exact Hb.
      * cbn [nth]. rewrite IH by (auto; lia). rewrite Nat2Z.inj_succ, Z.pow_succ_r by lia.
        rewrite <- Z.div_div by (try lia; apply Z.pow_pos_nonneg; lia).
        rewrite (Z.mul_comm 256 (of_le_bytes l)), Z.div_add by lia. rewrite (Z.div_small b 256) by exact Hb. rewrite Z.add_0_l. reflexivity.
Qed.

(** @C57 so two key strings get the same filter key only if their digests are equal. *)
Lemma key_words_injective : forall sha256 a b ws,
  length (sha256 a) = 32%nat -> Forall is_u8 (sha256 a) ->
  length (sha256 b) = 32%nat -> Forall is_u8 (sha256 b) ->
  sha256_into_u64_sized sha256 a = Ok ws -> sha256_into_u64_sized sha256 b = Ok ws ->
  sha256 a = sha256 b.
Proof.
  intros sha a b ws La Ba Lb Bb Ea Eb.
  destruct (key_words sha a La Ba) as (wa & Ea' & _ & _ & Na). destruct (key_words sha b Lb Bb) as (wb & Eb' & _ & _ & Nb).
  assert (wa = wb) as -> by congruence.
  apply (nth_ext _ _ 0 0); [congruence|]. intros i Hi. rewrite La in Hi. rewrite Na, Nb by exact Hi. reflexivity.
Qed.

(** @C57 *)
Example key_words_example : let sha := fun s => map Z.of_nat (seq (length s) 32) in
  length (sha []) = 32%nat /\
  sha256_into_u64_sized sha [] = Ok [506097522914230528; 1084818905618843912; 1663540288323457296; 2242261671028070680] /\
  sha256_into_u64_sized sha [7] <> sha256_into_u64_sized sha [].
Proof. cbv zeta. split; [reflexivity|]. split; [vm_compute; reflexivity|]. vm_compute. discriminate. Qed.

(** ** C58 *)

(** @C58 the public matrix a client derives from the seed consists of m rows of dim words
    and uses the words of the seeded stream one after the other, each exactly once. *)
Lemma public_matrix_stream : forall prg p,
  concat (index_common_params prg p) = map (prg (ip_public_seed p)) (seq 0 (ip_m p * ip_dim p)) /\
  shape (index_common_params prg p) (ip_m p) (ip_dim p).
Proof.
  intros prg p. unfold index_common_params, generate_lwe_matrix_from_seed. split.
  - set (f := prg (ip_public_seed p)). set (d := ip_dim p). generalize (ip_m p) as h. clearbody f d. clear.
    assert (G : forall k h, concat (map (fun i => map (fun j => f (i * d + j)%nat) (seq 0 d)) (seq k h)) = map f (seq (k * d) (h * d))).
    { intros k h. revert k. induction h as [|h IH]; intros k; [reflexivity|]. cbn [seq map concat].
      rewrite IH. cbn [Nat.mul]. rewrite seq_app, map_app. f_equal; [|f_equal; f_equal; lia].
      rewrite <- (map_map (fun j => k * d + j)%nat f). f_equal.
      assert (S : forall n z, map (fun j => k * d + j)%nat (seq z n) = seq (k * d + z) n).
      { induction n as [|n IHn]; intros z; [reflexivity|]. cbn [seq map]. rewrite IHn. f_equal. f_equal. lia. }
      rewrite S. f_equal. lia. }
    intros h. apply (G 0%nat).
  - split; [now rewrite map_length, seq_length|]. apply Forall_forall. intros r Hr. apply in_map_iff in Hr.
    destruct Hr as (i & <- & _). now rewrite map_length, seq_length.
Qed.

(** @C58 likewise for a keyword shard. *)
Lemma kv_public_matrix_stream : forall prg p,
  concat (kv_common_params prg p) = map (prg (kp_public_seed p)) (seq 0 (kp_m p * kp_dim p)) /\
  shape (kv_common_params prg p) (kp_m p) (kp_dim p).
Proof.
  intros prg p. exact (public_matrix_stream prg {| ip_dim := kp_dim p; ip_m := kp_m p; ip_rhs := []; ip_public_seed := kp_public_seed p;
    ip_elem_size := 0; ip_plaintext_bits := 0 |}).
Qed.

(** @C58 *)
Example public_matrix_stream_example :
  index_common_params (fun s i => hd 0 s + Z.of_nat i)
    {| ip_dim := 3; ip_m := 2; ip_rhs := []; ip_public_seed := [7]; ip_elem_size := 0; ip_plaintext_bits := 0 |}
  = [[7; 8; 9]; [10; 11; 12]].
Proof. reflexivity. Qed.

(** ** C60 *)

Lemma plaintext_size_big : forall dbg pb, 32 <= Z.of_nat pb mod two32 ->
  get_rounding_factor dbg pb = Panic.
Proof.
  intros dbg pb H. unfold get_rounding_factor, get_plaintext_size, chk.
  set (e := Z.of_nat pb mod two32) in *. 
  assert (E : 2 ^ e = two32 * 2 ^ (e - 32)).
  { change two32 with (2 ^ 32). rewrite <- Z.pow_add_r by lia. f_equal. lia. }
  assert (P : 0 < 2 ^ (e - 32)) by (apply Z.pow_pos_nonneg; lia).
  assert (two32 <= 2 ^ e) by (rewrite E; unfold two32; nia).
  destruct (Z.ltb_spec (2 ^ e) two32); [lia|]. rewrite Bool.andb_false_r.
  destruct dbg; [reflexivity|]. cbn [bind]. rewrite E, Z.mul_comm, Z.mod_mul by (unfold two32; lia). reflexivity.
Qed.

Lemma plaintext_size_small : forall dbg pb, Z.of_nat pb mod two32 < 32 ->
  exists f, get_rounding_factor dbg pb = Ok f.
Proof.
  intros dbg pb H. unfold get_rounding_factor, get_plaintext_size, chk.
  pose proof (Z.mod_pos_bound (Z.of_nat pb) two32 ltac:(unfold two32; lia)) as B.
  set (e := Z.of_nat pb mod two32) in *.
  assert (P : 0 < 2 ^ e) by (apply Z.pow_pos_nonneg; lia).
  assert (L : 2 ^ e < two32) by (change two32 with (2 ^ 32); apply Z.pow_lt_mono_r; lia).
  destruct (Z.ltb_spec (2 ^ e) two32); [|lia]. destruct (Z.leb_spec 0 (2 ^ e)); [|lia]. cbn [andb bind].
  unfold divz. destruct (Z.eqb_spec (2 ^ e) 0); [lia|]. cbn [bind]. eauto.
Qed.

(** @C60 a client holding parameters whose plaintext_bits (as a u32) is 32 or more panics, in
    both build profiles, as soon as it generates a query or parses a response. *)
Lemma plaintext_bits_too_large : forall dbg qp, 32 <= Z.of_nat (qp_plaintext_bits qp) mod two32 ->
  (forall resp, index_parse_resp_as_row dbg qp resp = Panic) /\
  (forall resp key, kv_parse_resp_as_row dbg qp resp key = Panic) /\
  (qp_used qp = false ->
   (forall i, snd (index_generate_query dbg qp i) = Panic) /\
   (forall key, snd (kv_generate_query dbg qp key) = Panic)).
Proof.
  intros dbg qp H. pose proof (plaintext_size_big dbg _ H) as E.
  unfold index_parse_resp_as_row, kv_parse_resp_as_row, index_generate_query, kv_generate_query. rewrite E.
  split; [reflexivity|]. split; [reflexivity|]. intros ->. split; reflexivity.
Qed.

(** @C60 with fewer than 32 plaintext bits an index query for a row in range never panics. *)
Lemma plaintext_bits_fine : forall dbg qp i, Z.of_nat (qp_plaintext_bits qp) mod two32 < 32 ->
  (i < length (qp_lhs qp))%nat -> snd (index_generate_query dbg qp i) <> Panic.
Proof.
  intros dbg qp i H Hi. destruct (plaintext_size_small dbg _ H) as [f E].
  unfold index_generate_query. destruct (qp_used qp); [discriminate|]. cbn [snd]. rewrite E. cbn [bind].
  unfold idx. destruct (nth_error (qp_lhs qp) i) eqn:N; [|apply nth_error_None in N; lia]. cbn [bind].
  destruct (two32 <=? z + f); cbn [negb]; [discriminate|]. unfold set. destruct (Nat.ltb_spec i (length (qp_lhs qp))); [discriminate|lia].
Qed.

(** @C60 the server does not reject such a value: a shard with 32-bit plaintexts is built and
    its parameters handed out, and every query then panics. *)
Lemma plaintext_bits_32_accepted :
  exists prg sh qp rest,
    (forall dbg, shard_from_base64_strings prg dbg [1] [[65; 65; 69; 67; 65; 119; 61; 61]] 1 1 32 32 = Ok sh) /\
    generate_index_query_params (index_common_params prg (sh_params sh)) (sh_params sh) [0; 0; 0; 0] = Ok (qp, rest) /\
    qp_used qp = false /\
    forall dbg, snd (index_generate_query dbg qp 0) = Panic.
Proof.
  exists (fun _ _ => 5). eexists. eexists. eexists.
  split; [intros []; vm_compute; reflexivity|].
  split; [vm_compute; reflexivity|]. split; [reflexivity|]. intros dbg. apply plaintext_bits_too_large; vm_compute; congruence.
Qed.
