(** Claims about the parameter parsing of the benchmark binary. *)
From Coq Require Import Zpow_facts.
From Verif Require Import Base Cli SpecCli Base_facts.
Local Open Scope Z_scope.

Lemma dd_nonneg s n : digits_denote s n -> 0 <= n.
Proof. induction 1; lia. Qed.
Lemma dd_digits s n : digits_denote s n -> Forall (fun c => 48 <= c <= 57) s.
Proof. induction 1; [repeat constructor; lia|]. apply Forall_app. auto. Qed.
Lemma dd_nonempty s n : digits_denote s n -> s <> [].
Proof. induction 1; [discriminate|]. destruct s; discriminate. Qed.

Definition value (acc : Z) (s : list Z) : Z := fold_left (fun a c => a * 10 + (c - 48)) s acc.
Lemma value_ge s : forall acc, 0 <= acc -> Forall (fun c => 48 <= c <= 57) s -> acc <= value acc s.
Proof.
  unfold value. induction s as [|c s IH]; intros acc H0 HF; cbn [fold_left]; [lia|].
  apply Forall_cons_iff in HF. destruct HF as [Hc HF]. specialize (IH (acc * 10 + (c - 48)) ltac:(lia) HF). lia.
Qed.
Lemma dd_value s n : digits_denote s n -> value 0 s = n.
Proof.
  induction 1; [unfold value; cbn [fold_left]; lia|]. unfold value in *. rewrite fold_left_app, IHdigits_denote. reflexivity.
Qed.
Lemma value_dd s : s <> [] -> Forall (fun c => 48 <= c <= 57) s -> digits_denote s (value 0 s).
Proof.
  induction s as [|c s IH] using rev_ind; [congruence|]. intros _ HF. apply Forall_app in HF. destruct HF as [HF Hc].
  apply Forall_cons_iff in Hc. destruct Hc as [Hc _]. unfold value. rewrite fold_left_app. cbn [fold_left].
  destruct s as [|d s]; [cbn [fold_left app]; apply dd_one; auto|]. apply dd_more; auto. apply IH; [discriminate|auto].
Qed.

Lemma parse_digits_spec bound s : forall acc, 0 <= acc < bound ->
  (Forall (fun c => 48 <= c <= 57) s /\ value acc s < bound -> parse_digits bound acc s = Some (value acc s)) /\
  (~ (Forall (fun c => 48 <= c <= 57) s /\ value acc s < bound) -> parse_digits bound acc s = None).
Proof.
  induction s as [|c s IH]; intros acc Hacc; cbn [parse_digits].
  - split; [reflexivity|]. intros N. exfalso. apply N. split; [constructor|]. unfold value. cbn [fold_left]. lia.
  - destruct ((48 <=? c) && (c <=? 57)) eqn:E.
    + apply andb_true_iff in E. destruct E as [E1 E2]. apply Z.leb_le in E1, E2.
      change (value acc (c :: s)) with (value (acc * 10 + (c - 48)) s).
      destruct (acc * 10 + (c - 48) <? bound) eqn:L.
      * apply Z.ltb_lt in L. destruct (IH (acc * 10 + (c - 48)) ltac:(lia)) as [A B]. split.
        -- intros [HF V]. apply Forall_cons_iff in HF. apply A. tauto.
        -- intros N. apply B. intros [HF V]. apply N. split; auto. 
      * apply Z.ltb_ge in L. split; [|reflexivity]. intros [HF V]. exfalso. apply Forall_cons_iff in HF.
        pose proof (value_ge s (acc * 10 + (c - 48)) ltac:(lia) ltac:(tauto)). lia.
    + split; [|reflexivity]. intros [HF _]. exfalso. apply Forall_cons_iff in HF. destruct HF as [Hc _].
      apply andb_false_iff in E. destruct E as [E|E]; apply Z.leb_gt in E; lia.
Qed.

Lemma parse_unsigned_digits bound s : 0 < bound -> s <> [] -> hd 0 s <> 43 -> parse_unsigned bound s = parse_digits bound 0 s.
Proof.
  intros Hb N H. destruct s as [|c s]; [congruence|]. cbn [hd] in H. unfold parse_unsigned.
  destruct c as [|p|p]; try reflexivity. do 6 (destruct p as [p|p|]; try reflexivity). congruence.
Qed.
Lemma parse_unsigned_plus bound c s : parse_unsigned bound (43 :: c :: s) = parse_digits bound 0 (c :: s).
Proof. reflexivity. Qed.

Lemma parse_decimal bound s n : 0 < bound -> decimal s n -> n < bound -> parse_unsigned bound s = Some n.
Proof.
  intros Hb D Hn.
  assert (P : forall t, digits_denote t n -> parse_digits bound 0 t = Some n).
  { intros t Ht. rewrite <- (dd_value _ _ Ht) in *. apply parse_digits_spec; [lia|]. split; [eapply dd_digits; eauto|auto]. }
  destruct D as [D|(t & -> & D)].
  - rewrite parse_unsigned_digits; auto; [eapply dd_nonempty; eauto|].
    pose proof (dd_digits _ _ D) as HF. pose proof (dd_nonempty _ _ D). destruct s; [congruence|].
    apply Forall_cons_iff in HF. cbn [hd]. lia.
  - pose proof (dd_nonempty _ _ D). destruct t; [congruence|]. rewrite parse_unsigned_plus. auto.
Qed.
Lemma parse_not_decimal bound s : 0 < bound -> (forall n, decimal s n -> bound <= n) -> parse_unsigned bound s = None.
Proof.
  intros Hb N.
  assert (P : forall t, t <> [] -> (forall n, digits_denote t n -> bound <= n) -> parse_digits bound 0 t = None).
  { intros t Ht H. apply parse_digits_spec; [lia|]. intros [HF V]. specialize (H _ (value_dd t Ht HF)). lia. }
  destruct s as [|c s]; [reflexivity|]. destruct (Z.eq_dec c 43) as [->|Hc].
  - destruct s as [|d s]; [reflexivity|]. rewrite parse_unsigned_plus. apply P; [discriminate|].
    intros n D. apply N. right. eexists. split; [reflexivity|exact D].
  - rewrite parse_unsigned_digits; auto; [|discriminate]. apply P; [discriminate|]. intros n D. apply N. left. exact D.
Qed.

Lemma parse_sound bound s n : 0 < bound -> parse_unsigned bound s = Some n -> decimal s n /\ 0 <= n < bound.
Proof.
  intros Hb E.
  assert (P : forall t, t <> [] -> parse_digits bound 0 t = Some n -> digits_denote t n /\ 0 <= n < bound).
  { intros t Ht Ep. destruct (parse_digits_spec bound t 0 ltac:(lia)) as [A B].
    destruct (Forall_dec (fun c => 48 <= c <= 57) (fun c => ltac:(destruct (Z_le_dec 48 c), (Z_le_dec c 57); [left; lia|right; lia|right; lia|right; lia])) t) as [HF|NF].
    - destruct (Z_lt_le_dec (value 0 t) bound) as [L|L].
      + rewrite A in Ep by auto. injection Ep as <-. split; [apply value_dd; auto|].
        pose proof (value_ge t 0 ltac:(lia) HF). lia.
      + rewrite B in Ep; [discriminate|]. intros [_ V]. lia.
    - rewrite B in Ep; [discriminate|]. tauto. }
  destruct s as [|c s]; [discriminate E|]. destruct (Z.eq_dec c 43) as [->|Hc].
  - destruct s as [|d s]; [discriminate E|]. rewrite parse_unsigned_plus in E. apply P in E; [|discriminate].
    split; [|tauto]. right. eexists. split; [reflexivity|tauto].
  - rewrite parse_unsigned_digits in E; auto; [|discriminate]. apply P in E; [|discriminate]. split; [left|]; tauto.
Qed.
Lemma parse_usize_iff s n : parse_usize s = Ok n <-> decimal s n /\ n < 2 ^ 64.
Proof.
  unfold parse_usize. split.
  - destruct (parse_unsigned two64 s) as [k|] eqn:E; [|discriminate]. intros H. injection H as <-.
    apply parse_sound in E; [|unfold two64; lia]. split; [tauto|]. unfold two64 in E. lia.
  - intros [D L]. rewrite (parse_decimal two64 s n); auto; unfold two64; lia.
Qed.
Lemma env_var_iff v s : env_var v = Ok s <-> v = Some s.
Proof. destruct v; cbn [env_var]; split; intros E; congruence. Qed.
Lemma bool_iff v b : parse_val_to_bool v = Ok b <-> v = (if b then [116; 114; 117; 101] else [102; 97; 108; 115; 101]).
Proof.
  unfold parse_val_to_bool. destruct (list_eq_dec _ _ _) as [->|N1]; [destruct b; split; intros; congruence|].
  destruct (list_eq_dec _ _ _) as [->|N2]; destruct b; split; intros; congruence.
Qed.
Lemma bind_iff {A B} (r : res A) (k : A -> res B) y : bind r k = Ok y <-> exists x, r = Ok x /\ k x = Ok y.
Proof.
  destruct r; cbn [bind]; split; try discriminate; try (intros (x & E & _); discriminate).
  - intros H. eauto.
  - intros (x & E & H). injection E as <-. exact H.
Qed.

Lemma mul_release x y : mul_u32 false x y = Ok ((x * y) mod two32) \/ x < 0 \/ y < 0.
Proof.
  destruct (Z_lt_le_dec x 0); [auto|]. destruct (Z_lt_le_dec y 0); [auto|]. left.
  unfold mul_u32. destruct (x * y <? two32) eqn:E; [|reflexivity]. apply Z.ltb_lt in E. rewrite Z.mod_small; [reflexivity|]. nia.
Qed.
Lemma pow_release p : forall acc base, 0 <= acc -> 0 <= base ->
  exists r, pow_loop false acc base p = Ok r /\ 0 <= r /\ r mod two32 = (acc * base ^ Zpos p) mod two32 /\ r < two32.
Proof.
  assert (M : forall x y, 0 <= x -> 0 <= y -> mul_u32 false x y = Ok ((x * y) mod two32)).
  { intros x y Hx Hy. destruct (mul_release x y) as [E|[E|E]]; [exact E|lia|lia]. }
  assert (R : forall x, 0 <= x mod two32 < two32) by (intros; apply Z.mod_pos_bound; unfold two32; lia).
  induction p as [p IH|p IH|]; intros acc base Ha Hb; cbn [pow_loop].
  - rewrite !M by auto. cbn [bind].
    destruct (IH ((acc * base) mod two32) ((base * base) mod two32)) as (r & E & H0 & H1 & H2); try apply R.
    exists r. split; [exact E|]. split; [exact H0|]. split; [|exact H2]. rewrite H1.
    rewrite Pos2Z.inj_xI, Z.pow_add_r, Z.pow_1_r, Z.pow_mul_r by (clear; lia). rewrite Z.pow_2_r.
    rewrite Z.mul_mod_idemp_l by discriminate. rewrite Z.mul_mod, <- Zpower_mod, <- Z.mul_mod by (clear; unfold two32; lia).
    f_equal. ring.
  - rewrite !M by auto. cbn [bind].
    destruct (IH acc ((base * base) mod two32)) as (r & E & H0 & H1 & H2); try apply R; auto.
    exists r. split; [exact E|]. split; [exact H0|]. split; [|exact H2]. rewrite H1.
    rewrite Pos2Z.inj_xO, Z.pow_mul_r by (clear; lia). rewrite Z.pow_2_r.
    rewrite Z.mul_mod, <- Zpower_mod, <- Z.mul_mod by (clear; unfold two32; lia). reflexivity.
  - rewrite M by auto. eexists. split; [reflexivity|]. split; [apply R|]. rewrite Z.pow_1_r. split; [apply Z.mod_mod; unfold two32; lia|apply R].
Qed.
Lemma pow_debug p : forall acc base, 1 <= acc -> 2 <= base ->
  pow_loop true acc base p = if acc * base ^ Zpos p <? two32 then Ok (acc * base ^ Zpos p) else Panic.
Proof.
  assert (X : forall b q, 2 <= b -> 1 <= b ^ Zpos q) by (intros b q Hb; pose proof (Z.pow_pos_nonneg b (Zpos q)); lia).
  induction p as [p IH|p IH|]; intros acc base Ha Hb; cbn [pow_loop]; unfold mul_u32.
  - assert (E : acc * base ^ Zpos p~1 = (acc * base) * (base * base) ^ Zpos p).
    { rewrite Pos2Z.inj_xI, Z.pow_add_r, Z.pow_1_r, Z.pow_mul_r by (clear; lia). rewrite Z.pow_2_r. ring. }
    rewrite E.
    assert (G : base * base <= (base * base) ^ Zpos p).
    { rewrite <- (Z.pow_1_r (base * base)) at 1. apply Z.pow_le_mono_r; lia. }
    destruct (acc * base <? two32) eqn:L1; cbn [bind].
    + destruct (base * base <? two32) eqn:L2; cbn [bind]; [apply IH; nia|].
      apply Z.ltb_ge in L2. replace (_ <? two32) with false; [reflexivity|]. symmetry. apply Z.ltb_ge. nia.
    + apply Z.ltb_ge in L1. replace (_ <? two32) with false; [reflexivity|]. symmetry. apply Z.ltb_ge. nia.
  - assert (E : acc * base ^ Zpos p~0 = acc * (base * base) ^ Zpos p).
    { rewrite Pos2Z.inj_xO, Z.pow_mul_r by (clear; lia). rewrite Z.pow_2_r. ring. }
    rewrite E.
    assert (G : base * base <= (base * base) ^ Zpos p).
    { rewrite <- (Z.pow_1_r (base * base)) at 1. apply Z.pow_le_mono_r; lia. }
    destruct (base * base <? two32) eqn:L2; cbn [bind]; [apply IH; nia|].
    apply Z.ltb_ge in L2. replace (_ <? two32) with false; [reflexivity|]. symmetry. apply Z.ltb_ge. nia.
  - rewrite Z.pow_1_r. reflexivity.
Qed.

Lemma pow2_small dbg e : 0 <= e <= 31 -> u32_pow dbg 2 e = Ok (2 ^ e).
Proof.
  intros He. assert (B : 2 ^ e < two32) by (unfold two32; change 4294967296 with (2 ^ 32); apply Z.pow_lt_mono_r; lia).
  unfold u32_pow. destruct e as [|p|p]; [reflexivity| |lia]. destruct dbg.
  - rewrite pow_debug by lia. rewrite Z.mul_1_l. destruct (_ <? _) eqn:E; [reflexivity|]. apply Z.ltb_ge in E. lia.
  - destruct (pow_release p 1 2) as (r & E & H0 & H1 & H2); try lia. rewrite E, Z.mul_1_l in *. f_equal.
    rewrite !Z.mod_small in H1; auto. split; [|exact B]. apply Z.pow_nonneg. lia.
Qed.
Lemma pow2_large dbg e : 32 <= e -> u32_pow dbg 2 e = if dbg then Panic else Ok 0.
Proof.
  intros He. assert (B : 2 ^ 32 <= 2 ^ e) by (apply Z.pow_le_mono_r; lia).
  unfold u32_pow. destruct e as [|p|p]; [lia| |lia]. destruct dbg.
  - rewrite pow_debug by lia. rewrite Z.mul_1_l. destruct (_ <? _) eqn:E; [|reflexivity]. apply Z.ltb_lt in E. unfold two32 in E. lia.
  - destruct (pow_release p 1 2) as (r & E & H0 & H1 & H2); try lia. rewrite E, Z.mul_1_l in *. f_equal.
    rewrite (Z.mod_small r) in H1 by lia. rewrite H1.
    replace (Z.pos p) with (32 + (Z.pos p - 32)) by lia. rewrite Z.pow_add_r by lia.
    change two32 with (2 ^ 32). rewrite Z.mul_comm. apply Z.mod_mul. lia.
Qed.

(** ** C51 *)

(** @C51 the decimal text of an exponent up to 31 yields that power of two. *)
Lemma exp_in_range : forall dbg v e, decimal v e -> e <= 31 -> parse_exp_to_usize dbg v = Ok (2 ^ e).
Proof.
  intros dbg v e D He. unfold parse_exp_to_usize. rewrite (parse_decimal two32 v e); auto; try (unfold two32; lia).
  apply pow2_small. split; [|exact He]. destruct D as [D|(t & _ & D)]; eapply dd_nonneg; eauto.
Qed.

(** @C51 a larger exponent panics in debug builds and silently yields 0 in release builds. *)
Lemma exp_too_large_refuted : forall v e, decimal v e -> 32 <= e -> e < 2 ^ 32 ->
  parse_exp_to_usize true v = Panic /\ parse_exp_to_usize false v = Ok 0.
Proof.
  intros v e D He H32. unfold parse_exp_to_usize. rewrite (parse_decimal two32 v e); auto; try (unfold two32; lia).
  split; [apply (pow2_large true e He)|apply (pow2_large false e He)].
Qed.

(** @C51 every other text panics. *)
Lemma exp_invalid : forall dbg v, (forall e, decimal v e -> 2 ^ 32 <= e) -> parse_exp_to_usize dbg v = Panic.
Proof.
  intros dbg v N. unfold parse_exp_to_usize. rewrite parse_not_decimal; auto; unfold two32; auto; lia.
Qed.

Lemma exp_iff : forall dbg v m, parse_exp_to_usize dbg v = Ok m <->
  exists n, decimal v n /\ ((n <= 31 /\ m = 2 ^ n) \/ (dbg = false /\ 32 <= n < 2 ^ 32 /\ m = 0)).
Proof.
  intros dbg v m. split.
  - unfold parse_exp_to_usize. destruct (parse_unsigned two32 v) as [n|] eqn:E; [|discriminate].
    apply parse_sound in E; [|unfold two32; lia]. destruct E as [D [H0 H1]]. unfold two32 in H1. intros Ep. exists n. split; [exact D|].
    destruct (Z_le_gt_dec n 31) as [L|G]; [left|right].
    + rewrite pow2_small in Ep by lia. injection Ep as <-. auto.
    + rewrite pow2_large in Ep by lia. destruct dbg; [discriminate|]. injection Ep as <-. split; [reflexivity|]. split; [lia|reflexivity].
  - intros (n & D & [[L ->]|(-> & L & ->)]); [apply exp_in_range; auto|]. apply (exp_too_large_refuted v n); auto; lia.
Qed.

(** @C51 the environment is read completely and exactly: flags are produced precisely when
    all six variables hold valid texts, and then carry their values. *)
Lemma env_flags_iff : forall dbg env fl,
  parse_from_env dbg env = Ok fl <->
  exists es ld pb ne dg kv n,
    PIR_ELEM_SIZE_BITS env = Some es /\ PIR_LWE_DIM env = Some ld /\ PIR_PLAINTEXT_BITS env = Some pb /\
    PIR_NUMBER_OF_ELEMENTS_EXP env = Some ne /\ BENCH_DB_GEN env = Some dg /\ BENCH_KV env = Some kv /\
    decimal es (cf_elem_size fl) /\ cf_elem_size fl < 2 ^ 64 /\
    decimal ld (cf_lwe_dim fl) /\ cf_lwe_dim fl < 2 ^ 64 /\
    decimal pb (cf_plaintext_bits fl) /\ cf_plaintext_bits fl < 2 ^ 64 /\
    decimal ne n /\ ((n <= 31 /\ cf_m fl = 2 ^ n) \/ (dbg = false /\ 32 <= n < 2 ^ 32 /\ cf_m fl = 0)) /\
    (* "true" / "false" *)
    dg = (if cf_offline fl then [116; 114; 117; 101] else [102; 97; 108; 115; 101]) /\
    kv = (if cf_keyword fl then [116; 114; 117; 101] else [102; 97; 108; 115; 101]).
Proof.
  intros dbg env fl. unfold parse_from_env.
  pose proof (exp_iff dbg) as X.
  split.
  - intros E.
    repeat (apply bind_iff in E; let s := fresh "s" in let Es := fresh "Es" in destruct E as (s & Es & E);
            apply bind_iff in E; let n := fresh "n" in let En := fresh "En" in destruct E as (n & En & E)).
    injection E as <-. cbn [cf_m cf_lwe_dim cf_elem_size cf_plaintext_bits cf_offline cf_keyword].
    rewrite env_var_iff in *. rewrite parse_usize_iff in *. rewrite bool_iff in *. apply X in En2. destruct En2 as (k & D & Hk).
    exists s, s0, s1, s2, s3, s4, k. tauto.
  - intros (es & ld & pb & ne & dg & kv & n & H1 & H2 & H3 & H4 & H5 & H6 & D1 & L1 & D2 & L2 & D3 & L3 & D4 & D5 & D6 & D7).
    destruct fl as [m l e p o k]. cbn [cf_m cf_lwe_dim cf_elem_size cf_plaintext_bits cf_offline cf_keyword] in *.
    rewrite H1, H2, H3, H4, H5, H6. cbn [env_var bind].
    rewrite (proj2 (parse_usize_iff _ _) (conj D1 L1)), (proj2 (parse_usize_iff _ _) (conj D2 L2)), (proj2 (parse_usize_iff _ _) (conj D3 L3)). cbn [bind].
    rewrite (proj2 (X ne m)) by (exists n; auto). cbn [bind].
    rewrite (proj2 (bool_iff _ _) D6), (proj2 (bool_iff _ _) D7). reflexivity.
Qed.

(** @C51 the command-line flags of the example program: the flags are accepted exactly when
    all four texts are decimal numbers in range. The database has 2^m rows and elements of
    2^e bits (release builds silently take 0 for an exponent from 32 up); the LWE dimension
    and the plaintext bits are taken as they are, and both switches are on. *)
Lemma cli_flags_iff : forall dbg matrix_height ele_size plaintext_bits dim fl,
  parse_cli_flags dbg matrix_height ele_size plaintext_bits dim = Ok fl <->
  exists n k,
    decimal matrix_height n /\ ((n <= 31 /\ cf_m fl = 2 ^ n) \/ (dbg = false /\ 32 <= n < 2 ^ 32 /\ cf_m fl = 0)) /\
    decimal ele_size k /\
    ((k <= 31 /\ cf_elem_size fl = 2 ^ k) \/ (dbg = false /\ 32 <= k < 2 ^ 32 /\ cf_elem_size fl = 0)) /\
    decimal plaintext_bits (cf_plaintext_bits fl) /\ cf_plaintext_bits fl < 2 ^ 64 /\
    decimal dim (cf_lwe_dim fl) /\ cf_lwe_dim fl < 2 ^ 64 /\
    cf_offline fl = true /\ cf_keyword fl = true.
Proof.
  intros dbg mh es pb dim fl. unfold parse_cli_flags. split.
  - intros E.
    apply bind_iff in E. destruct E as (e & Ee & E). apply bind_iff in E. destruct E as (l & El & E).
    apply bind_iff in E. destruct E as (p & Ep & E). apply bind_iff in E. destruct E as (m & Em & E).
    injection E as <-. cbn [cf_m cf_lwe_dim cf_elem_size cf_plaintext_bits cf_offline cf_keyword].
    rewrite parse_usize_iff in *. apply exp_iff in Ee, Em. destruct Em as (n & D & H). destruct Ee as (k & D' & H').
    exists n, k. tauto.
  - intros (n & k & D1 & H1 & D2 & H2 & D3 & L3 & D4 & L4 & O & K).
    destruct fl as [m l e p o kw]. cbn [cf_m cf_lwe_dim cf_elem_size cf_plaintext_bits cf_offline cf_keyword] in *.
    rewrite (proj2 (exp_iff dbg es e)) by (exists k; auto). cbn [bind].
    rewrite (proj2 (parse_usize_iff _ _) (conj D4 L4)), (proj2 (parse_usize_iff _ _) (conj D3 L3)). cbn [bind].
    rewrite (proj2 (exp_iff dbg mh m)) by (exists n; auto). cbn [bind]. rewrite O, K. reflexivity.
Qed.

(** @C51 the default flags: 16, 13, 10 and 2048 *)
Example cli_default_example : forall dbg,
  parse_cli_flags dbg [49; 54] [49; 51] [49; 48] [50; 48; 52; 56] =
  Ok {| cf_m := 2 ^ 16; cf_lwe_dim := 2048; cf_elem_size := 2 ^ 13; cf_plaintext_bits := 10;
        cf_offline := true; cf_keyword := true |}.
Proof. intros [|]; vm_compute; reflexivity. Qed.

(** @C51 *)
Example exp_example :
  parse_exp_to_usize true [49; 54] = Ok 65536 /\ parse_exp_to_usize true [43; 51; 49] = Ok 2147483648 /\
  parse_exp_to_usize true [51; 50] = Panic /\ parse_exp_to_usize false [51; 50] = Ok 0 /\
  parse_exp_to_usize false [45; 49] = Panic /\ decimal [51; 50] 32.
Proof.
  split; [vm_compute; reflexivity|]. split; [vm_compute; reflexivity|]. split; [vm_compute; reflexivity|].
  split; [vm_compute; reflexivity|]. split; [vm_compute; reflexivity|].
  left. change [51; 50] with ([51] ++ [50]). change 32 with ((51 - 48) * 10 + (50 - 48)). apply dd_more; [apply dd_one|]; lia.
Qed.
