(** * JsonSpec_facts: the parser of [Json] accepts exactly the texts of [SpecJson]. *)
From Coq Require Import String.
From Verif Require Import Base Json Files SpecJson Base_facts Json_facts.
Local Open Scope Z_scope.

(** ** UTF-8 *)
Lemma utf8_char_utf8 n bs t : utf8_char n bs -> utf8 t -> utf8 (bs ++ t).
Proof.
  assert (C : forall b, 0 <= b < 64 -> cont (128 + b) = true).
  { intros b H. unfold cont. apply andb_true_intro. split; apply Z.leb_le; lia. }
  intros [k H|a b A B|a b c A B D E F|a b c d A B D E F] U; cbn [app].
  - apply utf8_1; auto.
  - apply utf8_2; auto; lia.
  - apply utf8_3; auto; lia.
  - apply utf8_4; auto; lia.
Qed.
Lemma utf8_iff s : utf8 s <-> utf8_text s.
Proof.
  split.
  - induction 1 as [|a t A _ IH|a b t A B _ IH|a b c t A B C D E _ IH|a b c d t A B C D E F _ IH];
      repeat match goal with H : cont _ = true |- _ => apply cont_bounds in H end.
    + constructor.
    + apply (ut_cons a [a] t); [apply u_1; lia|exact IH].
    + pose proof (u_2 (a - 192) (b - 128) ltac:(lia) ltac:(lia)) as U.
      replace (192 + (a - 192)) with a in U by lia. replace (128 + (b - 128)) with b in U by lia.
      exact (ut_cons _ _ t U IH).
    + pose proof (u_3 (a - 224) (b - 128) (c - 128) ltac:(lia) ltac:(lia) ltac:(lia) ltac:(lia) ltac:(lia)) as U.
      replace (224 + (a - 224)) with a in U by lia. replace (128 + (b - 128)) with b in U by lia.
      replace (128 + (c - 128)) with c in U by lia. exact (ut_cons _ _ t U IH).
    + pose proof (u_4 (a - 240) (b - 128) (c - 128) (d - 128) ltac:(lia) ltac:(lia) ltac:(lia) ltac:(lia) ltac:(lia)) as U.
      replace (240 + (a - 240)) with a in U by lia. replace (128 + (b - 128)) with b in U by lia.
      replace (128 + (c - 128)) with c in U by lia. replace (128 + (d - 128)) with d in U by lia. exact (ut_cons _ _ t U IH).
  - induction 1; [constructor|]. eapply utf8_char_utf8; eauto.
Qed.
Lemma is_utf8_spec s : is_utf8 s = true <-> utf8_text s.
Proof. rewrite is_utf8_iff. apply utf8_iff. Qed.

Lemma utf8_of_char n bs : utf8_char n bs -> utf8_of n = bs.
Proof.
  assert (D : forall q r, 0 <= r < 64 -> (64 * q + r) / 64 = q /\ (64 * q + r) mod 64 = r).
  { intros q r H. split; [symmetry; apply (Z.div_unique _ _ q r); lia|symmetry; apply (Z.mod_unique _ _ q r); lia]. }
  intros [k H|a b A B|a b c A B C E F|a b c d A B C E F]; unfold utf8_of.
  - destruct (Z.ltb_spec k 128); [reflexivity|lia].
  - destruct (Z.ltb_spec (64 * a + b) 128); [lia|]. destruct (Z.ltb_spec (64 * a + b) 2048); [|lia].
    destruct (D a b B) as [-> ->]. reflexivity.
  - set (zz := 4096 * a + 64 * b + c) in *.
    destruct (Z.ltb_spec zz 128); [lia|]. destruct (Z.ltb_spec zz 2048); [lia|].
    destruct (Z.ltb_spec zz 65536); [|lia].
    replace (zz / 4096) with (zz / 64 / 64) by (rewrite Z.div_div by lia; reflexivity).
    replace zz with (64 * (64 * a + b) + c) by (unfold zz; ring).
    destruct (D (64 * a + b) c C) as [-> ->]. destruct (D a b B) as [-> ->]. reflexivity.
  - set (zz := 262144 * a + 4096 * b + 64 * c + d) in *.
    destruct (Z.ltb_spec zz 128); [lia|]. destruct (Z.ltb_spec zz 2048); [lia|].
    destruct (Z.ltb_spec zz 65536); [lia|].
    replace (zz / 262144) with (zz / 64 / 64 / 64) by (rewrite !Z.div_div by lia; reflexivity).
    replace (zz / 4096) with (zz / 64 / 64) by (rewrite !Z.div_div by lia; reflexivity).
    replace zz with (64 * (64 * (64 * a + b) + c) + d) by (unfold zz; ring).
    destruct (D (64 * (64 * a + b) + c) d E) as [-> ->].
    destruct (D (64 * a + b) c C) as [-> ->]. destruct (D a b B) as [-> ->]. reflexivity.
Qed.
Lemma utf8_of_exists n : 0 <= n <= 1114111 -> ~ (55296 <= n <= 57343) -> utf8_char n (utf8_of n).
Proof.
  intros H S.
  assert (DM : forall q, q = 64 * (q / 64) + q mod 64 /\ 0 <= q mod 64 < 64).
  { intros q. pose proof (Z.div_mod q 64 ltac:(lia)). pose proof (Z.mod_pos_bound q 64 ltac:(lia)). lia. }
  assert (X : exists bs, utf8_char n bs).
  { destruct (Z_lt_le_dec n 128); [eexists; apply u_1; lia|].
    destruct (DM n) as [E0 B0]. destruct (DM (n / 64)) as [E1 B1]. destruct (DM (n / 64 / 64)) as [E2 B2].
    destruct (Z_lt_le_dec n 2048).
    { rewrite E0. eexists. apply u_2; lia. }
    destruct (Z_lt_le_dec n 65536).
    { replace n with (4096 * (n / 64 / 64) + 64 * ((n / 64) mod 64) + n mod 64) by lia.
      eexists. apply u_3; lia. }
    replace n with (262144 * (n / 64 / 64 / 64) + 4096 * ((n / 64 / 64) mod 64) + 64 * ((n / 64) mod 64) + n mod 64) by lia.
    eexists. apply u_4; lia. }
  destruct X as [bs X]. now rewrite (utf8_of_char _ _ X).
Qed.
Lemma utf8_char_range n bs : utf8_char n bs -> 0 <= n <= 1114111 /\ ~ (55296 <= n <= 57343).
Proof. intros [k H|a b A B|a b c A B C E F|a b c d A B C E F]; lia. Qed.

(** ** Blanks, literals, digits *)
Lemma is_ws_iff c : is_ws c = true <-> (c = 32 \/ c = 9 \/ c = 10 \/ c = 13).
Proof. unfold is_ws. rewrite !orb_true_iff, !Z.eqb_eq. tauto. Qed.
Lemma skip_ws_split s : exists w, s = w ++ skip_ws s /\ blank w.
Proof.
  induction s as [|c t (w & E & B)]; [exists []; split; [reflexivity|constructor]|]. cbn [skip_ws].
  destruct (is_ws c) eqn:W.
  - exists (c :: w). split; [cbn [app]; congruence|]. constructor; [now apply is_ws_iff|exact B].
  - exists []. split; [reflexivity|constructor].
Qed.
Lemma skip_ws_blank w s : blank w -> skip_ws (w ++ s) = skip_ws s.
Proof. induction 1 as [|c w H _ IH]; cbn [app skip_ws]; [reflexivity|]. apply is_ws_iff in H. now rewrite H. Qed.
Lemma skip_ws_stop c t : is_ws c = false -> skip_ws (c :: t) = c :: t.
Proof. intros H. cbn [skip_ws]. now rewrite H. Qed.
Lemma skip_ws_nil_blank s : skip_ws s = [] -> blank s.
Proof. destruct (skip_ws_split s) as (w & E & B). intros X. rewrite X, app_nil_r in E. now subst. Qed.
Lemma strip_iff lit : forall s r, strip lit s = Some r <-> s = lit ++ r.
Proof.
  induction lit as [|a l IH]; intros s r; cbn [strip app]; [split; congruence|].
  destruct s as [|c t]; [split; discriminate|]. destruct (Z.eqb_spec a c) as [->|N].
  - rewrite IH. split; congruence.
  - split; [discriminate|congruence].
Qed.
Lemma is_digit_iff c : is_digit c = true <-> 48 <= c <= 57.
Proof. unfold is_digit. rewrite andb_true_iff, !Z.leb_le. tauto. Qed.
Lemma take_digits_split s : forall d r, take_digits s = (d, r) -> s = d ++ r /\ digs d.
Proof.
  induction s as [|c t IH]; intros d r; cbn [take_digits].
  - intros E. injection E as <- <-. split; [reflexivity|constructor].
  - destruct (is_digit c) eqn:D.
    + destruct (take_digits t) as [d' r'] eqn:E'. intros E. injection E as <- <-.
      destruct (IH _ _ eq_refl) as [-> G]. split; [reflexivity|]. constructor; [now apply is_digit_iff|exact G].
    + intros E. injection E as <- <-. split; [reflexivity|constructor].
Qed.
Lemma decimal_num s : digs s -> decimal s (num_of s).
Proof.
  induction s as [|c s IH] using rev_ind; intros H; [constructor|].
  apply Forall_app in H as [H1 H2]. inversion H2; subst. rewrite num_of_app.
  replace (num_of s * 10) with (10 * num_of s) by ring. apply dec_snoc; auto.
Qed.
Lemma decimal_fun s n : decimal s n -> n = num_of s /\ digs s.
Proof.
  induction 1 as [|s n c _ [-> D] Hc]; [split; [reflexivity|constructor]|].
  rewrite num_of_app. split; [ring|]. apply Forall_app. split; [exact D|]. constructor; [exact Hc|constructor].
Qed.

(** ** Numbers *)
Definition frac_opt (s : list Z) := s = [] \/ json_frac s.
Definition exp_opt (s : list Z) := s = [] \/ json_exp s.
Lemma parse_frac_sound s b r : parse_frac s = Some (b, r) ->
  exists fr, s = fr ++ r /\ ((b = false /\ fr = []) \/ (b = true /\ json_frac fr)).
Proof.
  unfold parse_frac. destruct s as [|c t].
  - intros E. injection E as <- <-. exists []. auto.
  - destruct (Z.eqb_spec c 46) as [->|N].
    + destruct (take_digits t) as [d r'] eqn:T. apply take_digits_split in T as [-> D].
      destruct d as [|d0 d]; [discriminate|]. intros E. injection E as <- <-.
      exists (46 :: d0 :: d). split; [reflexivity|]. right. split; [reflexivity|].
      exists (d0 :: d). split; [reflexivity|]. split; [discriminate|exact D].
    + intros E. injection E as <- <-. exists []. auto.
Qed.
Lemma parse_exp_sound s b r : parse_exp s = Some (b, r) ->
  exists ex, s = ex ++ r /\ ((b = false /\ ex = []) \/ (b = true /\ json_exp ex)).
Proof.
  unfold parse_exp. destruct s as [|c t].
  - intros E. injection E as <- <-. exists []. auto.
  - destruct ((c =? 101) || (c =? 69)) eqn:C.
    + apply orb_true_iff in C. rewrite !Z.eqb_eq in C.
      assert (S : exists sign u, t = sign ++ u /\ (sign = [] \/ sign = [43] \/ sign = [45]) /\
        match t with [] => t | x :: u => if (x =? 43) || (x =? 45) then u else t end = u).
      { destruct t as [|x u]; [exists [], []; auto|]. destruct ((x =? 43) || (x =? 45)) eqn:X.
        - apply orb_true_iff in X. rewrite !Z.eqb_eq in X. exists [x], u. split; [reflexivity|]. split; [|reflexivity].
          destruct X as [-> | ->]; auto.
        - exists [], (x :: u). auto. }
      destruct S as (sign & u & -> & Sg & ->).
      destruct (take_digits u) as [d r'] eqn:T. apply take_digits_split in T as [-> D].
      destruct d as [|d0 d]; [discriminate|]. intros E. injection E as <- <-.
      exists (c :: sign ++ d0 :: d). split; [cbn [app]; now rewrite <- app_assoc|]. right. split; [reflexivity|].
      exists c, sign, (d0 :: d). split; [reflexivity|]. split; [exact C|]. split; [exact Sg|].
      split; [discriminate|exact D].
    + intros E. injection E as <- <-. exists []. auto.
Qed.
Lemma parse_num_sound s v r : parse_num s = Some (v, r) -> exists t, s = t ++ r /\ json_number t v.
Proof.
  unfold parse_num.
  assert (S : exists neg sign u, s = sign ++ u /\ ((neg = false /\ sign = []) \/ (neg = true /\ sign = [45])) /\
    match s with [] => (false, s) | c :: t => if c =? 45 then (true, t) else (false, s) end = (neg, u)).
  { destruct s as [|c t]; [exists false, [], []; auto|]. destruct (Z.eqb_spec c 45) as [->|N].
    - exists true, [45], t. auto.
    - exists false, [], (c :: t). auto. }
  destruct S as (neg & sign & u & -> & Sg & ->).
  destruct (take_digits u) as [d r1] eqn:T. apply take_digits_split in T as [-> D].
  destruct d as [|d0 dt]; [discriminate|].
  destruct ((d0 =? 48) && _) eqn:Z0; [discriminate|].
  assert (I : json_int (d0 :: dt)).
  { inversion D as [|? ? H0 H1]; subst. destruct (Z.eqb_spec d0 48) as [->|N].
    - destruct dt; [left; reflexivity|discriminate].
    - right. exists d0, dt. split; [reflexivity|]. split; [lia|exact H1]. }
  destruct (parse_frac r1) as [[fb r2]|] eqn:F; [|discriminate]. apply parse_frac_sound in F as (fr & -> & F).
  destruct (parse_exp r2) as [[eb r3]|] eqn:X; [|discriminate]. apply parse_exp_sound in X as (ex & -> & X).
  intros E. assert (r3 = r) by congruence. subst r3.
  exists (sign ++ (d0 :: dt) ++ fr ++ ex). split; [now rewrite <- !app_assoc|].
  assert (V : v = if neg || fb || eb then JFloat else JInt (num_of (d0 :: dt))) by congruence. subst v.
  destruct Sg as [[-> ->]|[-> ->]]; destruct F as [[-> ->]|[-> F]]; destruct X as [[-> ->]|[-> X]]; cbn [orb].
  { cbn [app]. rewrite app_nil_r. apply n_int; [exact I|]. now apply decimal_num. }
  all: apply n_other; auto;
    first [ discriminate
          | intros Q; apply app_eq_nil in Q as [Q1 Q2]; apply app_eq_nil in Q2 as [Q2 Q3]; subst;
            repeat match goal with
            | H : json_frac [] |- _ => destruct H as (? & ? & ?); discriminate
            | H : json_exp [] |- _ => destruct H as (? & ? & ? & ? & ?); discriminate
            end ].
Qed.
Lemma json_int_digs s : json_int s -> digs s /\ exists d0 dt, s = d0 :: dt /\ (d0 = 48 -> dt = []) /\ 48 <= d0 <= 57.
Proof.
  intros [->|(c & t & -> & H & F)].
  - split; [constructor; [lia|constructor]|]. exists 48, []. repeat split; auto; lia.
  - split; [constructor; [lia|exact F]|]. exists c, t. repeat split; try lia.
Qed.
Lemma take_digits_stop d rest : digs d -> match rest with [] => True | c :: _ => is_digit c = false end ->
  take_digits (d ++ rest) = (d, rest).
Proof.
  intros H S. induction H as [|c d Hc _ IH]; cbn [app].
  - destruct rest as [|c t]; [reflexivity|]. cbn [take_digits]. rewrite S. reflexivity.
  - cbn [take_digits]. rewrite is_digit_true by auto. now rewrite IH.
Qed.
Lemma stops_head r : stops r -> match r with [] => True | c :: _ => is_digit c = false end.
Proof. destruct r; [auto|]. intros [H _]. exact H. Qed.
Lemma parse_exp_complete ex r : exp_opt ex -> stops r ->
  parse_exp (ex ++ r) = Some (match ex with [] => false | _ => true end, r).
Proof.
  intros [->|(e & sign & t & -> & He & Hs & Hn & Hd)] S; [now apply stops_exp|].
  cbn [app]. unfold parse_exp.
  replace ((e =? 101) || (e =? 69)) with true by (destruct He as [-> | ->]; reflexivity).
  rewrite <- app_assoc.
  assert (T : match sign ++ t ++ r with [] => sign ++ t ++ r
    | x :: u => if (x =? 43) || (x =? 45) then u else sign ++ t ++ r end = t ++ r).
  { destruct Hs as [-> | [-> | ->]]; cbn [app]; [|reflexivity|reflexivity].
    destruct t as [|x u]; [congruence|]. cbn [app]. inversion Hd; subst.
    destruct (Z.eqb_spec x 43), (Z.eqb_spec x 45); try lia. reflexivity. }
  rewrite T, take_digits_stop by (auto; now apply stops_head). destruct t; [congruence|reflexivity].
Qed.
Lemma exp_opt_head ex r : exp_opt ex -> stops r ->
  match ex ++ r with [] => True | c :: _ => is_digit c = false /\ c <> 46 end.
Proof.
  intros [->|(e & sign & t & -> & He & Hs & Hn & Hd)] S; cbn [app].
  - destruct r; [auto|]. destruct S as (A & B & _). auto.
  - destruct He as [-> | ->]; split; try reflexivity; discriminate.
Qed.
Lemma parse_frac_complete fr x : frac_opt fr -> match x with [] => True | c :: _ => is_digit c = false /\ c <> 46 end ->
  parse_frac (fr ++ x) = Some (match fr with [] => false | _ => true end, x).
Proof.
  intros [->|(t & -> & Hn & Hd)] S; cbn [app].
  - destruct x as [|c x]; [reflexivity|]. cbn [parse_frac]. destruct (Z.eqb_spec c 46); [tauto|reflexivity].
  - cbn [parse_frac Z.eqb Pos.eqb]. rewrite take_digits_stop; [|exact Hd|destruct x; tauto].
    destruct t; [congruence|reflexivity].
Qed.
Lemma frac_opt_head fr x : frac_opt fr -> match x with [] => True | c :: _ => is_digit c = false /\ c <> 46 end ->
  match fr ++ x with [] => True | c :: _ => is_digit c = false end.
Proof. intros [->|(t & -> & _)] S; cbn [app]; [destruct x; tauto|reflexivity]. Qed.
Lemma parse_num_gen sign s fr ex r : (sign = [] \/ sign = [45]) -> json_int s -> frac_opt fr -> exp_opt ex -> stops r ->
  parse_num (sign ++ s ++ fr ++ ex ++ r) =
  Some (match sign ++ fr ++ ex with [] => JInt (num_of s) | _ => JFloat end, r).
Proof.
  intros Hs Hi Hf He S. destruct (json_int_digs _ Hi) as (D & d0 & dt & E & Z0 & R0).
  pose proof (exp_opt_head _ _ He S) as H1. pose proof (frac_opt_head _ _ Hf H1) as H2.
  assert (P : parse_num (s ++ fr ++ ex ++ r) = Some (match fr ++ ex with [] => JInt (num_of s) | _ => JFloat end, r)
   /\ parse_num (45 :: s ++ fr ++ ex ++ r) = Some (JFloat, r)).
  { assert (Q : forall x, d0 :: x = d0 :: x) by reflexivity. 
    unfold parse_num. rewrite E at 1. cbn [app Z.eqb Pos.eqb]. destruct (Z.eqb_spec d0 45); [lia|].
    rewrite take_digits_stop by auto. rewrite E. cbv iota beta.
    replace ((d0 =? 48) && negb match dt with [] => true | _ => false end) with false.
    2:{ destruct (Z.eqb_spec d0 48) as [->|]; [rewrite Z0 by auto; reflexivity|reflexivity]. }
    rewrite parse_frac_complete, parse_exp_complete by auto. rewrite <- E. clear.
    split; destruct fr, ex; reflexivity. }
  destruct Hs as [-> | ->]; [apply P|]. cbn [app]. apply P.
Qed.
Lemma parse_num_complete t v r : json_number t v -> stops r -> parse_num (t ++ r) = Some (v, r).
Proof.
  intros [s n I D|sign s fr ex Hs I F X N] S.
  - apply decimal_fun in D as [-> _].
    pose proof (parse_num_gen [] s [] [] r (or_introl eq_refl) I (or_introl eq_refl) (or_introl eq_refl) S) as P. exact P.
  - rewrite <- !app_assoc. rewrite parse_num_gen by auto.
    destruct (sign ++ fr ++ ex); [congruence|reflexivity].
Qed.
Lemma json_number_head t v : json_number t v -> exists c u, t = c :: u /\ (c = 45 \/ 48 <= c <= 57).
Proof.
  intros [s n I D|sign s fr ex Hs I F X N].
  - destruct (json_int_digs _ I) as (_ & d0 & dt & -> & _ & R). eauto.
  - destruct (json_int_digs _ I) as (_ & d0 & dt & -> & _ & R). destruct Hs as [-> | ->]; cbn [app]; eauto.
Qed.

(** ** Strings *)
Lemma hex_val_iff c v : hex_val c = Some v <-> hex_digit_value c v.
Proof.
  unfold hex_val, is_digit. split.
  - destruct (Z.leb_spec 48 c), (Z.leb_spec c 57), (Z.leb_spec 97 c), (Z.leb_spec c 102), (Z.leb_spec 65 c), (Z.leb_spec c 70);
      cbn [andb]; try lia; intros E; try discriminate E; injection E as <-.
    all: first [ replace c with (48 + (c - 48)) at 1 by lia; apply hx_09; lia
               | replace c with (97 + (c - 87 - 10)) at 1 by lia; apply hx_af; lia
               | replace c with (65 + (c - 55 - 10)) at 1 by lia; apply hx_AF; lia ].
  - intros [w H|w H|w H];
    repeat match goal with |- context[?a <=? ?b] => destruct (Z.leb_spec a b); try lia end; cbn [andb]; f_equal; lia.
Qed.
Lemma hex4_iff s n t : hex4 s = Some (n, t) <-> exists h, s = h ++ t /\ hex_quad h n.
Proof.
  split.
  - destruct s as [|a [|b [|c [|d u]]]]; try discriminate. cbn [hex4].
    destruct (hex_val a) as [x|] eqn:A, (hex_val b) as [y|] eqn:B, (hex_val c) as [z|] eqn:C, (hex_val d) as [w|] eqn:D;
      try discriminate.
    intros E. injection E as <- <-. apply hex_val_iff in A, B, C, D. exists [a; b; c; d]. split; [reflexivity|].
    exists a, b, c, d, x, y, z, w. repeat split; auto; ring.
  - intros (h & -> & a & b & c & d & x & y & z & w & -> & A & B & C & D & ->).
    apply hex_val_iff in A, B, C, D. cbn [app hex4]. rewrite A, B, C, D. do 2 f_equal. ring.
Qed.
Lemma hex_quad_range h n : hex_quad h n -> 0 <= n < 65536 /\ length h = 4%nat.
Proof.
  assert (R : forall c v, hex_digit_value c v -> 0 <= v <= 15) by (intros c v [w H|w H|w H]; lia).
  intros (a & b & c & d & x & y & z & w & -> & A & B & C & D & ->).
  apply R in A, B, C, D. split; [lia|reflexivity].
Qed.
(** The bytes denoted by one \u escape (or pair), and the text after the first "\u". *)
Definition unicode_text (h bs : list Z) : Prop :=
  (exists n, hex_quad h n /\ utf8_char n bs) \/
  (exists h1 h2 n1 n2, h = h1 ++ 92 :: 117 :: h2 /\ hex_quad h1 n1 /\ hex_quad h2 n2 /\
    55296 <= n1 <= 56319 /\ 56320 <= n2 <= 57343 /\
    utf8_char (65536 + 1024 * (n1 - 55296) + (n2 - 56320)) bs).
Lemma unicode_escape_sound s b t : unicode_escape s = Some (b, t) -> exists h, s = h ++ t /\ unicode_text h b.
Proof.
  unfold unicode_escape. destruct (hex4 s) as [[n u]|] eqn:E; [|discriminate].
  apply hex4_iff in E as (h & -> & H). destruct (hex_quad_range _ _ H) as [R _].
  destruct (Z.leb_spec 56320 n), (Z.leb_spec n 57343); cbn [andb]; try discriminate;
    destruct (Z.leb_spec 55296 n), (Z.leb_spec n 56319); cbn [andb]; try lia.
  all: try (intros Q; injection Q as <- <-; exists h; split; [reflexivity|]; left; exists n; split; [exact H|];
       apply utf8_of_exists; lia).
  destruct (strip [92; 117] u) as [u1|] eqn:S; [|discriminate]. apply strip_iff in S as ->.
  destruct (hex4 u1) as [[n2 u2]|] eqn:E2; [|discriminate]. apply hex4_iff in E2 as (h2 & -> & HQ2).
  destruct (Z.leb_spec 56320 n2), (Z.leb_spec n2 57343); cbn [andb]; try discriminate.
  intros Q. injection Q as <- <-. exists (h ++ 92 :: 117 :: h2). split; [now rewrite <- app_assoc|].
  right. exists h, h2, n, n2. repeat split; auto; try lia.
  replace (65536 + 1024 * (n - 55296) + (n2 - 56320)) with ((n - 55296) * 1024 + (n2 - 56320) + 65536) by ring.
  apply utf8_of_exists; lia.
Qed.
Lemma unicode_escape_complete h b t : unicode_text h b -> unicode_escape (h ++ t) = Some (b, t).
Proof.
  intros [(n & H & U)|(h1 & h2 & n1 & n2 & -> & H1 & H2 & R1 & R2 & U)]; unfold unicode_escape.
  - rewrite (proj2 (hex4_iff (h ++ t) n t)) by eauto. destruct (utf8_char_range _ _ U) as [_ N].
    destruct (hex_quad_range _ _ H) as [R _].
    destruct (Z.leb_spec 56320 n), (Z.leb_spec n 57343); cbn [andb]; try lia;
    destruct (Z.leb_spec 55296 n), (Z.leb_spec n 56319); cbn [andb]; try lia; now rewrite (utf8_of_char _ _ U).
  - rewrite <- app_assoc. rewrite (proj2 (hex4_iff (h1 ++ _) n1 ((92 :: 117 :: h2) ++ t))) by eauto.
    destruct (Z.leb_spec 56320 n1); [lia|]. cbn [andb].
    destruct (Z.leb_spec 55296 n1), (Z.leb_spec n1 56319); cbn [andb]; try lia.
    cbn [app strip Z.eqb Pos.eqb]. rewrite (proj2 (hex4_iff (h2 ++ t) n2 t)) by eauto.
    destruct (Z.leb_spec 56320 n2), (Z.leb_spec n2 57343); cbn [andb]; try lia.
    replace ((n1 - 55296) * 1024 + (n2 - 56320) + 65536) with (65536 + 1024 * (n1 - 55296) + (n2 - 56320)) by ring.
    now rewrite (utf8_of_char _ _ U).
Qed.
Lemma json_chars_unicode h b t d : unicode_text h b -> json_chars t d -> json_chars (92 :: 117 :: h ++ t) (b ++ d).
Proof.
  intros [(n & H & U)|(h1 & h2 & n1 & n2 & -> & H1 & H2 & R1 & R2 & U)] C; [eapply c_unicode; eauto|].
  rewrite <- app_assoc. cbn [app]. eapply c_pair; eauto.
Qed.
Lemma simple_escape_iff e b : simple_escape e = Some b <-> In (e, b) short_escapes.
Proof.
  unfold simple_escape, short_escapes. cbn [In]. split.
  - repeat match goal with |- context[?x =? ?y] => destruct (Z.eqb_spec x y) as [->|] end;
      intros E; try discriminate E; injection E as <-; tauto.
  - intros H. repeat (destruct H as [H|H]; [injection H as <- <-; reflexivity|]). destruct H.
Qed.
Lemma parse_str_sound f : forall s d r, parse_str f s = Some (d, r) -> exists k, s = k ++ 34 :: r /\ json_chars k d.
Proof.
  induction f as [|f IH]; intros s d r; cbn [parse_str]; [discriminate|].
  destruct s as [|c t]; [discriminate|]. destruct (Z.eqb_spec c 34) as [->|N].
  { intros E. injection E as <- <-. exists []. split; [reflexivity|constructor]. }
  destruct (Z.eqb_spec c 92) as [->|N2].
  - destruct t as [|e u]; [discriminate|]. destruct (Z.eqb_spec e 117) as [->|N3].
    + destruct (unicode_escape u) as [[b u']|] eqn:U; [|discriminate].
      apply unicode_escape_sound in U as (h & -> & U).
      destruct (parse_str f u') as [[l r']|] eqn:P; [|discriminate]. intros E. injection E as <- <-.
      destruct (IH _ _ _ P) as (k & -> & K). exists (92 :: 117 :: h ++ k).
      split; [cbn [app]; now rewrite <- app_assoc|]. now apply json_chars_unicode.
    + destruct (simple_escape e) as [b|] eqn:S; [|discriminate]. apply simple_escape_iff in S.
      destruct (parse_str f u) as [[l r']|] eqn:P; [|discriminate]. intros E. injection E as <- <-.
      destruct (IH _ _ _ P) as (k & -> & K). exists (92 :: e :: k). split; [reflexivity|]. now apply c_short.
  - destruct (Z.ltb_spec c 32) as [L|L]; [discriminate|].
    destruct (parse_str f t) as [[l r']|] eqn:P; [|discriminate]. intros E. injection E as <- <-.
    destruct (IH _ _ _ P) as (k & -> & K). exists (c :: k). split; [reflexivity|]. now apply c_plain.
Qed.
Lemma parse_str_complete k d : json_chars k d -> forall f r, (length k < f)%nat ->
  parse_str f (k ++ 34 :: r) = Some (d, r).
Proof.
  assert (UC : forall h bs t d f r, unicode_text h bs ->
    (forall f r, (length t < f)%nat -> parse_str f (t ++ 34 :: r) = Some (d, r)) ->
    (length (92%Z :: 117%Z :: h ++ t) < f)%nat ->
    parse_str f ((92 :: 117 :: h ++ t) ++ 34 :: r) = Some (bs ++ d, r)).
  { intros h bs t d0 f r U IH L. destruct f as [|f]; [cbn [length] in L; lia|].
    cbn [length] in L. rewrite app_length in L. cbn [app parse_str Z.eqb Pos.eqb].
    rewrite <- app_assoc, (unicode_escape_complete _ _ _ U), IH by lia. reflexivity. }
  induction 1 as [|c t d H1 H2 H3 _ IH|e b t d I _ IH|h n bs t d H U _ IH|h1 h2 n1 n2 bs t d H1 H2 R1 R2 U _ IH]; intros f r L.
  - destruct f; [cbn in L; lia|]. reflexivity.
  - destruct f; [cbn in L; lia|]. cbn [app parse_str]. destruct (Z.eqb_spec c 34); [lia|].
    destruct (Z.eqb_spec c 92); [lia|]. destruct (Z.ltb_spec c 32); [lia|]. rewrite IH by (cbn [length] in L; lia). reflexivity.
  - destruct f; [cbn in L; lia|]. cbn [app parse_str Z.eqb Pos.eqb].
    assert (NE : e <> 117) by (intros ->; cbn [In short_escapes] in I; repeat (destruct I as [I|I]; [discriminate I|]); destruct I).
    destruct (Z.eqb_spec e 117); [congruence|]. rewrite (proj2 (simple_escape_iff e b) I).
    rewrite IH by (cbn [length] in L; lia). reflexivity.
  - apply UC; auto. left. eauto.
  - replace (92 :: 117 :: h1 ++ 92 :: 117 :: h2 ++ t) with (92 :: 117 :: (h1 ++ 92 :: 117 :: h2) ++ t) in *
      by (rewrite <- app_assoc; reflexivity).
    apply UC; auto. right. exists h1, h2, n1, n2. auto 6.
Qed.

(** ** Values *)
Scheme json_value_mut := Induction for json_value Sort Prop
with json_items_mut := Induction for json_items Sort Prop
with json_members_mut := Induction for json_members Sort Prop.
Combined Scheme json_mutind from json_value_mut, json_items_mut, json_members_mut.

Lemma parse_sound f :
  (forall s v r, parse_value f s = Some (v, r) -> exists w t, s = w ++ t ++ r /\ blank w /\ json_value t v) /\
  (forall s l r, parse_items f s = Some (l, r) -> exists t, s = t ++ 93 :: r /\ json_items t l) /\
  (forall s l r, parse_members f s = Some (l, r) -> exists t, s = t ++ 125 :: r /\ json_members t l).
Proof.
  induction f as [|f (IV & II & IM)]; [repeat split; discriminate|]. split; [|split].
  - intros s v r. cbn [parse_value]. destruct (skip_ws_split s) as (w & E & B).
    destruct (skip_ws s) as [|c t] eqn:Es; [discriminate|]. clear Es.
    destruct (Z.eqb_spec c 34) as [->|N1].
    { destruct (parse_str f t) as [[b r']|] eqn:P; [|discriminate]. intros Q. injection Q as <- <-.
      apply parse_str_sound in P as (k & -> & K). exists w, (34 :: k ++ [34]).
      split; [rewrite E; cbn [app]; now rewrite <- app_assoc|]. split; [exact B|]. now apply v_str. }
    destruct (Z.eqb_spec c 91) as [->|N2].
    { destruct (skip_ws_split t) as (w' & E' & B'). destruct (strip [93] (skip_ws t)) as [r'|] eqn:S.
      - apply strip_iff in S. rewrite S in E'. intros Q. injection Q as <- <-. exists w, (91 :: w' ++ [93]).
        split; [rewrite E, E'; cbn [app]; now rewrite <- app_assoc|]. split; [exact B|]. now apply v_arr0.
      - destruct (parse_items f t) as [[l r']|] eqn:P; [|discriminate]. intros Q. injection Q as <- <-.
        apply II in P as (k & -> & K). exists w, (91 :: k ++ [93]).
        split; [rewrite E; cbn [app]; now rewrite <- app_assoc|]. split; [exact B|]. now apply v_arr. }
    destruct (Z.eqb_spec c 123) as [->|N3].
    { destruct (skip_ws_split t) as (w' & E' & B'). destruct (strip [125] (skip_ws t)) as [r'|] eqn:S.
      - apply strip_iff in S. rewrite S in E'. intros Q. injection Q as <- <-. exists w, (123 :: w' ++ [125]).
        split; [rewrite E, E'; cbn [app]; now rewrite <- app_assoc|]. split; [exact B|]. now apply v_obj0.
      - destruct (parse_members f t) as [[l r']|] eqn:P; [|discriminate]. intros Q. injection Q as <- <-.
        apply IM in P as (k & -> & K). exists w, (123 :: k ++ [125]).
        split; [rewrite E; cbn [app]; now rewrite <- app_assoc|]. split; [exact B|]. now apply v_obj. }
    destruct (Z.eqb_spec c 110) as [->|N4].
    { destruct (strip _ t) as [r'|] eqn:S; [|discriminate]. apply strip_iff in S. intros Q. injection Q as <- <-.
      exists w, (bytes_of "null"). split; [rewrite E, S; reflexivity|]. split; [exact B|]. apply v_null. }
    destruct (Z.eqb_spec c 116) as [->|N5].
    { destruct (strip _ t) as [r'|] eqn:S; [|discriminate]. apply strip_iff in S. intros Q. injection Q as <- <-.
      exists w, (bytes_of "true"). split; [rewrite E, S; reflexivity|]. split; [exact B|]. apply v_true. }
    destruct (Z.eqb_spec c 102) as [->|N6].
    { destruct (strip _ t) as [r'|] eqn:S; [|discriminate]. apply strip_iff in S. intros Q. injection Q as <- <-.
      exists w, (bytes_of "false"). split; [rewrite E, S; reflexivity|]. split; [exact B|]. apply v_false. }
    intros P. apply parse_num_sound in P as (k & Ek & K). exists w, k. split; [rewrite E, Ek; reflexivity|].
    split; [exact B|]. now apply v_num.
  - intros s l r. cbn [parse_items]. destruct (parse_value f s) as [[v r1]|] eqn:P; [|discriminate].
    apply IV in P as (w & t & -> & B & V). destruct (skip_ws_split r1) as (w2 & E2 & B2).
    destruct (skip_ws r1) as [|c u] eqn:Es; [discriminate|]. clear Es. rewrite E2. destruct (Z.eqb_spec c 44) as [->|N].
    + destruct (parse_items f u) as [[l' r']|] eqn:P; [|discriminate]. intros Q. injection Q as <- <-.
      apply II in P as (k & -> & K). exists (w ++ t ++ w2 ++ 44 :: k). split; [now rewrite <- !app_assoc|]. now apply i_more.
    + destruct (Z.eqb_spec c 93) as [->|N']; [|discriminate]. intros Q. injection Q as <- <-.
      exists (w ++ t ++ w2). split; [now rewrite <- !app_assoc|]. now apply i_one.
  - intros s l r. cbn [parse_members]. destruct (skip_ws_split s) as (w0 & E0 & B0).
    destruct (strip [34] (skip_ws s)) as [t|] eqn:S; [|discriminate]. apply strip_iff in S. rewrite S in E0. clear S. subst s.
    destruct (parse_str f t) as [[d r1]|] eqn:P; [|discriminate]. apply parse_str_sound in P as (k & -> & K).
    destruct (skip_ws_split r1) as (w1 & E1 & B1).
    destruct (strip [58] (skip_ws r1)) as [t1|] eqn:S; [|discriminate]. apply strip_iff in S. rewrite S in E1. clear S. subst r1.
    destruct (parse_value f t1) as [[v r2]|] eqn:P; [|discriminate]. apply IV in P as (w2 & t & -> & B2 & V).
    destruct (skip_ws_split r2) as (w3 & E3 & B3).
    destruct (skip_ws r2) as [|c u] eqn:Es; [discriminate|]. clear Es. subst r2. destruct (Z.eqb_spec c 44) as [->|N].
    + destruct (parse_members f u) as [[l' r']|] eqn:P; [|discriminate]. intros Q. injection Q as <- <-.
      apply IM in P as (k' & -> & K'). exists (w0 ++ (34 :: k ++ [34]) ++ w1 ++ 58 :: w2 ++ t ++ w3 ++ 44 :: k').
      split; [|now apply m_more]. repeat (cbn [app]; rewrite <- app_assoc). reflexivity.
    + destruct (Z.eqb_spec c 125) as [->|N']; [|discriminate]. intros Q. injection Q as <- <-.
      exists (w0 ++ (34 :: k ++ [34]) ++ w1 ++ 58 :: w2 ++ t ++ w3).
      split; [|now apply m_one]. repeat (cbn [app]; rewrite <- app_assoc). reflexivity.
Qed.

Definition head_ok (t : list Z) : Prop := exists c u, t = c :: u /\ is_ws c = false /\ c <> 93 /\ c <> 125.
Lemma json_value_head t v : json_value t v -> head_ok t.
Proof.
  intros H; destruct H; try (eexists; eexists; split; [reflexivity|]; repeat split; try reflexivity; discriminate).
  apply json_number_head in H as (c & u & -> & R). exists c, u. split; [reflexivity|]. split; [|lia].
  destruct (is_ws c) eqn:W; [|reflexivity]. apply is_ws_iff in W. lia.
Qed.
Lemma stops_blank w c r : blank w -> c = 44 \/ c = 93 \/ c = 125 -> stops (w ++ c :: r).
Proof.
  intros [|x w' H _] Hc; cbn [app stops]; unfold is_digit.
  - repeat split; try lia; destruct Hc as [-> | [-> | ->]]; reflexivity.
  - repeat split; try lia; destruct H as [-> | [-> | [-> | ->]]]; reflexivity.
Qed.
Lemma skip_head w t r : blank w -> head_ok t -> exists c u, t = c :: u /\ skip_ws (w ++ t ++ r) = c :: u ++ r /\ c <> 93 /\ c <> 125.
Proof.
  intros B (c & u & -> & W & N1 & N2). exists c, u. split; [reflexivity|]. split; [|auto].
  rewrite skip_ws_blank by auto. cbn [app]. now apply skip_ws_stop.
Qed.
Lemma strip_skip_none x c u : c <> x -> strip [x] (c :: u) = None.
Proof. intros N. cbn [strip]. destruct (Z.eqb_spec x c); [congruence|reflexivity]. Qed.

Lemma json_items_head s l : json_items s l -> exists w t r, s = w ++ t ++ r /\ blank w /\ head_ok t.
Proof. intros H; destruct H; [exists w1, s, w2|exists w1, s, (w2 ++ 44 :: t)]; repeat split; auto; now apply json_value_head in H0. Qed.
Lemma json_members_head s l : json_members s l -> exists w r, s = w ++ 34 :: r /\ blank w.
Proof. intros H; destruct H; exists w0; eexists; (split; [cbn [app]; reflexivity|auto]). Qed.

Lemma parse_complete :
  (forall t v, json_value t v -> forall w r f, blank w -> stops r -> (2 * length t <= f)%nat ->
     parse_value f (w ++ t ++ r) = Some (v, r)) /\
  (forall t l, json_items t l -> forall r f, (2 * length t + 1 <= f)%nat ->
     parse_items f (t ++ 93 :: r) = Some (l, r)) /\
  (forall t l, json_members t l -> forall r f, (2 * length t + 1 <= f)%nat ->
     parse_members f (t ++ 125 :: r) = Some (l, r)).
Proof.
  apply json_mutind.
  - intros w r f B S L. destruct f; [cbn in L; lia|]. cbn [parse_value]. rewrite skip_ws_blank by auto. reflexivity.
  - intros w r f B S L. destruct f; [cbn in L; lia|]. cbn [parse_value]. rewrite skip_ws_blank by auto. reflexivity.
  - intros w r f B S L. destruct f; [cbn in L; lia|]. cbn [parse_value]. rewrite skip_ws_blank by auto. reflexivity.
  - intros s v H w r f B S L. pose proof (json_number_head _ _ H) as (c & u & E & R).
    destruct f; [rewrite E in L; cbn in L; lia|]. cbn [parse_value]. rewrite skip_ws_blank by auto.
    rewrite E. cbn [app]. rewrite skip_ws_stop.
    2:{ destruct (is_ws c) eqn:W; [|reflexivity]. apply is_ws_iff in W. lia. }
    destruct (Z.eqb_spec c 34); [lia|]. destruct (Z.eqb_spec c 91); [lia|]. destruct (Z.eqb_spec c 123); [lia|].
    destruct (Z.eqb_spec c 110); [lia|]. destruct (Z.eqb_spec c 116); [lia|]. destruct (Z.eqb_spec c 102); [lia|].
    change (c :: u ++ r) with ((c :: u) ++ r). rewrite <- E. now apply parse_num_complete.
  - intros s d H w r f B S L. cbn [length] in L. rewrite app_length in L. cbn [length] in L.
    destruct f; [lia|]. cbn [parse_value]. rewrite skip_ws_blank by auto. cbn [app]. rewrite skip_ws_stop by reflexivity.
    cbn [Z.eqb Pos.eqb]. rewrite <- app_assoc. cbn [app]. rewrite (parse_str_complete _ _ H) by lia. reflexivity.
  - intros w' H w r f B S L. destruct f; [cbn in L; lia|]. cbn [parse_value]. rewrite skip_ws_blank by auto. cbn [app].
    rewrite skip_ws_stop by reflexivity. cbn [Z.eqb Pos.eqb]. rewrite <- app_assoc, skip_ws_blank by auto. reflexivity.
  - intros s l H IH w r f B S L. cbn [length] in L. rewrite app_length in L. cbn [length] in L.
    destruct f; [lia|]. cbn [parse_value]. rewrite skip_ws_blank by auto. cbn [app]. rewrite skip_ws_stop by reflexivity.
    cbn [Z.eqb Pos.eqb]. rewrite <- app_assoc. cbn [app].
    destruct (json_items_head _ _ H) as (w' & t' & r' & E & B' & H').
    assert (X : strip [93] (skip_ws (s ++ 93 :: r)) = None).
    { rewrite E, <- !app_assoc. destruct (skip_head w' t' (r' ++ 93 :: r) B' H') as (c & u & _ & -> & N1 & N2).
      now apply strip_skip_none. }
    rewrite X, IH by lia. reflexivity.
  - intros w' H w r f B S L. destruct f; [cbn in L; lia|]. cbn [parse_value]. rewrite skip_ws_blank by auto. cbn [app].
    rewrite skip_ws_stop by reflexivity. cbn [Z.eqb Pos.eqb]. rewrite <- app_assoc, skip_ws_blank by auto. reflexivity.
  - intros s l H IH w r f B S L. cbn [length] in L. rewrite app_length in L. cbn [length] in L.
    destruct f; [lia|]. cbn [parse_value]. rewrite skip_ws_blank by auto. cbn [app]. rewrite skip_ws_stop by reflexivity.
    cbn [Z.eqb Pos.eqb]. rewrite <- app_assoc. cbn [app].
    destruct (json_members_head _ _ H) as (w' & r' & E & B').
    assert (X : strip [125] (skip_ws (s ++ 125 :: r)) = None).
    { rewrite E, <- !app_assoc, skip_ws_blank by auto. reflexivity. }
    rewrite X, IH by lia. reflexivity.
  - intros w1 s w2 v B1 H IH B2 r f L. rewrite !app_length in L. destruct f; [lia|]. cbn [parse_items].
    rewrite <- !app_assoc. rewrite IH; [|auto|apply stops_blank; auto|lia].
    rewrite skip_ws_blank by auto. reflexivity.
  - intros w1 s w2 v t l B1 H IH B2 Ht IHt r f L. rewrite !app_length in L. cbn [length] in L.
    destruct f; [lia|]. cbn [parse_items].
    rewrite <- !app_assoc. cbn [app]. rewrite IH; [|auto|apply stops_blank; auto|lia].
    rewrite skip_ws_blank by auto. cbn [skip_ws is_ws orb Z.eqb Pos.eqb]. rewrite IHt by lia. reflexivity.
  - intros w0 k d w1 w2 s w3 v B0 K B1 B2 H IH B3 r f L.
    rewrite !app_length in L. cbn [length] in L. rewrite !app_length in L. cbn [length] in L.
    destruct f; [lia|]. cbn [parse_members]. rewrite <- !app_assoc, skip_ws_blank by auto.
    cbn [app skip_ws is_ws orb Z.eqb Pos.eqb strip]. rewrite <- ?app_assoc. cbn [app].
    rewrite (parse_str_complete _ _ K) by lia. rewrite <- ?app_assoc, skip_ws_blank by auto.
    cbn [app skip_ws is_ws orb Z.eqb Pos.eqb strip]. rewrite <- ?app_assoc.
    rewrite IH; [|auto|apply stops_blank; auto|lia].
    rewrite skip_ws_blank by auto. reflexivity.
  - intros w0 k d w1 w2 s w3 v t l B0 K B1 B2 H IH B3 Ht IHt r f L.
    rewrite !app_length in L. cbn [length] in L. rewrite !app_length in L. cbn [length] in L. rewrite ?app_length in L. cbn [length] in L.
    destruct f; [lia|]. cbn [parse_members]. rewrite <- !app_assoc, skip_ws_blank by auto.
    cbn [app skip_ws is_ws orb Z.eqb Pos.eqb strip]. rewrite <- ?app_assoc. cbn [app].
    rewrite (parse_str_complete _ _ K) by lia. rewrite <- ?app_assoc, skip_ws_blank by auto.
    cbn [app skip_ws is_ws orb Z.eqb Pos.eqb strip]. rewrite <- ?app_assoc. cbn [app].
    rewrite IH; [|auto|apply stops_blank; auto|lia].
    rewrite skip_ws_blank by auto. cbn [skip_ws is_ws orb Z.eqb Pos.eqb]. rewrite IHt by lia. reflexivity.
Qed.

Lemma stops_blank_end w : blank w -> stops w.
Proof.
  intros [|x w' H _]; cbn [stops]; [exact I|]. unfold is_digit.
  repeat split; try lia; destruct H as [-> | [-> | [-> | ->]]]; reflexivity.
Qed.
Lemma parse_text_iff s v : parse_text s = Some v <-> json_document s v.
Proof.
  unfold parse_text. split.
  - destruct (parse_value (2 * length s + 2) s) as [[v' r]|] eqn:P; [|discriminate].
    apply (proj1 (parse_sound _)) in P as (w & t & -> & B & V).
    destruct (skip_ws r) eqn:E; [|discriminate]. intros Q. injection Q as <-.
    exists w, t, r. split; [reflexivity|]. split; [exact B|]. split; [exact V|]. now apply skip_ws_nil_blank.
  - intros (w1 & t & w2 & -> & B1 & V & B2).
    rewrite (proj1 parse_complete t v V w1 w2); auto; [|now apply stops_blank_end|rewrite !app_length; lia].
    rewrite <- (app_nil_r w2), skip_ws_blank by auto. reflexivity.
Qed.
Lemma json_document_fun s v v' : json_document s v -> json_document s v' -> v = v'.
Proof. rewrite <- !parse_text_iff. congruence. Qed.
