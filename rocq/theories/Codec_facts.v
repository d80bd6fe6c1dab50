(** Lemmas about Base64.v and Bincode.v. *)
From Verif Require Import Base Base_facts Base64 Bincode Spec.
From Coq Require Import ZifyBool ZifyNat.
Local Open Scope Z_scope.
Ltac Zify.zify_post_hook ::= Z.div_mod_to_equations.

(** ** Base64 *)
Lemma b64_val_sym v : 0 <= v < 64 -> b64_val (b64_sym v) = Some v.
Proof.
  intros H. unfold b64_sym.
  destruct (Z.ltb_spec v 26); [|destruct (Z.ltb_spec v 52); [|destruct (Z.ltb_spec v 62);
    [|destruct (Z.eqb_spec v 62)]]]; unfold b64_val.
  - replace ((65 <=? 65 + v) && (65 + v <=? 90)) with true by lia. f_equal; lia.
  - replace ((65 <=? 97 + (v - 26)) && (97 + (v - 26) <=? 90)) with false by lia.
    replace ((97 <=? 97 + (v - 26)) && (97 + (v - 26) <=? 122)) with true by lia. f_equal; lia.
  - replace ((65 <=? 48 + (v - 52)) && (48 + (v - 52) <=? 90)) with false by lia.
    replace ((97 <=? 48 + (v - 52)) && (48 + (v - 52) <=? 122)) with false by lia.
    replace ((48 <=? 48 + (v - 52)) && (48 + (v - 52) <=? 57)) with true by lia. f_equal; lia.
  - subst; reflexivity.
  - replace v with 63 by lia. reflexivity.
Qed.

Lemma b64_sym_not_pad v : 0 <= v < 64 -> (b64_sym v =? b64_pad) = false.
Proof.
  intros H. unfold b64_sym, b64_pad. apply Z.eqb_neq.
  destruct (Z.ltb_spec v 26); [|destruct (Z.ltb_spec v 52); [|destruct (Z.ltb_spec v 62);
    [|destruct (Z.eqb_spec v 62)]]]; lia.
Qed.

Lemma b64_symbols_sym pos v t :
  0 <= v < 64 ->
  b64_symbols false pos (b64_sym v :: t) =
  match b64_symbols false (S pos mod 4)%nat t with Some vs => Some (v :: vs) | None => None end.
Proof. intros H. cbn [b64_symbols]. rewrite b64_sym_not_pad, b64_val_sym by auto. reflexivity. Qed.

Lemma list_ind3 {A} (P : list A -> Prop) :
  P [] -> (forall a, P [a]) -> (forall a b, P [a; b]) ->
  (forall a b c l, P l -> P (a :: b :: c :: l)) -> forall l, P l.
Proof.
  intros H0 H1 H2 H3. fix F 1. intros [|a [|b [|c l]]]; [apply H0|apply H1|apply H2|apply H3, F].
Qed.

Lemma b64_encode_length_mod4 l : (length (b64_encode l) mod 4 = 0)%nat.
Proof.
  induction l using list_ind3; try reflexivity.
  cbn [b64_encode length].
  replace (S (S (S (S (length (b64_encode l))))))
    with (length (b64_encode l) + 1 * 4)%nat by lia.
  rewrite Nat.mod_add by lia. exact IHl.
Qed.

Lemma b64_encode_values l :
  Forall is_u8 l ->
  exists vs, b64_symbols false 0 (b64_encode l) = Some vs /\ b64_quads vs = Some l.
Proof.
  induction l using list_ind3; intros Hl.
  - exists []; auto.
  - apply Forall_inv in Hl. unfold is_u8, two8 in Hl.
    exists [a / 4; a mod 4 * 16]. cbn [b64_encode]. split.
    + rewrite b64_symbols_sym by lia. rewrite b64_symbols_sym by lia. reflexivity.
    + cbn [b64_quads]. replace (a mod 4 * 16 mod 16 =? 0) with true by lia.
      do 2 f_equal. lia.
  - inversion_clear Hl as [|? ? Ha Hl']. apply Forall_inv in Hl'. unfold is_u8, two8 in *.
    exists [a / 4; a mod 4 * 16 + b / 16; b mod 16 * 4]. cbn [b64_encode]. split.
    + do 3 rewrite b64_symbols_sym by lia. reflexivity.
    + cbn [b64_quads]. replace (b mod 16 * 4 mod 4 =? 0) with true by lia.
      f_equal. f_equal; [lia|]. f_equal. lia.
  - inversion_clear Hl as [|? ? Ha Hl']. inversion_clear Hl' as [|? ? Hb Hl''].
    inversion_clear Hl'' as [|? ? Hc Hl]. destruct (IHl Hl) as (vs & Hvs & Hq).
    unfold is_u8, two8 in *.
    exists (a / 4 :: a mod 4 * 16 + b / 16 :: b mod 16 * 4 + c / 64 :: c mod 64 :: vs).
    cbn [b64_encode]. split.
    + do 4 rewrite b64_symbols_sym by lia. change ((S (S (S (S 0) mod 4) mod 4) mod 4) mod 4)%nat with 0%nat.
      cbn [Nat.modulo Nat.divmod snd Nat.sub]. rewrite Hvs. reflexivity.
    + cbn [b64_quads]. rewrite Hq. f_equal. f_equal; [lia|]. f_equal; [lia|]. f_equal. lia.
Qed.

Lemma b64_roundtrip l : Forall is_u8 l -> b64_decode (b64_encode l) = Ok l.
Proof.
  intros Hl. unfold b64_decode. rewrite b64_encode_length_mod4. cbn [Nat.eqb].
  destruct (b64_encode_values l Hl) as (vs & -> & ->). reflexivity.
Qed.

Lemma b64_val_range c v : b64_val c = Some v -> 0 <= v < 64.
Proof.
  unfold b64_val. intros H.
  destruct ((65 <=? c) && (c <=? 90)) eqn:E1; [injection H; lia|].
  destruct ((97 <=? c) && (c <=? 122)) eqn:E2; [injection H; lia|].
  destruct ((48 <=? c) && (c <=? 57)) eqn:E3; [injection H; lia|].
  destruct (c =? 43); [injection H; lia|]. destruct (c =? 47); [injection H; lia|discriminate].
Qed.

Lemma b64_symbols_range pd pos l vs :
  b64_symbols pd pos l = Some vs -> Forall (fun v => 0 <= v < 64) vs.
Proof.
  revert pd pos vs; induction l as [|c t IH]; intros pd pos vs; cbn [b64_symbols].
  - intros [= <-]; constructor.
  - destruct (c =? b64_pad).
    + destruct (pos <? 2)%nat; [discriminate|]. apply IH.
    + destruct pd; [discriminate|].
      destruct (b64_val c) eqn:E; [|discriminate].
      destruct (b64_symbols false (S pos mod 4) t) eqn:E'; [|discriminate].
      intros [= <-]. constructor; [eapply b64_val_range; eauto|eapply IH; eauto].
Qed.

Lemma list_ind4 {A} (P : list A -> Prop) :
  P [] -> (forall a, P [a]) -> (forall a b, P [a; b]) -> (forall a b c, P [a; b; c]) ->
  (forall a b c d l, P l -> P (a :: b :: c :: d :: l)) -> forall l, P l.
Proof.
  intros H0 H1 H2 H2' H3. fix F 1. intros [|a [|b [|c [|d l]]]]; [apply H0|apply H1|apply H2|apply H2'|apply H3, F].
Qed.

Lemma b64_quads_u8 vs bs :
  Forall (fun v => 0 <= v < 64) vs -> b64_quads vs = Some bs -> Forall is_u8 bs.
Proof.
  revert bs; induction vs using list_ind4; intros bs Hv H; cbn [b64_quads] in H.
  - injection H as <-; constructor.
  - discriminate.
  - inversion_clear Hv as [|? ? Ha Hv']. apply Forall_inv in Hv'.
    destruct (b mod 16 =? 0) eqn:E; [|discriminate]. injection H as <-.
    repeat constructor; unfold is_u8, two8; lia.
  - inversion_clear Hv as [|? ? Ha Hv']. inversion_clear Hv' as [|? ? Hb Hv]. apply Forall_inv in Hv.
    destruct (c mod 4 =? 0) eqn:E; [|discriminate]. injection H as <-.
    repeat constructor; unfold is_u8, two8; lia.
  - inversion_clear Hv as [|? ? Ha Hv']. inversion_clear Hv' as [|? ? Hb Hv].
    inversion_clear Hv as [|? ? Hc Hv']. inversion_clear Hv' as [|? ? Hd Hv].
    destruct (b64_quads vs) eqn:E; [|discriminate]. injection H as <-.
    repeat (constructor; [unfold is_u8, two8; lia|]). apply IHvs; auto.
Qed.

Lemma b64_decode_u8 s bs : b64_decode s = Ok bs -> Forall is_u8 bs.
Proof.
  unfold b64_decode. destruct (_ =? _)%nat; [discriminate|].
  destruct (b64_symbols false 0 s) eqn:E; [|discriminate].
  destruct (b64_quads l) eqn:E'; [|discriminate]. intros [= <-].
  eapply b64_quads_u8; [|exact E']. eapply b64_symbols_range; exact E.
Qed.

Lemma b64_decode_cases s : (exists bs, b64_decode s = Ok bs) \/ b64_decode s = Err EBase64.
Proof.
  unfold b64_decode. destruct (_ =? _)%nat; auto.
  destruct (b64_symbols false 0 s); auto. destruct (b64_quads l); eauto.
Qed.

(** ** Bincode *)
Lemma length_flat_le4 v : length (flat_map (le_bytes 4) v) = (4 * length v)%nat.
Proof.
  induction v as [|x v IH]; auto. cbn [flat_map]. rewrite app_length, IH, length_le_bytes.
  simpl; lia.
Qed.

Lemma bincode_ser_length v : length (bincode_ser_vec_u32 v) = (8 + 4 * length v)%nat.
Proof.
  unfold bincode_ser_vec_u32. rewrite app_length, length_flat_le4, length_le_bytes. reflexivity.
Qed.

Lemma read_u32s_flat v tail :
  Forall is_u32 v -> read_u32s (length v) (flat_map (le_bytes 4) v ++ tail) = v.
Proof.
  induction 1 as [|x v Hx _ IH]; auto.
  cbn [length read_u32s flat_map]. rewrite <- app_assoc.
  rewrite firstn_app, length_le_bytes, Nat.sub_diag, firstn_O, app_nil_r.
  rewrite firstn_all2 by (rewrite length_le_bytes; lia).
  rewrite of_le_le_bytes by exact Hx. f_equal.
  rewrite skipn_app, length_le_bytes, Nat.sub_diag, skipn_O.
  rewrite skipn_all2 by (rewrite length_le_bytes; lia). exact IH.
Qed.

Lemma bincode_roundtrip v tail :
  Forall is_u32 v -> Z.of_nat (length v) < two64 ->
  bincode_de_vec_u32 (bincode_ser_vec_u32 v ++ tail) = Ok v.
Proof.
  intros Hv Hl. unfold bincode_de_vec_u32, bincode_ser_vec_u32.
  rewrite <- app_assoc. rewrite !app_length, length_le_bytes, length_flat_le4.
  destruct (Nat.ltb_spec (8 + (4 * length v + length tail)) 8); [lia|].
  rewrite firstn_app, length_le_bytes, Nat.sub_diag, firstn_O, app_nil_r.
  rewrite firstn_all2 by (rewrite length_le_bytes; lia).
  rewrite skipn_app, length_le_bytes, Nat.sub_diag, skipn_O.
  rewrite skipn_all2 by (rewrite length_le_bytes; lia). cbn [app].
  rewrite of_le_le_bytes by (split; [lia|exact Hl]).
  rewrite app_length, length_flat_le4.
  destruct (Z.ltb_spec (Z.of_nat (4 * length v + length tail)) (4 * Z.of_nat (length v))); [lia|].
  rewrite Nat2Z.id. f_equal. apply read_u32s_flat; auto.
Qed.
