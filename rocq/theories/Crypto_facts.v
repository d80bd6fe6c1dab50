(** Facts about Sha256 and ChaCha. *)
From Verif Require Import Base Sha256 ChaCha.
Local Open Scope Z_scope.

Lemma be_bytes_length n : forall x, length (be_bytes n x) = n.
Proof. induction n as [|n IH]; intros x; cbn [be_bytes]; [reflexivity|]. rewrite app_length, IH. cbn [length]. lia. Qed.
Lemma be_bytes_u8 n : forall x, Forall is_u8 (be_bytes n x).
Proof. induction n as [|n IH]; intros x; cbn [be_bytes]; [constructor|]. apply Forall_app. split; [apply IH|]. constructor; [apply Z.mod_pos_bound; reflexivity|constructor]. Qed.
Lemma be_bytes_inj n : forall x y, 0 <= x < 256 ^ Z.of_nat n -> 0 <= y < 256 ^ Z.of_nat n -> be_bytes n x = be_bytes n y -> x = y.
Proof.
  induction n as [|n IH]; intros x y Hx Hy E.
  - change (256 ^ Z.of_nat 0) with 1 in Hx, Hy. lia.
  - cbn [be_bytes] in E. apply app_inj_tail in E as [E1 E2]. rewrite Nat2Z.inj_succ, Z.pow_succ_r in Hx, Hy by lia.
    apply IH in E1; [|split; [apply Z.div_pos; lia|apply Z.div_lt_upper_bound; lia]..].
    rewrite (Z.div_mod x 256), (Z.div_mod y 256) by lia. now rewrite E1, E2.
Qed.
Lemma round_length s kw : length s = 8%nat -> length (sha_round s kw) = 8%nat.
Proof. destruct s as [|a [|b [|c [|d [|e [|f [|g [|h [|i s]]]]]]]]]; intros H; try discriminate H. reflexivity. Qed.
Lemma rounds_length l : forall s, length s = 8%nat -> length (fold_left sha_round l s) = 8%nat.
Proof. induction l as [|x l IH]; intros s H; cbn [fold_left]; [exact H|]. apply IH, round_length, H. Qed.
Lemma compress_length h b : length h = 8%nat -> length (compress h b) = 8%nat.
Proof. intros H. unfold compress. rewrite map_length, combine_length, rounds_length, H by exact H. reflexivity. Qed.
Lemma blocks_length n : forall h m, length h = 8%nat -> length (sha_blocks n h m) = 8%nat.
Proof. induction n as [|n IH]; intros h m H; cbn [sha_blocks]; [exact H|]. apply IH, compress_length, H. Qed.
Lemma digest_length m : length (sha256 m) = 32%nat.
Proof.
  unfold sha256. generalize (blocks_length (length (sha_pad m) / 64) sha_h0 (sha_pad m) eq_refl).
  generalize (sha_blocks (length (sha_pad m) / 64) sha_h0 (sha_pad m)). intros l H.
  assert (E : length (flat_map (be_bytes 4) l) = (4 * length l)%nat).
  { clear H. induction l as [|x l IH]; [reflexivity|]. cbn [flat_map]. rewrite app_length, be_bytes_length, IH. cbn [length]. lia. }
  rewrite E, H. reflexivity.
Qed.
Lemma digest_u8 m : Forall is_u8 (sha256 m).
Proof. unfold sha256. generalize (sha_blocks (length (sha_pad m) / 64) sha_h0 (sha_pad m)). intros l. induction l as [|x l IH]; [constructor|]. cbn [flat_map]. apply Forall_app. split; [apply be_bytes_u8|exact IH]. Qed.
Lemma pad_length m : (length (sha_pad m) mod 64 = 0)%nat.
Proof.
  unfold sha_pad. rewrite !app_length, repeat_length, be_bytes_length. cbn [length].
  pose proof (Nat.div_mod (length m) 64 ltac:(lia)) as D. pose proof (Nat.mod_upper_bound (length m) 64 ltac:(lia)) as U.
  set (r := (length m mod 64)%nat) in *. set (q := (length m / 64)%nat) in *. clearbody r q. rewrite D.
  destruct (Nat.le_gt_cases r 55) as [H|H].
  - replace ((119 - r) mod 64)%nat with (55 - r)%nat by (apply (Nat.mod_unique _ _ 1); lia).
    symmetry. apply (Nat.mod_unique _ _ (q + 1)); lia.
  - rewrite (Nat.mod_small (119 - r)) by lia. symmetry. apply (Nat.mod_unique _ _ (q + 2)); lia.
Qed.
Lemma pad_inj m1 m2 : 8 * Z.of_nat (length m1) < 2 ^ 64 -> 8 * Z.of_nat (length m2) < 2 ^ 64 -> sha_pad m1 = sha_pad m2 -> m1 = m2.
Proof.
  intros H1 H2 E. unfold sha_pad in E. rewrite !Z.mod_small in E by (unfold two64; lia).
  assert (A : forall (a b c d : list Z), length c = length d -> a ++ c = b ++ d -> a = b /\ c = d).
  { intros a b c d L X. assert (Q : length a = length b) by (apply (f_equal (@length Z)) in X; rewrite !app_length in X; lia).
    clear L. revert b Q X. induction a as [|x a IH]; intros [|y b] Q X; try discriminate Q; [split; [reflexivity|exact X]|].
    cbn [app] in X. injection X as -> X. injection Q as Q. destruct (IH b Q X) as [-> ->]. split; reflexivity. }
  rewrite !app_assoc in E. apply A in E as [E L]; [|rewrite !be_bytes_length; reflexivity].
  apply be_bytes_inj in L; [|change (256 ^ Z.of_nat 8) with (2 ^ 64); lia..].
  assert (Q : length m1 = length m2) by lia. rewrite Q, <- !app_assoc in E. apply A in E as [E _]; [exact E|reflexivity].
Qed.
Lemma std_rng_u32 seed k : is_u32 (std_rng seed k).
Proof.
  unfold std_rng, chacha_block. generalize (chacha_start seed (Z.of_nat (k / 16))). intros s. generalize (combine s (rounds 6 s)). intros l.
  generalize (k mod 16)%nat. induction l as [|p l IH]; intros [|i]; cbn [map nth]; try (split; [lia|reflexivity]).
  - apply Z.mod_pos_bound. reflexivity.
  - apply IH.
Qed.
