(** Claims about the zero-density analysis tool. *)
From Verif Require Import Base Zeroes Base_facts.
Local Open Scope Z_scope.

(** Number of zeroes among the [n] entries starting at position [lo]. *)
Definition zeros_in (fp : list Z) (lo n : nat) : Z :=
  Z.of_nat (length (filter (fun t => t =? 0) (firstn n (skipn lo fp)))).

(** The positions at which the tool prints a line. *)
Definition print_points (n : nat) : list nat :=
  filter (fun i => (window_size <? i)%nat && (i mod 333 =? 0)%nat) (seq 0 n).

Definition zero_at (fp : list Z) (i : nat) : Z := if nth i fp 1 =? 0 then 1 else 0.

Lemma zeros_in_snoc : forall fp lo n, (lo + n < length fp)%nat ->
  zeros_in fp lo (S n) = zeros_in fp lo n + zero_at fp (lo + n).
Proof.
  intros fp lo n H. unfold zeros_in, zero_at.
  assert (E : firstn (S n) (skipn lo fp) = firstn n (skipn lo fp) ++ [nth (lo + n) fp 1]).
  { revert fp H. induction lo as [|lo IH]; intros fp H.
    - cbn [skipn Nat.add] in *. revert fp H. induction n as [|n IHn]; intros [|x fp] H; cbn [length] in H; try lia.
      + reflexivity.
      + cbn [firstn nth app]. f_equal. rewrite <- IHn by lia. reflexivity.
    - destruct fp as [|x fp]; cbn [length] in H; [lia|]. cbn [skipn Nat.add nth]. apply IH. lia. }
  rewrite E, filter_app, app_length, Nat2Z.inj_add. f_equal. cbn [filter].
  destruct (nth (lo + n) fp 1 =? 0); reflexivity.
Qed.

Lemma zeros_in_cons : forall fp lo n, (lo < length fp)%nat ->
  zeros_in fp lo (S n) = zero_at fp lo + zeros_in fp (S lo) n.
Proof.
  intros fp lo n H. unfold zeros_in, zero_at.
  assert (E : firstn (S n) (skipn lo fp) = nth lo fp 1 :: firstn n (skipn (S lo) fp)).
  { revert fp H. induction lo as [|lo IH]; intros [|x fp] H; cbn [length] in H; try lia; [reflexivity|].
    cbn [skipn nth]. rewrite IH by lia. reflexivity. }
  rewrite E. cbn [filter]. destruct (nth lo fp 1 =? 0); cbn [length]; lia.
Qed.

(** Value of the counter after the entry at position [k - 1] has been processed. *)
Definition counter (fp : list Z) (k : nat) : Z :=
  if (k <=? S window_size)%nat then zeros_in fp 0 k
  else zeros_in fp (k - window_size) window_size + zero_at fp 0.

Lemma window_pos : (0 < window_size)%nat.
Proof. unfold window_size. lia. Qed.
Opaque window_size.

Lemma zeros_nonneg : forall fp lo n, 0 <= zeros_in fp lo n.
Proof. intros. unfold zeros_in. lia. Qed.
Lemma zero_at_nonneg : forall fp i, 0 <= zero_at fp i <= 1.
Proof. intros. unfold zero_at. destruct (_ =? 0); lia. Qed.

Lemma zeroes_step_ok : forall dbg fp i out, (i < length fp)%nat ->
  zeroes_step dbg fp (counter fp i, out) i
  = Ok (counter fp (S i), if (window_size <? i)%nat && (i mod 333 =? 0)%nat then counter fp (S i) :: out else out).
Proof.
  intros dbg fp i out Hi. pose proof window_pos as W. unfold zeroes_step.
  assert (IX : forall j, (j < length fp)%nat -> idx fp j = Ok (nth j fp 1)).
  { intros j Hj. unfold idx. rewrite (nth_error_nth' fp 1 Hj). reflexivity. }
  rewrite IX by exact Hi. cbn [bind].
  assert (A : (if nth i fp 1 =? 0 then counter fp i + 1 else counter fp i) = counter fp i + zero_at fp i).
  { unfold zero_at. destruct (nth i fp 1 =? 0); lia. }
  rewrite A. clear A.
  assert (B : (if (window_size <? i)%nat
     then let* x := idx fp (i - window_size) in
          if x =? 0
          then if counter fp i + zero_at fp i =? 0 then if dbg then Panic else Ok (two64 - 1) else Ok (counter fp i + zero_at fp i - 1)
          else Ok (counter fp i + zero_at fp i)
     else Ok (counter fp i + zero_at fp i)) = Ok (counter fp (S i))).
  2:{ rewrite B. cbn [bind]. reflexivity. }
  destruct (Nat.ltb_spec window_size i) as [Hw|Hw].
  - rewrite IX by lia. cbn [bind].
    assert (C : counter fp i + zero_at fp i = counter fp (S i) + zero_at fp (i - window_size)).
    { assert (CS : counter fp (S i) = zeros_in fp (S i - window_size) window_size + zero_at fp 0).
      { unfold counter. destruct (Nat.leb_spec (S i) (S window_size)); [lia|reflexivity]. }
      assert (CI : counter fp i = zeros_in fp (i - window_size) window_size + zero_at fp 0).
      { unfold counter. destruct (Nat.leb_spec i (S window_size)) as [L|L]; [|reflexivity].
        replace i with (S window_size) by lia. replace (S window_size - window_size)%nat with 1%nat by lia.
        rewrite zeros_in_cons by lia. lia. }
      rewrite CS, CI. replace (S i - window_size)%nat with (S (i - window_size)) by lia.
      pose proof (zeros_in_snoc fp (i - window_size) window_size ltac:(lia)) as S1.
      pose proof (zeros_in_cons fp (i - window_size) window_size ltac:(lia)) as S2.
      replace (i - window_size + window_size)%nat with i in S1 by lia. lia. }
    assert (N : 0 <= counter fp (S i)).
    { unfold counter. destruct (_ <=? _)%nat; [apply zeros_nonneg|].
      pose proof (zeros_nonneg fp (S i - window_size) window_size). pose proof (zero_at_nonneg fp 0). lia. }
    rewrite C. unfold zero_at. destruct (nth (i - window_size) fp 1 =? 0).
    + destruct (Z.eqb_spec (counter fp (S i) + 1) 0); [lia|]. f_equal. lia.
    + f_equal. lia.
  - unfold counter. destruct (Nat.leb_spec i (S window_size)); [|lia]. destruct (Nat.leb_spec (S i) (S window_size)); [|lia].
    rewrite zeros_in_snoc by exact Hi. reflexivity.
Qed.

Lemma zeroes_loop : forall dbg fp k, (k <= length fp)%nat ->
  foldM (zeroes_step dbg fp) (seq 0 k) (0, [])
  = Ok (counter fp k, rev (map (fun i => counter fp (S i)) (print_points k))).
Proof.
  intros dbg fp k. induction k as [|k IH]; intros Hk; [reflexivity|].
  rewrite seq_S, foldM_app, IH by lia. cbn [bind foldM Nat.add]. rewrite zeroes_step_ok by lia. cbn [bind].
  f_equal. f_equal. unfold print_points. rewrite seq_S, filter_app, map_app, rev_app_distr. cbn [Nat.add filter].
  destruct ((window_size <? k)%nat && (k mod 333 =? 0)%nat); reflexivity.
Qed.
Transparent window_size.

(** ** C59 *)

(** @C59 the tool never underflows its counter in any build; it prints one line per multiple of
    333 above 2000, and the line for position i is the number of zeroes among the 2000 entries
    ending at position i, plus one if the very first entry of the table is zero. *)
Lemma zeroes_printed : forall dbg fp,
  print_zeroes dbg fp
  = Ok (map (fun i => zeros_in fp (i - Z.to_nat 1999) (Z.to_nat 2000) + (if nth 0 fp 1 =? 0 then 1 else 0))
            (filter (fun i => (Z.to_nat 2000 <? i)%nat && (i mod 333 =? 0)%nat) (seq 0 (length fp)))).
Proof.
  intros dbg fp. unfold print_zeroes. rewrite zeroes_loop by lia. cbn [bind snd]. rewrite rev_involutive. f_equal.
  unfold print_points. apply map_ext_in. intros i Hi. apply filter_In in Hi. destruct Hi as [_ Hi].
  apply andb_prop in Hi. destruct Hi as [Hi _]. apply Nat.ltb_lt in Hi. unfold counter.
  assert (W : window_size = Z.to_nat 2000) by reflexivity.
  destruct (Nat.leb_spec (S i) (S window_size)) as [L|L]; [lia|].
  rewrite W. replace (S i - Z.to_nat 2000)%nat with (i - Z.to_nat 1999)%nat by lia. reflexivity.
Qed.

(** @C59 so the printed numbers are not always the number of zeroes in a window of 2000 entries:
    on a table of zeroes every printed line says 2001. *)
Lemma zeroes_window_refuted : exists fp x rest, forall dbg,
  print_zeroes dbg fp = Ok (x :: rest) /\ (forall lo n, (n <= Z.to_nat 2000)%nat -> zeros_in fp lo n < x).
Proof.
  exists (repeat 0 (Z.to_nat 2332)), 2001, []. intros dbg. split.
  - rewrite zeroes_printed, repeat_length. vm_compute. reflexivity.
  - intros lo n Hn. unfold zeros_in.
    assert (B : forall l : list Z, (length (filter (fun t => (t =? 0)%Z) l) <= length l)%nat).
    { induction l as [|a l IH]; [reflexivity|]. cbn [filter]. destruct (a =? 0); cbn [length]; lia. }
    specialize (B (firstn n (skipn lo (repeat 0 (Z.to_nat 2332))))). rewrite firstn_length in B. lia.
Qed.
