(** A Fuse filter of 3676 keys: the documented size bound fails on a filter that exists. *)
From Verif Require Import Base Hash Xorf Float64 Fuse SpecXorf Base_facts HashInj_facts Fuse_facts Claims_fuse.
Local Open Scope Z_scope.

(** Keys whose first probes, under the first retry seed, are pairwise different. *)
Definition packed_keys (n : Z) : list Z :=
  map (fun i => unmix ((Z.of_nat i / 41 * 20972 + 1) * 2048 + Z.of_nat i mod 41 * 50) (retry_seed 0))
      (seq 0 (Z.to_nat n)).

(** The hash of the i-th key under that seed. *)
Definition packed_hash (i : Z) : Z := (i / 41 * 20972 + 1) * 2048 + i mod 41 * 50.

Lemma packed_keys_eq : forall n, packed_keys n = map (fun i => unmix (packed_hash (Z.of_nat i)) (retry_seed 0)) (seq 0 (Z.to_nat n)).
Proof. reflexivity. Qed.

Definition fs1z (sl h : Z) : Z :=
  Z.shiftr ((h mod two32) * 100) 32 * sl + Z.shiftr ((rotl64 h 21 mod two32) * sl) 32.

Lemma shiftr_nonneg' : forall a b, 0 <= a -> 0 <= b -> 0 <= Z.shiftr (a * b) 32.
Proof. intros a b Ha Hb. apply Z.shiftr_nonneg. apply Z.mul_nonneg_nonneg; assumption. Qed.

Lemma fs1_z : forall sl h, fs1 sl h = Z.to_nat (fs1z (Z.of_nat sl) h).
Proof.
  intros sl h. unfold fs1, fs1z, fseg, foff. change (Z.of_nat SEGMENT_COUNT) with 100.
  pose proof (mod32_range h) as M1. pose proof (mod32_range (rotl64 h 21)) as M2.
  pose proof (shiftr_nonneg' (h mod two32) 100 ltac:(lia) ltac:(lia)) as A.
  pose proof (shiftr_nonneg' (rotl64 h 21 mod two32) (Z.of_nat sl) ltac:(lia) ltac:(lia)) as B.
  set (x := Z.shiftr (h mod two32 * 100) 32) in *. set (y := Z.shiftr (rotl64 h 21 mod two32 * Z.of_nat sl) 32) in *.
  clearbody x y. rewrite Z2Nat.inj_add, Z2Nat.inj_mul, Nat2Z.id by (try assumption; nia). reflexivity.
Qed.

(** Keys whose first probes increase are peelable: remove them in that order. *)
Lemma foff_lt : forall sl r, (0 < sl)%nat -> (foff sl (r mod two32) < sl)%nat.
Proof.
  intros sl r Hs. unfold foff. rewrite Z.shiftr_div_pow2 by lia. pose proof (mod32_range r) as M.
  set (q := r mod two32) in *. clearbody q. unfold two32 in *.
  assert (0 <= q * Z.of_nat sl / 2 ^ 32 < Z.of_nat sl); [|lia].
  split; [apply Z.div_pos; nia|apply Z.div_lt_upper_bound; [lia|]]. nia.
Qed.

Lemma fs_increasing : forall sl h, (0 < sl)%nat -> (fs1 sl h < fs2 sl h /\ fs1 sl h < fs3 sl h)%nat.
Proof.
  intros sl h Hs. unfold fs1, fs2, fs3. pose proof (foff_lt sl (rotl64 h 21) Hs). nia.
Qed.

Lemma ascending_peels : forall sl (hash : nat -> Z), (0 < sl)%nat ->
  forall n k, (forall i, (k <= i < k + n)%nat -> fs1 sl (hash i) = i) ->
  Peel_facts.peels (fs1 sl) (fs2 sl) (fs3 sl) (map hash (seq k n)).
Proof.
  intros sl hash Hs n. induction n as [|n IH]; intros k H; [constructor|]. cbn [seq map].
  apply (Peel_facts.peels_take _ _ _ (hash k) _ (map hash (seq (S k) n)) k).
  - apply Permutation.Permutation_refl.
  - unfold Peel_facts.inc. rewrite H by lia. rewrite Nat.eqb_refl. reflexivity.
  - intros h' Hh. apply in_map_iff in Hh. destruct Hh as (i & <- & Hi). apply in_seq in Hi.
    pose proof (fs_increasing sl (hash i) Hs) as F. rewrite H in F by lia.
    unfold Peel_facts.inc. rewrite H by lia.
    destruct (Nat.eqb_spec k i), (Nat.eqb_spec k (fs2 sl (hash i))), (Nat.eqb_spec k (fs3 sl (hash i))); try reflexivity; lia.
  - apply IH. intros i Hi. apply H. lia.
Qed.

(** Check of the first probes, in binary arithmetic. *)
Fixpoint probe_check (fuel : nat) (i : Z) : bool :=
  match fuel with
  | O => true
  | S f => (fs1z 41 (packed_hash i) =? i) && probe_check f (i + 1)
  end.

Lemma probe_check_ok : forall fuel i, probe_check fuel i = true ->
  forall j, i <= j < i + Z.of_nat fuel -> fs1z 41 (packed_hash j) = j.
Proof.
  induction fuel as [|f IH]; intros i H j Hj; [lia|]. cbn [probe_check] in H. apply andb_prop in H. destruct H as [H1 H2].
  destruct (Z.eq_dec j i) as [->|Hne]; [now apply Z.eqb_eq|]. apply (IH (i + 1) H2). lia.
Qed.

Lemma probes_checked : probe_check (Z.to_nat 3676) 0 = true.
Proof. vm_compute. reflexivity. Qed.

Lemma packed_hash_u64 : forall i, 0 <= i < 3676 -> is_u64 (packed_hash i).
Proof.
  intros i Hi. unfold packed_hash, is_u64, two64.
  assert (0 <= i / 41 < 90) by (split; [apply Z.div_pos; lia|apply Z.div_lt_upper_bound; lia]).
  pose proof (Z.mod_pos_bound i 41 ltac:(lia)). lia.
Qed.

Lemma packed_peels : forall sl, sl = 41%nat ->
  Peel_facts.peels (fs1 sl) (fs2 sl) (fs3 sl) (fhs (packed_keys 3676) (retry_seed 0)).
Proof.
  intros sl ->. unfold fhs. rewrite packed_keys_eq, map_map.
  rewrite (map_ext_in _ (fun i => packed_hash (Z.of_nat i))).
  - apply ascending_peels; [lia|]. intros i Hi. rewrite fs1_z. change (Z.of_nat 41) with 41.
    rewrite (probe_check_ok _ _ probes_checked) by lia. apply Nat2Z.id.
  - intros i Hi. apply in_seq in Hi. apply mix_unmix. apply packed_hash_u64. lia.
Qed.

Lemma packed_ok : exists f, fuse_try_from 8 false (fun i => 0) (packed_keys 3676) = Ok f /\ Z.of_nat (length (ff_fingerprints f)) = 4182.
Proof.
  assert (L : length (packed_keys 3676) = Z.to_nat 3676) by (unfold packed_keys; now rewrite map_length, seq_length).
  assert (Hn : Z.of_nat (length (packed_keys 3676)) < 2 ^ 32) by (rewrite L; lia).
  assert (SL : fuse_segment_length (length (packed_keys 3676)) = 41%nat) by (rewrite L; vm_compute; reflexivity).
  pose proof (fuse_sl_small _ Hn) as Hsl. assert (Hsl0 : (0 < fuse_segment_length (length (packed_keys 3676)))%nat) by lia.
  destruct (fuse_construct false (packed_keys 3676) Hsl0 Hsl Hn (Z.to_nat 1000) 8 (fun i => 0)) as [(i & fps & _ & Lf & _ & _ & _ & EE)|[_ N]].
  - discriminate.
  - eexists. split; [exact EE|]. cbn [ff_fingerprints]. rewrite Lf, SL. reflexivity.
  - exfalso. apply (N 0%nat); [lia|]. apply packed_peels. exact SL.
Qed.

(** @C56 *)
Example fuse_oversize_example : exists f,
  fuse_try_from 8 false (fun i => 0) (packed_keys 3676) = Ok f /\
  length (packed_keys 3676) = Z.to_nat 3676 /\
  9101 * 3676 < 1000 * (8 * Z.of_nat (length (ff_fingerprints f))).
Proof.
  destruct packed_ok as (f & E & L). exists f. split; [exact E|].
  split; [unfold packed_keys; now rewrite map_length, seq_length|]. rewrite L. lia.
Qed.
