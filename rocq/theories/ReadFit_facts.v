(** Facts for C82: a text shorter than 2^64 bytes reads only as values that fit their types. *)
From Coq Require Import String.
From Verif Require Import Base Db Api Json Files Serde SpecJson SpecSerde SpecRead Base_facts Json_facts Files_facts
  JsonSpec_facts Serde_facts Claims_json Read_facts.
Local Open Scope Z_scope.

(** No string denotes more bytes than its text has. *)
Lemma chars_len s d : json_chars s d -> (length d <= length s)%nat.
Proof.
  assert (L : forall n bs, utf8_char n bs -> (length bs <= 4)%nat) by (intros n bs H; destruct H; cbn; lia).
  induction 1; cbn [length]; repeat (rewrite !app_length; cbn [length]); try lia.
  - apply L in H0. destruct (hex_quad_range _ _ H) as [_ E]. lia.
  - apply L in H3. destruct (hex_quad_range _ _ H) as [_ E], (hex_quad_range _ _ H0) as [_ E']. lia.
Qed.

(** Every array in the value has at most [n] items, every string at most [n] bytes. *)
Fixpoint bounded (n : nat) (v : json) : Prop :=
  match v with
  | JStr s => (length s <= n)%nat
  | JArr l => (length l <= n)%nat /\ (fix all l := match l with [] => True | x :: t => bounded n x /\ all t end) l
  | JObj l => (fix all l := match l with [] => True | (_, x) :: t => bounded n x /\ all t end) l
  | _ => True
  end.
Lemma bounded_arr n l : bounded n (JArr l) <-> (length l <= n)%nat /\ Forall (bounded n) l.
Proof.
  change (bounded n (JArr l)) with ((length l <= n)%nat /\ (fix all l := match l with [] => True | x :: t => bounded n x /\ all t end) l).
  assert (E : (fix all l := match l with [] => True | x :: t => bounded n x /\ all t end) l <-> Forall (bounded n) l); [|tauto].
  induction l as [|x t IH]; [split; constructor|]. split.
  - intros [A B]. constructor; [exact A|]. now apply IH.
  - intros H. inversion H; subst. split; [auto|]. now apply IH.
Qed.
Lemma bounded_obj n l : bounded n (JObj l) <-> Forall (fun kv => bounded n (snd kv)) l.
Proof.
  induction l as [|[k x] t IH]; [split; constructor|]. split.
  - intros [A B]. constructor; [exact A|]. now apply IH.
  - intros H. inversion H; subst. split; [auto|]. now apply IH.
Qed.
Lemma bounded_mono n m v : (n <= m)%nat -> bounded n v -> bounded m v.
Proof.
  intros L. induction v as [| | | | |l IH|l IH] using json_ind'; auto.
  - cbn [bounded]. lia.
  - rewrite !bounded_arr. intros [A B]. split; [lia|]. rewrite Forall_forall in *. auto.
  - rewrite !bounded_obj. rewrite !Forall_forall in *. auto.
Qed.
Lemma value_len t v : json_value t v -> (1 <= length t)%nat.
Proof. intros H. apply json_value_head in H as (c & u & -> & _). cbn. lia. Qed.
Lemma values_bounded :
  (forall t v, json_value t v -> bounded (length t) v) /\
  (forall t l, json_items t l -> (length l <= length t)%nat /\ Forall (bounded (length t)) l) /\
  (forall t l, json_members t l -> Forall (fun kv : list Z * json => bounded (length t) (snd kv)) l).
Proof.
  apply json_mutind; intros; try exact I.
  - destruct j as [|]; exact I.
  - cbn [bounded length]. rewrite app_length. pose proof (chars_len _ _ j). cbn [length]. lia.
  - apply bounded_arr. cbn. split; [lia|constructor].
  - apply bounded_arr. destruct H as [A B]. cbn [length]. rewrite app_length. cbn [length]. split; [lia|].
    eapply Forall_impl; [|exact B]. intros a. apply bounded_mono. lia.
  - apply bounded_obj. cbn [length]. rewrite app_length. cbn [length].
    eapply Forall_impl; [|exact H]. intros a. apply bounded_mono. lia.
  - rewrite !app_length. pose proof (value_len _ _ j). cbn [length]. split; [lia|]. constructor; [|constructor].
    eapply bounded_mono; [|exact H]. lia.
  - rewrite !app_length. cbn [length]. pose proof (value_len _ _ j). destruct H0 as [A B]. split; [lia|]. constructor.
    + eapply bounded_mono; [|exact H]. lia.
    + eapply Forall_impl; [|exact B]. intros a. apply bounded_mono. lia.
  - constructor; [|constructor]. cbn [snd]. eapply bounded_mono; [|exact H]. cbn [app length]. repeat (rewrite !app_length; cbn [length]). lia.
  - constructor.
    + cbn [snd]. eapply bounded_mono; [|exact H]. cbn [app length]. repeat (rewrite !app_length; cbn [length]). lia.
    + eapply Forall_impl; [|exact H0]. intros a. apply bounded_mono. cbn [app length]. repeat (rewrite !app_length; cbn [length]). lia.
Qed.
Lemma document_bounded s v : json_document s v -> bounded (length s) v.
Proof.
  intros (w1 & t & w2 & -> & _ & V & _). eapply bounded_mono; [|exact (proj1 values_bounded _ _ V)].
  rewrite !app_length. lia.
Qed.

Lemma F2_len {A B} (R : A -> B -> Prop) l l' : Forall2 R l l' -> length l = length l'.
Proof. induction 1; cbn; lia. Qed.

Section Fit.
Variable n : nat.
Hypothesis N : Z.of_nat n < 2 ^ 64.
Definition fits {A} (d : json -> A -> Prop) (P : A -> Prop) : Prop := forall v a, bounded n v -> d v a -> P a.
Lemma uint_fits k : fits (d_uint k) (fun x => 0 <= x < 256 ^ Z.of_nat k).
Proof. intros v a _ [_ H]. exact H. Qed.
Lemma u32_fits : fits (d_uint 4) is_u32. Proof. exact (uint_fits 4). Qed.
Lemma u64_fits : fits (d_uint 8) is_u64. Proof. exact (uint_fits 8). Qed.
Lemma size_fits : fits d_size wt_usize. Proof. intros v a _ [_ H]. exact H. Qed.
Lemma Forall2_right {A B} (R : A -> B -> Prop) (P : B -> Prop) l l' : (forall a b, In a l -> R a b -> P b) -> Forall2 R l l' -> Forall P l'.
Proof.
  intros H F. induction F as [|a b l l' Q F IH]; constructor.
  - apply (H a); [now left|exact Q].
  - apply IH. intros x y I. apply H. now right.
Qed.
Lemma list_fits {A} (d : json -> A -> Prop) P : fits d P -> fits (d_list d) (wt_vec P).
Proof.
  intros D v l B (vs & -> & F). apply bounded_arr in B as [L B]. split.
  - eapply Forall2_right; [|exact F]. intros a b I R. rewrite Forall_forall in B. exact (D a b (B a I) R).
  - apply F2_len in F. unfold wt_usize. lia.
Qed.
Lemma array_fits {A} k (d : json -> A -> Prop) P : fits d P -> fits (d_array k d) (fun l => length l = k /\ Forall P l).
Proof. intros D v l B [H L]. split; [exact L|]. exact (proj1 (list_fits d P D v l B H)). Qed.
Lemma seed_fits : fits d_seed wt_seed. Proof. exact (array_fits 32 _ _ (uint_fits 1)). Qed.
Lemma words_fits : fits d_words wt_words. Proof. exact (list_fits _ _ u32_fits). Qed.
Lemma matrix_fits : fits d_matrix wt_matrix. Proof. exact (list_fits _ _ words_fits). Qed.
Lemma record_bounded ns vals v : bounded n v -> record_is ns vals v -> Forall (bounded n) vals.
Proof.
  intros B [[-> _]|(l & -> & F)]; [now apply bounded_arr in B|]. apply bounded_obj in B. rewrite Forall_forall in B.
  induction F as [|k x ns vals H F IH]; constructor; [|exact IH]. apply member_in in H. exact (B _ H).
Qed.
Ltac split_vals R B := apply (record_bounded _ _ _ B) in R; repeat match goal with H : Forall (bounded n) (_ :: _) |- _ => inversion H; clear H; subst end.
Ltac use L := eapply L; [|eassumption]; assumption.
Lemma filter_params_fits : fits d_filter_params wt_filter_params.
Proof.
  intros v q B (s & a & b & c & R & H1 & H2 & H3 & H4). split_vals R B. unfold wt_filter_params.
  split; [use seed_fits|]. split; [|split]; use u32_fits.
Qed.
Ltac go := match goal with
  | |- _ /\ _ => split; go
  | |- wt_usize _ => use size_fits
  | |- wt_matrix _ => use matrix_fits
  | |- wt_words _ => use words_fits
  | |- is_u32 _ => use u32_fits
  | |- is_u64 _ => use u64_fits
  | |- wt_seed _ => use seed_fits
  | |- wt_filter_params _ => use filter_params_fits
  | |- _ => idtac
  end.
Ltac start d w := intros v q B H; unfold d in H; unfold w; ands; match goal with R : record_is _ _ _ |- _ => split_vals R B end.
Lemma index_db_fits : fits d_index_db wt_index_db. Proof. start d_index_db wt_index_db. go. Qed.
Lemma index_params_fits : fits d_index_params wt_index_params. Proof. start d_index_params wt_index_params. go. Qed.
Lemma shard_fits : fits d_shard wt_shard.
Proof. start d_shard wt_shard. split; [use index_db_fits|use index_params_fits]. Qed.
Lemma key_value_fits : fits d_key_value wt_key_value.
Proof. start d_key_value wt_key_value. split; [use (array_fits 4 _ _ u64_fits)|go]. Qed.
Lemma kv_db_fits : fits d_kv_db wt_kv_db. Proof. start d_kv_db wt_kv_db. go. Qed.
Lemma kv_params_fits : fits d_kv_params wt_kv_params. Proof. start d_kv_params wt_kv_params. go. Qed.
Lemma kv_shard_fits : fits d_kv_shard wt_kv_shard.
Proof. start d_kv_shard wt_kv_shard. split; [use kv_db_fits|use kv_params_fits]. Qed.
Lemma bfusep_fits : fits d_bfusep wt_bfusep. Proof. start d_bfusep wt_bfusep. go. Qed.
Lemma bfuse_fits k : fits (d_bfuse k) (wt_bfuse k).
Proof. start d_bfuse wt_bfuse. go. use (list_fits _ _ (uint_fits k)). Qed.
Lemma xor_fits k : fits (d_xor k) (wt_xor k).
Proof. start d_xor wt_xor. go. use (list_fits _ _ (uint_fits k)). Qed.
Lemma fuse_fits k : fits (d_fuse k) (wt_fuse k).
Proof. start d_fuse wt_fuse. go. use (list_fits _ _ (uint_fits k)). Qed.
Lemma query_fits (extra : json -> option filter_params -> Prop) : (forall x o, bounded n x -> extra x o -> match o with Some f => wt_filter_params f | None => True end) ->
  fits (d_query_params extra) wt_query_params.
Proof.
  intros X v q B (l & r & e & p & x & u & R & W1 & W2 & W3 & W4 & E & _).
  assert (V : Forall (bounded n) [l; r; e; p; JNull; x; JBool u]).
  { destruct R as [R|(ms & -> & _ & R)]; [exact (record_bounded _ _ _ B R)|]. refine (record_bounded _ _ _ _ R).
    apply bounded_obj. apply bounded_obj in B. constructor; [exact I|exact B]. }
  repeat match goal with H : Forall (bounded n) (_ :: _) |- _ => inversion H; clear H; subst end.
  unfold wt_query_params. go. destruct E as [[_ ->]|[_ E]]; [exact I|]. eapply X; [|exact E]; assumption.
Qed.
Lemma kv_query_fits : fits d_kv_query_params wt_query_params.
Proof. apply query_fits. intros x o B (f & -> & H). use filter_params_fits. Qed.
Lemma index_query_fits : fits d_index_query_params (fun q => wt_query_params q /\ qp_extra q = None).
Proof.
  intros v q B H. split.
  - eapply (query_fits); [|exact B|exact H]. intros x o _ [-> _]. exact I.
  - destruct H as (l & r & e & p & x & u & _ & _ & _ & _ & _ & [[_ E]|(_ & E & _)] & _); exact E.
Qed.
End Fit.
