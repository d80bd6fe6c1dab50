(** Property theorems; each restates a lemma proved in Claims_kvbuild.v. *)
From Coq Require Import Permutation.
From Verif Require Import Base Spec SpecFilter Hash Fuse3 Bfusep Mat Lwe Db Api Claims_filter Claims_kv Claims_kvbuild.
Local Open Scope Z_scope.

(** C63: For distinct key hashes with at most 63 keys per slot, building the shard succeeds
    exactly when the keys are peelable, and panics otherwise. Values, random blocks, public
    seed, dimension, element size and plaintext size play no part in which of the two happens,
    and a built shard has exactly the number of slots of the geometry. *)
Theorem C63_kv_build_iff_peelable : forall prg dbg fe rnd seed pseed kvs dim m es pb w g slots,
  (1 <= pb <= 31)%nat -> (dbg = true -> (8 <= pb)%nat) -> is_ceil_div es pb w -> (0 < w)%nat -> kvs <> [] ->
  Forall (fun kv => length (kv_value kv) = w) kvs ->
  geometry dbg fe (length kvs) = Ok g -> sane_estimates fe (length kvs) ->
  evaluates dbg seed (g_seglen g) (g_mask g) (g_scl g) slots ->
  NoDup (map (fun kv => mix256 (kv_key kv) seed) kvs) ->
  (forall j, (load slots (map kv_key kvs) j <= 63)%nat) ->
  (peelable slots (map kv_key kvs) /\
     exists sh, kv_shard_new prg dbg fe rnd seed pseed kvs dim m es pb = Ok sh /\
                kp_m (ks_params sh) = g_arrlen g /\ kp_dim (ks_params sh) = dim) \/
  (~ peelable slots (map kv_key kvs) /\ kv_shard_new prg dbg fe rnd seed pseed kvs dim m es pb = Panic).
Proof. exact kv_build_iff_peelable. Qed.
Print Assumptions C63_kv_build_iff_peelable.

(** C63: Two builds over the same keys and the same filter seed, with any other inputs
    different, both succeed or both panic. *)
Theorem C63_kv_build_depends_on_keys : forall dbg fe seed g slots
    prg1 rnd1 pseed1 kvs1 dim1 m1 es1 pb1 w1 prg2 rnd2 pseed2 kvs2 dim2 m2 es2 pb2 w2,
  (1 <= pb1 <= 31)%nat -> (dbg = true -> (8 <= pb1)%nat) -> is_ceil_div es1 pb1 w1 -> (0 < w1)%nat ->
  (1 <= pb2 <= 31)%nat -> (dbg = true -> (8 <= pb2)%nat) -> is_ceil_div es2 pb2 w2 -> (0 < w2)%nat ->
  map kv_key kvs1 = map kv_key kvs2 -> kvs1 <> [] ->
  Forall (fun kv => length (kv_value kv) = w1) kvs1 -> Forall (fun kv => length (kv_value kv) = w2) kvs2 ->
  geometry dbg fe (length kvs1) = Ok g -> sane_estimates fe (length kvs1) ->
  evaluates dbg seed (g_seglen g) (g_mask g) (g_scl g) slots ->
  NoDup (map (fun kv => mix256 (kv_key kv) seed) kvs1) ->
  (forall j, (load slots (map kv_key kvs1) j <= 63)%nat) ->
  ((exists sh, kv_shard_new prg1 dbg fe rnd1 seed pseed1 kvs1 dim1 m1 es1 pb1 = Ok sh) /\
   (exists sh, kv_shard_new prg2 dbg fe rnd2 seed pseed2 kvs2 dim2 m2 es2 pb2 = Ok sh)) \/
  (kv_shard_new prg1 dbg fe rnd1 seed pseed1 kvs1 dim1 m1 es1 pb1 = Panic /\
   kv_shard_new prg2 dbg fe rnd2 seed pseed2 kvs2 dim2 m2 es2 pb2 = Panic).
Proof. exact kv_build_depends_on_keys. Qed.
Print Assumptions C63_kv_build_depends_on_keys.

(** C63: example: the three example keys meet the hypotheses and their shard is always built;
    for the pair 7, 10 it never is. *)
Example C63_kv_build_example : forall prg rnd pseed dim m,
  (exists sh, kv_shard_new prg true (est 3 12) rnd seed0 pseed ex_kvs dim m 19 10 = Ok sh) /\
  kv_shard_new prg true (est 2 12) rnd seed0 pseed
    [ {| kv_key := key4 7; kv_value := [1; 2] |}; {| kv_key := key4 10; kv_value := [3; 4] |} ] dim m 20 10 = Panic.
Proof. exact kv_build_example. Qed.
