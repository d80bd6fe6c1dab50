(** Property theorems; each restates a lemma proved in Claims_build.v. *)
From Coq Require Import Permutation.
From Verif Require Import Base Spec SpecFilter Fmt Base64 Hash Fuse3 Bfusep Mat Lwe Db Api Claims_format Claims_index Claims_filter Claims_kv Claims_kvbuild Claims_build.
Local Open Scope Z_scope.

(** C38: every outcome of the construction of an index shard with 1 to 32 plaintext bits: a shard
    is built exactly when there are between 1 and as many rows as strings, and every string of a row
    decodes to an element that reaches the last chunk; otherwise the first string that is not so
    decides: an undecodable string gives the base64 error, a missing string or a short element a
    panic. The LWE dimension, the seed and the build profile do not matter. *)
Theorem C38_index_build_exact :
  forall (prg : list Z -> nat -> Z) (dbg : bool) (seed : list Z) (strs : list (list Z)) (dim m es pb w : nat),
    (1 <= pb <= 32)%nat -> is_ceil_div es pb w ->
    let build := shard_from_base64_strings prg dbg seed strs dim m es pb in
    let good i := (i < length strs)%nat /\
                  exists e, b64_decode (nth i strs []) = Ok e /\ (w * pb <= 8 * length e + pb)%nat in
    ((exists sh, build = Ok sh) <-> (0 < m)%nat /\ forall i, (i < m)%nat -> good i) /\
    (build = Err EBase64 <->
       exists k, (k < m)%nat /\ (forall i, (i < k)%nat -> good i) /\
         (k < length strs)%nat /\ forall e, b64_decode (nth k strs []) <> Ok e) /\
    (build = Panic <->
       m = 0%nat \/
       exists k, (k < m)%nat /\ (forall i, (i < k)%nat -> good i) /\
         ((length strs <= k)%nat \/
          exists e, b64_decode (nth k strs []) = Ok e /\ (8 * length e + pb < w * pb)%nat)).
Proof. exact index_build_exact. Qed.
Print Assumptions C38_index_build_exact.

(** C38: example: all three outcomes, and the boundary of a short element (20 bits in chunks of 10
    need at least 10 bits). *)
Example C38_index_build_example :
  let prg := fun (s : list Z) (k : nat) => Z.of_nat k in
  is_ceil_div 20 10 2 /\
  (exists sh, shard_from_base64_strings prg true [] [b64_encode [1; 2]; b64_encode [3; 4; 5]; [33]] 2 2 20 10 = Ok sh) /\
  shard_from_base64_strings prg true [] [b64_encode [1; 2]; [33]; b64_encode [3]] 2 3 20 10 = Err EBase64 /\
  shard_from_base64_strings prg true [] [b64_encode [1; 2]; b64_encode [3]; [33]] 2 3 20 10 = Panic.
Proof. exact index_build_example. Qed.

(** C38: every outcome of the construction of an index shard, for every value of every argument:
    no rows or zero plaintext bits panic; otherwise the first string that is missing or does not fit
    decides, and a shard is built exactly when there is none. A missing string panics, an undecodable
    one gives the base64 error, an element that ends before the last chunk starts panics, and with
    more than 32 plaintext bits an element of more than 4 bytes gives the input size error. *)
Theorem C38_index_build_total :
  forall (prg : list Z -> nat -> Z) (dbg : bool) (seed : list Z) (strs : list (list Z)) (dim m es pb w : nat),
    let build := shard_from_base64_strings prg dbg seed strs dim m es pb in
    let short e := (8 * length e + pb < w * pb)%nat /\ (pb <= 32 \/ length e <= 4)%nat in
    let wide (e : list Z) := (32 < pb)%nat /\ (0 < w)%nat /\ (4 < length e)%nat in
    let good i := (i < length strs)%nat /\ exists e, b64_decode (nth i strs []) = Ok e /\ ~ short e /\ ~ wide e in
    (pb = 0%nat \/ m = 0%nat -> build = Panic) /\
    ((0 < pb)%nat -> (0 < m)%nat -> is_ceil_div es pb w ->
      ((forall i, (i < m)%nat -> good i) /\ exists sh, build = Ok sh) \/
      (exists k, (k < m)%nat /\ (forall i, (i < k)%nat -> good i) /\
         ((length strs <= k)%nat /\ build = Panic \/
          (k < length strs)%nat /\ (forall e, b64_decode (nth k strs []) <> Ok e) /\ build = Err EBase64 \/
          (k < length strs)%nat /\ exists e, b64_decode (nth k strs []) = Ok e /\
            (short e /\ build = Panic \/ wide e /\ build = Err EInputSize)))).
Proof. exact index_build_total. Qed.
Print Assumptions C38_index_build_total.

(** C38: example: with 40 plaintext bits, four bytes fit in one chunk and five do not, and a second
    chunk starts after the end of an element of four bytes. *)
Example C38_index_build_wide_example :
  let prg := fun (s : list Z) (k : nat) => Z.of_nat k in
  is_ceil_div 40 40 1 /\ is_ceil_div 41 40 2 /\
  (exists sh, shard_from_base64_strings prg true [] [b64_encode [1; 2; 3; 4]; b64_encode [5]] 2 2 40 40 = Ok sh) /\
  shard_from_base64_strings prg true [] [b64_encode [1]; b64_encode [1; 2; 3; 4; 5]] 2 2 40 40 = Err EInputSize /\
  shard_from_base64_strings prg true [] [b64_encode [1; 2; 3; 4]] 2 1 41 40 = Panic.
Proof. exact index_build_wide_example. Qed.

(** C63: every outcome of building a key-value shard from strings, for keys whose digests have
    distinct filter hashes and overload no slot: different numbers of keys and values give the
    count error; otherwise a decodable value that does not reach the last chunk panics, wherever it
    stands; otherwise an undecodable value gives the construction error; otherwise no pairs at all
    panic, and with pairs a shard is built exactly when the digests are peelable, and a panic
    otherwise. Nothing else matters. *)
Theorem C63_kv_build_exact :
  forall sha256 prg dbg fe rnd fseed pseed keys values dim m es pb w g slots digest,
  (1 <= pb <= 31)%nat -> (dbg = true -> (8 <= pb)%nat) -> is_ceil_div es pb w -> (0 < w)%nat ->
  (forall k, sha256_into_u64_sized sha256 k = Ok (digest k)) ->
  geometry dbg fe (length keys) = Ok g -> sane_estimates fe (length keys) ->
  evaluates dbg fseed (g_seglen g) (g_mask g) (g_scl g) slots ->
  NoDup (map (fun k => mix256 (digest k) fseed) keys) ->
  (forall j, (load slots (map digest keys) j <= 63)%nat) ->
  let build := kv_shard_from_base64_strings sha256 prg dbg fe rnd fseed pseed keys values dim m es pb in
  let short i := exists b, b64_decode (nth i values []) = Ok b /\ (8 * length b + pb < w * pb)%nat in
  let undecodable i := forall b, b64_decode (nth i values []) <> Ok b in
  let n := length values in
  (length keys <> n /\ build = Err EKeyValueCount) \/
  (length keys = n /\
   (((exists i, (i < n)%nat /\ short i) /\ build = Panic) \/
    ((forall i, (i < n)%nat -> ~ short i) /\
     (((exists i, (i < n)%nat /\ undecodable i) /\ build = Err EConstructKV) \/
      ((forall i, (i < n)%nat -> ~ undecodable i) /\
       ((keys <> [] /\ peelable slots (map digest keys) /\ exists sh, build = Ok sh) \/
        ((keys = [] \/ ~ peelable slots (map digest keys)) /\ build = Panic))))))).
Proof. exact kv_build_exact. Qed.
Print Assumptions C63_kv_build_exact.

(** C63: example: a short value later in the list panics although an earlier one is undecodable;
    without it the construction error is returned. *)
Example C63_kv_build_exact_example :
  let sha := fun _ : list Z => repeat 1 32 in
  kv_shard_from_base64_strings sha ex_prg true (est 2 0) ex_rnd seed0 [] [[107]; [108]] [[33]; b64_encode [3]]
    2 2 20 10 = Panic /\
  kv_shard_from_base64_strings sha ex_prg true (est 2 0) ex_rnd seed0 [] [[107]; [108]] [[33]; b64_encode [3; 4]]
    2 2 20 10 = Err EConstructKV.
Proof. exact kv_build_exact_example. Qed.
