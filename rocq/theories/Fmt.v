(** * Fmt: src/utils.rs, module [format] (lines 148-283), re-exported by src/api.rs:15. *)
From Verif Require Export Base.
Local Open Scope Z_scope.

(** src/utils.rs:153-159 [u8_to_bits_le]. *)
Definition u8_to_bits_le (byte : Z) : list bool :=
  map (fun i => 0 <? Z.land (2 ^ Z.of_nat i) byte) (seq 0 8).

(** src/utils.rs:161-168 [u32_to_bits_le]; slicing beyond 32 bits panics. *)
Definition u32_to_bits_le (x : Z) (bit_len : nat) : res (list bool) :=
  let bits := flat_map u8_to_bits_le (le_bytes 4 x) in
  if (bit_len <=? length bits)%nat then Ok (firstn bit_len bits) else Panic.

(** src/utils.rs:170-180 [bits_to_bytes_le]. The loop body, for (i, bit).
    Simplification: the index [((i as f64) / 8f64).floor() as usize] is written as
    the integer quotient (equal for i < 2^53). *)
Definition bits_step (dbg : bool) (bytes : list Z) (ib : nat * bool) : res (list Z) :=
  let (i, bit) := ib in
  if bit then
    let* b := idx bytes (i / 8)%nat in
    let* b' := add8 dbg b (2 ^ Z.of_nat (i mod 8)) in
    set bytes (i / 8)%nat b'
  else Ok bytes.
Definition bits_to_bytes_le (dbg : bool) (bits : list bool) : res (list Z) :=
  foldM (bits_step dbg) (combine (seq 0 (length bits)) bits)
        (repeat 0 ((length bits + 7) / 8)%nat).

(** src/utils.rs:182-192 [bytes_to_bits_le]. *)
Definition bytes_to_bits_le (bytes : list Z) : list bool :=
  fold_left (fun acc next => acc ++ next) (map u8_to_bits_le bytes) [].

(** src/utils.rs:212-226 [u32_sized_bytes_from_vec]. *)
Definition u32_sized_bytes_from_vec (bytes : list Z) : res (list Z) :=
  if (length bytes =? 4)%nat then Ok bytes else Err EInputSize.

(** src/utils.rs:194-210 [bits_to_u32_le]. *)
Definition bits_to_u32_le (dbg : bool) (bits : list bool) : res Z :=
  let* bytes := bits_to_bytes_le dbg bits in
  if (4 <? length bytes)%nat then Err EInputSize
  else
    let* sized := u32_sized_bytes_from_vec (bytes ++ repeat 0 (4 - length bytes)%nat) in
    Ok (of_le_bytes sized).

(** src/utils.rs:228-245 [bytes_from_u32_slice]. *)
Definition bytes_from_u32_slice (dbg : bool) (v : list Z)
    (entry_bit_len total_bit_len : nat) : res (list Z) :=
  let* remainder := remn total_bit_len entry_bit_len in
  let* bits :=
    foldM (fun bits i =>
             let* x := idx v i in
             let* more := u32_to_bits_le x
                 (if negb (i =? length v - 1)%nat then entry_bit_len else remainder) in
             Ok (bits ++ more))
          (seq 0 (length v)) [] in
  bits_to_bytes_le dbg bits.

(** src/utils.rs:255-282 [sha256_into_u64_sized]. [sha256] is the external digest
    function (crate sha2), an argument of the model. *)
Definition sha256_into_u64_sized (sha256 : list Z -> list Z) (input : list Z)
  : res (list Z) :=
  let digest := sha256 input in
  if negb (length digest =? 32)%nat then Err EInputSize
  else Ok (map (fun i => of_le_bytes (firstn 8 (skipn (8 * i) digest))) (seq 0 4)).
