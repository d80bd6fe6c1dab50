(** * Bincode: the external crate bincode 1.3.3, free functions [serialize] /
    [deserialize] (fixed-width little-endian integers, u64 length prefix, trailing
    bytes allowed) on [Query(Vec<u32>)] and [Response(Vec<u32>)] (newtype structs are
    transparent), as used by src/api.rs:78, 224 and the clients of [respond]. *)
From Verif Require Export Base.
Local Open Scope Z_scope.

Definition bincode_ser_vec_u32 (v : list Z) : list Z :=
  le_bytes 8 (Z.of_nat (length v)) ++ flat_map (le_bytes 4) v.

Fixpoint read_u32s (n : nat) (l : list Z) : list Z :=
  match n with O => [] | S k => of_le_bytes (firstn 4 l) :: read_u32s k (skipn 4 l) end.

Definition bincode_de_vec_u32 (l : list Z) : res (list Z) :=
  if (length l <? 8)%nat then Err EDeserialize
  else
    let n := of_le_bytes (firstn 8 l) in
    let rest := skipn 8 l in
    if Z.of_nat (length rest) <? 4 * n then Err EDeserialize
    else Ok (read_u32s (Z.to_nat n) rest).
