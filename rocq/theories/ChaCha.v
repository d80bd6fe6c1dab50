(** * ChaCha: the generator behind src/utils.rs:54-69 and 90-92 ([StdRng::from_seed], [next_u32]):
    in rand 0.8 this is ChaCha12 of rand_chacha 0.3, with the seed as key, a 64-bit block counter
    from 0, and stream number 0. Elsewhere in the model the stream of a seed is an argument; this
    is the one the program runs with. The number of double rounds is kept as an argument, to
    compare with the published vectors of ChaCha20. *)
From Verif Require Export Base.
Local Open Scope Z_scope.

Definition rotl32 (n x : Z) : Z := Z.lor (Z.shiftl x n mod two32) (Z.shiftr x (32 - n)).
Definition qr (a b c d : Z) : Z * Z * Z * Z :=
  let a := (a + b) mod two32 in let d := rotl32 16 (Z.lxor d a) in
  let c := (c + d) mod two32 in let b := rotl32 12 (Z.lxor b c) in
  let a := (a + b) mod two32 in let d := rotl32 8 (Z.lxor d a) in
  let c := (c + d) mod two32 in let b := rotl32 7 (Z.lxor b c) in
  (a, b, c, d).
(** A column round, then a diagonal round, on the sixteen words. *)
Definition double_round (s : list Z) : list Z :=
  match s with
  | [x0; x1; x2; x3; x4; x5; x6; x7; x8; x9; x10; x11; x12; x13; x14; x15] =>
      let '(x0, x4, x8, x12) := qr x0 x4 x8 x12 in
      let '(x1, x5, x9, x13) := qr x1 x5 x9 x13 in
      let '(x2, x6, x10, x14) := qr x2 x6 x10 x14 in
      let '(x3, x7, x11, x15) := qr x3 x7 x11 x15 in
      let '(x0, x5, x10, x15) := qr x0 x5 x10 x15 in
      let '(x1, x6, x11, x12) := qr x1 x6 x11 x12 in
      let '(x2, x7, x8, x13) := qr x2 x7 x8 x13 in
      let '(x3, x4, x9, x14) := qr x3 x4 x9 x14 in
      [x0; x1; x2; x3; x4; x5; x6; x7; x8; x9; x10; x11; x12; x13; x14; x15]
  | _ => s
  end.
Fixpoint rounds (n : nat) (s : list Z) : list Z := match n with O => s | S n => rounds n (double_round s) end.
(** "expand 32-byte k", the key, the counter, the stream number 0. *)
Definition chacha_start (seed : list Z) (block : Z) : list Z :=
  [1634760805; 857760878; 2036477234; 1797285236] ++
  map (fun i => of_le_bytes (firstn 4 (skipn (4 * i) seed)) mod two32) (seq 0 8) ++
  [block mod two32; block / two32 mod two32; 0; 0].
Definition chacha_block (double_rounds : nat) (seed : list Z) (block : Z) : list Z :=
  let s := chacha_start seed block in
  map (fun p => (fst p + snd p) mod two32) (combine s (rounds double_rounds s)).
(** The [k]-th [next_u32]. The crate makes four blocks at a time and hands their words out in
    order, and reads only whole words here. *)
Definition std_rng (seed : list Z) (k : nat) : Z :=
  nth (k mod 16) (chacha_block 6 seed (Z.of_nat (k / 16))) 0.
