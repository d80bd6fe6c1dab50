(** * Sha256: the digest that src/utils.rs:258-260 takes from the crate sha2 ([Sha256::new],
    [update], [finalize]), written down from FIPS 180-4. Elsewhere in the model the digest is an
    argument; this is the one the program runs with. *)
From Verif Require Export Base.
Local Open Scope Z_scope.

(** FIPS 180-4, 4.1.2: the functions on 32-bit words. *)
Definition rotr32 (n x : Z) : Z := Z.lor (Z.shiftr x n) (Z.shiftl x (32 - n) mod two32).
Definition big_sigma0 (x : Z) : Z := Z.lxor (Z.lxor (rotr32 2 x) (rotr32 13 x)) (rotr32 22 x).
Definition big_sigma1 (x : Z) : Z := Z.lxor (Z.lxor (rotr32 6 x) (rotr32 11 x)) (rotr32 25 x).
Definition small_sigma0 (x : Z) : Z := Z.lxor (Z.lxor (rotr32 7 x) (rotr32 18 x)) (Z.shiftr x 3).
Definition small_sigma1 (x : Z) : Z := Z.lxor (Z.lxor (rotr32 17 x) (rotr32 19 x)) (Z.shiftr x 10).
Definition ch (x y z : Z) : Z := Z.lxor (Z.land x y) (Z.land (two32 - 1 - x) z).
Definition maj (x y z : Z) : Z := Z.lxor (Z.lxor (Z.land x y) (Z.land x z)) (Z.land y z).

(** 4.2.2 and 5.3.3: the constants. *)
Definition sha_k : list Z := [
    1116352408; 1899447441; 3049323471; 3921009573; 961987163; 1508970993; 2453635748;
    2870763221; 3624381080; 310598401; 607225278; 1426881987; 1925078388; 2162078206;
    2614888103; 3248222580; 3835390401; 4022224774; 264347078; 604807628; 770255983; 1249150122;
    1555081692; 1996064986; 2554220882; 2821834349; 2952996808; 3210313671; 3336571891;
    3584528711; 113926993; 338241895; 666307205; 773529912; 1294757372; 1396182291; 1695183700;
    1986661051; 2177026350; 2456956037; 2730485921; 2820302411; 3259730800; 3345764771;
    3516065817; 3600352804; 4094571909; 275423344; 430227734; 506948616; 659060556; 883997877;
    958139571; 1322822218; 1537002063; 1747873779; 1955562222; 2024104815; 2227730452;
    2361852424; 2428436474; 2756734187; 3204031479; 3329325298].
Definition sha_h0 : list Z := [
    1779033703; 3144134277; 1013904242; 2773480762; 1359893119; 2600822924; 528734635;
    1541459225].

(** Big-endian bytes. *)
Fixpoint be_bytes (n : nat) (x : Z) : list Z :=
  match n with O => [] | S n => be_bytes n (x / 256) ++ [x mod 256] end.
Fixpoint be_words (l : list Z) : list Z :=
  match l with
  | a :: b :: c :: d :: t => (((a * 256 + b) * 256 + c) * 256 + d) :: be_words t
  | _ => []
  end.

(** 5.1.1: one bit, zeroes up to 56 bytes modulo 64, the bit length in 8 bytes. *)
Definition sha_pad (m : list Z) : list Z :=
  m ++ [128] ++ repeat 0 ((119 - length m mod 64) mod 64)%nat ++ be_bytes 8 (8 * Z.of_nat (length m) mod two64).

(** 6.2.2: message schedule (words in reverse, the latest first), rounds, feed-forward. *)
Fixpoint schedule (n : nat) (w : list Z) : list Z :=
  match n with
  | O => w
  | S n =>
      let x := (small_sigma1 (nth 1 w 0) + nth 6 w 0 + small_sigma0 (nth 14 w 0) + nth 15 w 0) mod two32 in
      schedule n (x :: w)
  end.
Definition sha_round (s : list Z) (kw : Z * Z) : list Z :=
  match s with
  | [a; b; c; d; e; f; g; h] =>
      let t1 := h + big_sigma1 e + ch e f g + fst kw + snd kw in
      let t2 := big_sigma0 a + maj a b c in
      [(t1 + t2) mod two32; a; b; c; (d + t1) mod two32; e; f; g]
  | _ => s
  end.
Definition compress (h block : list Z) : list Z :=
  let w := rev (schedule 48 (rev (be_words block))) in
  map (fun p => (fst p + snd p) mod two32) (combine h (fold_left sha_round (combine sha_k w) h)).
Fixpoint sha_blocks (n : nat) (h m : list Z) : list Z :=
  match n with O => h | S n => sha_blocks n (compress h (firstn 64 m)) (skipn 64 m) end.
Definition sha256 (m : list Z) : list Z :=
  let p := sha_pad m in
  flat_map (be_bytes 4) (sha_blocks (length p / 64) sha_h0 p).
