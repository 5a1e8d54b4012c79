(** The secure hash standard FIPS 180-4: SHA-1 and SHA-256 of a message of bytes, written from
    the standard.  Words are integers in [0, 2^32). *)
From Coq Require Import List ZArith.
Import ListNotations.
Open Scope Z_scope.

(** 2.2.2, 3.2: operations on 32-bit words. *)
Definition addw (x y : Z) : Z := (x + y) mod 2 ^ 32.
Definition shr (n x : Z) : Z := x / 2 ^ n.
Definition rotr32 (n x : Z) : Z := Z.lor (x / 2 ^ n) ((x * 2 ^ (32 - n)) mod 2 ^ 32).
Definition rotl32 (n x : Z) : Z := Z.lor ((x * 2 ^ n) mod 2 ^ 32) (x / 2 ^ (32 - n)).
Definition notw (x : Z) : Z := 2 ^ 32 - 1 - x.

(** 4.1.1, 4.1.2: functions. *)
Definition Ch (x y z : Z) : Z := Z.lxor (Z.land x y) (Z.land (notw x) z).
Definition Parity (x y z : Z) : Z := Z.lxor (Z.lxor x y) z.
Definition Maj (x y z : Z) : Z := Z.lxor (Z.lxor (Z.land x y) (Z.land x z)) (Z.land y z).

Definition f1 (t : nat) : Z -> Z -> Z -> Z :=
  if (t <? 20)%nat then Ch else if (t <? 40)%nat then Parity
  else if (t <? 60)%nat then Maj else Parity.

Definition Sigma0 (x : Z) : Z := Z.lxor (Z.lxor (rotr32 2 x) (rotr32 13 x)) (rotr32 22 x).
Definition Sigma1 (x : Z) : Z := Z.lxor (Z.lxor (rotr32 6 x) (rotr32 11 x)) (rotr32 25 x).
Definition sigma0 (x : Z) : Z := Z.lxor (Z.lxor (rotr32 7 x) (rotr32 18 x)) (shr 3 x).
Definition sigma1 (x : Z) : Z := Z.lxor (Z.lxor (rotr32 17 x) (rotr32 19 x)) (shr 10 x).

(** 4.2.1, 4.2.2: constants. *)
Definition K1 (t : nat) : Z :=
  if (t <? 20)%nat then 0x5a827999 else if (t <? 40)%nat then 0x6ed9eba1
  else if (t <? 60)%nat then 0x8f1bbcdc else 0xca62c1d6.

Definition K256 : list Z :=
  [0x428a2f98; 0x71374491; 0xb5c0fbcf; 0xe9b5dba5; 0x3956c25b; 0x59f111f1; 0x923f82a4; 0xab1c5ed5;
   0xd807aa98; 0x12835b01; 0x243185be; 0x550c7dc3; 0x72be5d74; 0x80deb1fe; 0x9bdc06a7; 0xc19bf174;
   0xe49b69c1; 0xefbe4786; 0x0fc19dc6; 0x240ca1cc; 0x2de92c6f; 0x4a7484aa; 0x5cb0a9dc; 0x76f988da;
   0x983e5152; 0xa831c66d; 0xb00327c8; 0xbf597fc7; 0xc6e00bf3; 0xd5a79147; 0x06ca6351; 0x14292967;
   0x27b70a85; 0x2e1b2138; 0x4d2c6dfc; 0x53380d13; 0x650a7354; 0x766a0abb; 0x81c2c92e; 0x92722c85;
   0xa2bfe8a1; 0xa81a664b; 0xc24b8b70; 0xc76c51a3; 0xd192e819; 0xd6990624; 0xf40e3585; 0x106aa070;
   0x19a4c116; 0x1e376c08; 0x2748774c; 0x34b0bcb5; 0x391c0cb3; 0x4ed8aa4a; 0x5b9cca4f; 0x682e6ff3;
   0x748f82ee; 0x78a5636f; 0x84c87814; 0x8cc70208; 0x90befffa; 0xa4506ceb; 0xbef9a3f7; 0xc67178f2].

(** 5.1.1: padding.  A message of [l] bytes is followed by the byte 0x80, the least number of
    zero bytes that leaves 8 bytes free in the last block of 64, and its length in bits. *)
Definition big_endian (n : nat) (x : Z) : list Z :=
  map (fun i => (x / 2 ^ (8 * Z.of_nat (n - 1 - i))) mod 256) (seq 0 n).

Definition padded (m : list Z) : list Z :=
  let l := Z.of_nat (length m) in
  m ++ [0x80] ++ repeat 0 (Z.to_nat ((55 - l) mod 64)) ++ big_endian 8 (8 * l).

(** 5.2.1: a padded message is parsed into blocks of 64 bytes, each of 16 big-endian words. *)
Fixpoint blocks (n : nat) (m : list Z) : list (list Z) :=
  match n with
  | O => []
  | S n' => firstn 64 m :: blocks n' (skipn 64 m)
  end.

Definition word (b : list Z) (t : nat) : Z :=
  nth (4 * t) b 0 * 2 ^ 24 + nth (4 * t + 1) b 0 * 2 ^ 16 + nth (4 * t + 2) b 0 * 2 ^ 8
  + nth (4 * t + 3) b 0.

(** 5.3.1, 5.3.3: initial hash values. *)
Definition H1_0 : list Z := [0x67452301; 0xefcdab89; 0x98badcfe; 0x10325476; 0xc3d2e1f0].
Definition H256_0 : list Z :=
  [0x6a09e667; 0xbb67ae85; 0x3c6ef372; 0xa54ff53a; 0x510e527f; 0x9b05688c; 0x1f83d9ab; 0x5be0cd19].

(** 6.1.2 step 1, 6.2.2 step 1: message schedules; [n] more words after those of [w]. *)
Fixpoint schedule (next : (nat -> Z) -> Z) (n : nat) (w : list Z) : list Z :=
  match n with
  | O => w
  | S n' => schedule next n' (w ++ [next (fun back => nth (length w - back) w 0)])
  end.

Definition next1 (W : nat -> Z) : Z :=
  rotl32 1 (Z.lxor (Z.lxor (Z.lxor (W 3%nat) (W 8%nat)) (W 14%nat)) (W 16%nat)).
Definition next256 (W : nat -> Z) : Z :=
  addw (addw (addw (sigma1 (W 2%nat)) (W 7%nat)) (sigma0 (W 15%nat))) (W 16%nat).

Definition schedule1 (b : list Z) : list Z := schedule next1 64 (map (word b) (seq 0 16)).
Definition schedule256 (b : list Z) : list Z := schedule next256 48 (map (word b) (seq 0 16)).

(** 6.1.2 step 3: one step of SHA-1. *)
Definition step1 (W : list Z) (s : list Z) (t : nat) : list Z :=
  match s with
  | [a; b; c; d; e] =>
      let T := addw (addw (addw (addw (rotl32 5 a) (f1 t b c d)) e) (K1 t)) (nth t W 0) in
      [T; a; rotl32 30 b; c; d]
  | _ => s
  end.

(** 6.2.2 step 3: one step of SHA-256. *)
Definition step256 (W : list Z) (s : list Z) (t : nat) : list Z :=
  match s with
  | [a; b; c; d; e; f; g; h] =>
      let T1 := addw (addw (addw (addw h (Sigma1 e)) (Ch e f g)) (nth t K256 0)) (nth t W 0) in
      let T2 := addw (Sigma0 a) (Maj a b c) in
      [addw T1 T2; a; b; c; addw d T1; e; f; g]
  | _ => s
  end.

Definition add_words (x y : list Z) : list Z := map (fun p => addw (fst p) (snd p)) (combine x y).

(** 6.1.2 steps 2-4, 6.2.2 steps 2-4: the next hash value. *)
Definition next_hash1 (H b : list Z) : list Z :=
  add_words H (fold_left (step1 (schedule1 b)) (seq 0 80) H).
Definition next_hash256 (H b : list Z) : list Z :=
  add_words H (fold_left (step256 (schedule256 b)) (seq 0 64) H).

(** 6.1.2, 6.2.2: the digest. *)
Definition SHA1 (m : list Z) : list Z :=
  let p := padded m in
  flat_map (big_endian 4) (fold_left next_hash1 (blocks (length p / 64) p) H1_0).
Definition SHA256 (m : list Z) : list Z :=
  let p := padded m in
  flat_map (big_endian 4) (fold_left next_hash256 (blocks (length p / 64) p) H256_0).

(** A message: bytes. *)
Definition message (m : list Z) : Prop := Forall (fun c => 0 <= c < 256) m.

(** Lower-case hexadecimal digits of a list of bytes. *)
Definition hex_digits : list Z :=
  [48; 49; 50; 51; 52; 53; 54; 55; 56; 57; 97; 98; 99; 100; 101; 102].
Definition hexadecimal (bytes : list Z) : list Z :=
  flat_map (fun c => [nth (Z.to_nat (c / 16)) hex_digits 0; nth (Z.to_nat (c mod 16)) hex_digits 0])
           bytes.
