(** SHA-1 and SHA-256: src/sha1hash.c, src/sha256hash.c, and the file checksums of
    src/sha1.c and src/sha256.c.

    The words of the contexts are [unsigned long] objects, 64 bits wide on LP64 and 32 bits
    wide on LLP64, whose sums are never masked to 32 bits; the width is the parameter [lw].
    The message length is an [unsigned long long] (64 bits) on every platform.
    Byte buffers are lists of byte values. *)
From Verif Require Import CBase.

(** inc/sha1hash.h, inc/sha256hash.h: result codes (enum CRYPT_OK ...). *)
Definition CRYPT_OK : Z := 0.
Definition CRYPT_ERROR : Z := 1.
Definition CRYPT_NOP : Z := 2.
Definition CRYPT_INVALID_ARG : Z := 16.
Definition CRYPT_HASH_OVERFLOW : Z := 25.

(** Reading and writing an array element; every index used below is in range. *)
Definition get (l : list Z) (i : nat) : Z := nth i l 0.
Fixpoint put (l : list Z) (i : nat) (v : Z) : list Z :=
  match l, i with
  | [], _ => []
  | _ :: l', O => v :: l'
  | x :: l', S i' => x :: put l' i' v
  end.

(** memcpy(dst + at, src, length of src): the bytes of [src] overwrite those of [dst] from [at] on. *)
Fixpoint copy_at (dst : list Z) (at_ : nat) (src : list Z) : list Z :=
  match src with
  | [] => dst
  | x :: src' => copy_at (put dst at_ x) (S at_) src'
  end.

(** src/sha1hash.c 46-50 and src/sha256hash.c 60-67: LOAD32H. *)
Definition load32h (b : list Z) (at_ : nat) : Z :=
  Z.lor (Z.lor (Z.lor (Z.shiftl (Z.land (get b at_) 255) 24)
                      (Z.shiftl (Z.land (get b (at_ + 1)) 255) 16))
               (Z.shiftl (Z.land (get b (at_ + 2)) 255) 8))
        (Z.land (get b (at_ + 3)) 255).

(** src/sha1hash.c 56-58 and src/sha256hash.c 69-71: STORE32H. *)
Definition store32h (x : Z) : list Z :=
  [Z.land (Z.shiftr x 24) 255; Z.land (Z.shiftr x 16) 255; Z.land (Z.shiftr x 8) 255; Z.land x 255].

(** src/sha1hash.c 60-64 and src/sha256hash.c 73-77: STORE64H. *)
Definition store64h (x : Z) : list Z :=
  [Z.land (Z.shiftr x 56) 255; Z.land (Z.shiftr x 48) 255; Z.land (Z.shiftr x 40) 255;
   Z.land (Z.shiftr x 32) 255; Z.land (Z.shiftr x 24) 255; Z.land (Z.shiftr x 16) 255;
   Z.land (Z.shiftr x 8) 255; Z.land x 255].

(** src/sha1hash.c 592-600: rotl; the argument is converted to a 32-bit unsigned int. *)
Definition rotl (value : Z) (shift : Z) : Z :=
  let value := u32 value in
  let shift := Z.land shift 31 in
  if shift =? 0 then value
  else Z.lor (u32 (Z.shiftl value shift)) (Z.shiftr value (32 - shift)).

(** src/sha256hash.c 715-724: rotr (the diagnostic print on a zero shift is left out;
    no caller shifts by zero). *)
Definition rotr (value : Z) (shift : Z) : Z :=
  let value := u32 value in
  let shift := Z.land shift 31 in
  if shift =? 0 then value
  else Z.lor (Z.shiftr value shift) (u32 (Z.shiftl value (32 - shift))).

(** The context: inc/sha1hash.h 71-77, inc/sha256hash.h struct afs_sha256_state. *)
Record hash_state : Type := HashState {
  h_length : Z;
  h_state : list Z;
  h_curlen : Z;
  h_buf : list Z
}.

Section Words.
Variable lw : Z.

(** Arithmetic on unsigned long wraps at 2^lw. *)
Definition ul (z : Z) : Z := z mod 2 ^ lw.

(* ------------------------------------------------------------------ SHA-1 *)

(** src/sha1hash.c 66-69. *)
Definition AFS_F0 (x y z : Z) : Z := Z.lxor z (Z.land x (Z.lxor y z)).
Definition AFS_F1 (x y z : Z) : Z := Z.lxor (Z.lxor x y) z.
Definition AFS_F2 (x y z : Z) : Z := Z.lor (Z.land x y) (Z.land z (Z.lor x y)).
Definition AFS_F3 (x y z : Z) : Z := Z.lxor (Z.lxor x y) z.

(** src/sha1hash.c 627-630: macros FF0 to FF3, the new values of [b] and [e].
    The sum is evaluated left to right in unsigned long. *)
Definition FF (F : Z -> Z -> Z -> Z) (k a b c d e w : Z) : Z * Z :=
  (rotl b 30, ul (ul (ul (ul (rotl a 5 + F b c d) + e) + w) + k)).

(** src/sha1hash.c 633-639 (and 642-648, 651-657, 660-666): one turn of a round loop,
    five steps with the registers renamed instead of moved. *)
Definition five (F : Z -> Z -> Z -> Z) (k : Z) (W : list Z) (i : nat)
    (r : Z * Z * Z * Z * Z) : Z * Z * Z * Z * Z :=
  let '(a, b, c, d, e) := r in
  let '(b, e) := FF F k a b c d e (get W i) in
  let '(a, d) := FF F k e a b c d (get W (i + 1)) in
  let '(e, c) := FF F k d e a b c (get W (i + 2)) in
  let '(d, b) := FF F k c d e a b (get W (i + 3)) in
  let '(c, a) := FF F k b c d e a (get W (i + 4)) in
  (a, b, c, d, e).

(** One of the four loops: four turns starting at step [i]. *)
Definition twenty F k W (i : nat) r :=
  five F k W (i + 15) (five F k W (i + 10) (five F k W (i + 5) (five F k W i r))).

(** src/sha1hash.c 607-610: the first sixteen schedule words. *)
Definition load_words (buf : list Z) : list Z :=
  map (fun i => load32h buf (4 * i)) (seq 0 16).

(** src/sha1hash.c 620-623: schedule words 16 to 79, appended one at a time. *)
Fixpoint expand1 (n : nat) (W : list Z) (i : nat) : list Z :=
  match n with
  | O => W
  | S n' =>
      expand1 n'
        (W ++ [rotl (Z.lxor (Z.lxor (Z.lxor (get W (i - 3)) (get W (i - 8))) (get W (i - 14)))
                            (get W (i - 16))) 1])
        (S i)
  end.

(** src/sha1hash.c 602-681: compress, the new state words. *)
Definition compress1 (st buf : list Z) : list Z :=
  let W := expand1 64 (load_words buf) 16 in
  let r := (get st 0, get st 1, get st 2, get st 3, get st 4) in
  let r := twenty AFS_F0 0x5a827999 W 0 r in
  let r := twenty AFS_F1 0x6ed9eba1 W 20 r in
  let r := twenty AFS_F2 0x8f1bbcdc W 40 r in
  let r := twenty AFS_F3 0xca62c1d6 W 60 r in
  let '(a, b, c, d, e) := r in
  [ul (get st 0 + a); ul (get st 1 + b); ul (get st 2 + c); ul (get st 3 + d); ul (get st 4 + e)].

(* ---------------------------------------------------------------- SHA-256 *)

(** src/sha256hash.c 51-58. *)
Definition AFS_Ch (x y z : Z) : Z := Z.lxor z (Z.land x (Z.lxor y z)).
Definition AFS_Maj (x y z : Z) : Z := Z.lor (Z.land (Z.lor x y) z) (Z.land x y).
Definition AFS_S (x n : Z) : Z := rotr x n.
Definition AFS_R (x n : Z) : Z := Z.shiftr (Z.land x 0xFFFFFFFF) n.
Definition AFS_Sigma0 (x : Z) : Z := Z.lxor (Z.lxor (AFS_S x 2) (AFS_S x 13)) (AFS_S x 22).
Definition AFS_Sigma1 (x : Z) : Z := Z.lxor (Z.lxor (AFS_S x 6) (AFS_S x 11)) (AFS_S x 25).
Definition AFS_Gamma0 (x : Z) : Z := Z.lxor (Z.lxor (AFS_S x 7) (AFS_S x 18)) (AFS_R x 3).
Definition AFS_Gamma1 (x : Z) : Z := Z.lxor (Z.lxor (AFS_S x 17) (AFS_S x 19)) (AFS_R x 10).

(** src/sha256hash.c 626-630: schedule words 16 to 63. *)
Fixpoint expand256 (n : nat) (W : list Z) (i : nat) : list Z :=
  match n with
  | O => W
  | S n' =>
      expand256 n'
        (W ++ [ul (ul (ul (AFS_Gamma1 (get W (i - 2)) + get W (i - 7)) + AFS_Gamma0 (get W (i - 15)))
                   + get W (i - 16))])
        (S i)
  end.

(** src/sha256hash.c 633-637: macro RND on the array S; [a] to [h] are indices into S. *)
Record rnd : Type := RND { r_a : nat; r_b : nat; r_c : nat; r_d : nat; r_e : nat; r_f : nat;
                           r_g : nat; r_h : nat; r_i : nat; r_k : Z }.

Definition do_rnd (W : list Z) (s : list Z) (r : rnd) : list Z :=
  let '(RND a b c d e f g h i ki) := r in
  let t0 := ul (ul (ul (ul (get s h + AFS_Sigma1 (get s e)) + AFS_Ch (get s e) (get s f) (get s g)) + ki)
               + get W i) in
  let t1 := ul (AFS_Sigma0 (get s a) + AFS_Maj (get s a) (get s b) (get s c)) in
  let s := put s d (ul (get s d + t0)) in
  put s h (ul (t0 + t1)).

(** src/sha256hash.c 639-702, line by line. *)
Definition rounds : list rnd :=
  [
    RND 0 1 2 3 4 5 6 7 0 0x428a2f98;
    RND 7 0 1 2 3 4 5 6 1 0x71374491;
    RND 6 7 0 1 2 3 4 5 2 0xb5c0fbcf;
    RND 5 6 7 0 1 2 3 4 3 0xe9b5dba5;
    RND 4 5 6 7 0 1 2 3 4 0x3956c25b;
    RND 3 4 5 6 7 0 1 2 5 0x59f111f1;
    RND 2 3 4 5 6 7 0 1 6 0x923f82a4;
    RND 1 2 3 4 5 6 7 0 7 0xab1c5ed5;
    RND 0 1 2 3 4 5 6 7 8 0xd807aa98;
    RND 7 0 1 2 3 4 5 6 9 0x12835b01;
    RND 6 7 0 1 2 3 4 5 10 0x243185be;
    RND 5 6 7 0 1 2 3 4 11 0x550c7dc3;
    RND 4 5 6 7 0 1 2 3 12 0x72be5d74;
    RND 3 4 5 6 7 0 1 2 13 0x80deb1fe;
    RND 2 3 4 5 6 7 0 1 14 0x9bdc06a7;
    RND 1 2 3 4 5 6 7 0 15 0xc19bf174;
    RND 0 1 2 3 4 5 6 7 16 0xe49b69c1;
    RND 7 0 1 2 3 4 5 6 17 0xefbe4786;
    RND 6 7 0 1 2 3 4 5 18 0x0fc19dc6;
    RND 5 6 7 0 1 2 3 4 19 0x240ca1cc;
    RND 4 5 6 7 0 1 2 3 20 0x2de92c6f;
    RND 3 4 5 6 7 0 1 2 21 0x4a7484aa;
    RND 2 3 4 5 6 7 0 1 22 0x5cb0a9dc;
    RND 1 2 3 4 5 6 7 0 23 0x76f988da;
    RND 0 1 2 3 4 5 6 7 24 0x983e5152;
    RND 7 0 1 2 3 4 5 6 25 0xa831c66d;
    RND 6 7 0 1 2 3 4 5 26 0xb00327c8;
    RND 5 6 7 0 1 2 3 4 27 0xbf597fc7;
    RND 4 5 6 7 0 1 2 3 28 0xc6e00bf3;
    RND 3 4 5 6 7 0 1 2 29 0xd5a79147;
    RND 2 3 4 5 6 7 0 1 30 0x06ca6351;
    RND 1 2 3 4 5 6 7 0 31 0x14292967;
    RND 0 1 2 3 4 5 6 7 32 0x27b70a85;
    RND 7 0 1 2 3 4 5 6 33 0x2e1b2138;
    RND 6 7 0 1 2 3 4 5 34 0x4d2c6dfc;
    RND 5 6 7 0 1 2 3 4 35 0x53380d13;
    RND 4 5 6 7 0 1 2 3 36 0x650a7354;
    RND 3 4 5 6 7 0 1 2 37 0x766a0abb;
    RND 2 3 4 5 6 7 0 1 38 0x81c2c92e;
    RND 1 2 3 4 5 6 7 0 39 0x92722c85;
    RND 0 1 2 3 4 5 6 7 40 0xa2bfe8a1;
    RND 7 0 1 2 3 4 5 6 41 0xa81a664b;
    RND 6 7 0 1 2 3 4 5 42 0xc24b8b70;
    RND 5 6 7 0 1 2 3 4 43 0xc76c51a3;
    RND 4 5 6 7 0 1 2 3 44 0xd192e819;
    RND 3 4 5 6 7 0 1 2 45 0xd6990624;
    RND 2 3 4 5 6 7 0 1 46 0xf40e3585;
    RND 1 2 3 4 5 6 7 0 47 0x106aa070;
    RND 0 1 2 3 4 5 6 7 48 0x19a4c116;
    RND 7 0 1 2 3 4 5 6 49 0x1e376c08;
    RND 6 7 0 1 2 3 4 5 50 0x2748774c;
    RND 5 6 7 0 1 2 3 4 51 0x34b0bcb5;
    RND 4 5 6 7 0 1 2 3 52 0x391c0cb3;
    RND 3 4 5 6 7 0 1 2 53 0x4ed8aa4a;
    RND 2 3 4 5 6 7 0 1 54 0x5b9cca4f;
    RND 1 2 3 4 5 6 7 0 55 0x682e6ff3;
    RND 0 1 2 3 4 5 6 7 56 0x748f82ee;
    RND 7 0 1 2 3 4 5 6 57 0x78a5636f;
    RND 6 7 0 1 2 3 4 5 58 0x84c87814;
    RND 5 6 7 0 1 2 3 4 59 0x8cc70208;
    RND 4 5 6 7 0 1 2 3 60 0x90befffa;
    RND 3 4 5 6 7 0 1 2 61 0xa4506ceb;
    RND 2 3 4 5 6 7 0 1 62 0xbef9a3f7;
    RND 1 2 3 4 5 6 7 0 63 0xc67178f2
  ]%nat.

(** src/sha256hash.c 609-712: compress, the new state words. *)
Definition compress256 (st buf : list Z) : list Z :=
  let s := map (get st) (seq 0 8) in
  let W := expand256 48 (load_words buf) 16 in
  let s := fold_left (do_rnd W) rounds s in
  map (fun i => ul (get st i + get s i)) (seq 0 8).

(* ------------------------------------------------------------- streaming *)

(** src/sha1hash.c 366-381: afs_sha1_init; [None] is the NULL context.  The content of the
    buffer is whatever it was; the model starts it with zeros, which nothing reads. *)
Definition afs_sha1_init (md : option hash_state) : Z * option hash_state :=
  match md with
  | None => (CRYPT_NOP, None)
  | Some m =>
      (CRYPT_OK, Some (HashState 0 [0x67452301; 0xefcdab89; 0x98badcfe; 0x10325476; 0xc3d2e1f0]
                                 0 (h_buf m)))
  end.

(** src/sha256hash.c 440-459. *)
Definition afs_sha256_init (md : option hash_state) : Z * option hash_state :=
  match md with
  | None => (CRYPT_NOP, None)
  | Some m =>
      (CRYPT_OK, Some (HashState 0 [0x6A09E667; 0xBB67AE85; 0x3C6EF372; 0xA54FF53A;
                                    0x510E527F; 0x9B05688C; 0x1F83D9AB; 0x5BE0CD19]
                                 0 (h_buf m)))
  end.

Section Stream.
Variable compress : list Z -> list Z -> list Z.

(** src/sha1hash.c 410-439 and src/sha256hash.c 101-131: the loop over the input.
    [input] holds the bytes from [in] on, [inlen] of them.  Each turn takes at least one byte,
    so the length of the input bounds the number of turns. *)
Fixpoint process_loop (fuel : nat) (md : hash_state) (input : list Z) : hash_state :=
  match fuel with
  | O => md
  | S fuel' =>
      let inlen := Z.of_nat (List.length input) in
      if inlen >? 0 then
        if (h_curlen md =? 0) && (inlen >=? 64) then
          process_loop fuel'
            (HashState (u64 (h_length md + 64 * 8)) (compress (h_state md) (firstn 64 input))
                       (h_curlen md) (h_buf md))
            (skipn 64 input)
        else
          let n := if inlen <? ul (64 - h_curlen md) then inlen else ul (64 - h_curlen md) in
          let buf := copy_at (h_buf md) (Z.to_nat (h_curlen md)) (firstn (Z.to_nat n) input) in
          let curlen := ul (h_curlen md + n) in
          let input := skipn (Z.to_nat n) input in
          if curlen =? 64 then
            process_loop fuel'
              (HashState (u64 (h_length md + 8 * 64)) (compress (h_state md) buf) 0 buf) input
          else
            process_loop fuel' (HashState (h_length md) (h_state md) curlen buf) input
      else md
  end.

(** The zero filling loops of the done functions: [while (curlen < upto) buf[curlen++] = 0]. *)
Fixpoint zero_fill (n : nat) (buf : list Z) (at_ : nat) : list Z :=
  match n with
  | O => buf
  | S n' => zero_fill n' (put buf at_ 0) (S at_)
  end.

(** src/sha1hash.c 465-506 and src/sha256hash.c 498-540: the common part of the done functions,
    giving the words of the final state.  The unsigned curlen is below 64 here. *)
Definition finish (md : hash_state) : list Z :=
  let len := u64 (h_length md + ul (h_curlen md * 8)) in
  let buf := put (h_buf md) (Z.to_nat (h_curlen md)) 0x80 in
  let curlen := h_curlen md + 1 in
  let '(st, buf, curlen) :=
    if curlen >? 56 then
      let buf := zero_fill (Z.to_nat (64 - curlen)) buf (Z.to_nat curlen) in
      (compress (h_state md) buf, buf, 0)
    else (h_state md, buf, curlen) in
  let buf := zero_fill (Z.to_nat (56 - curlen)) buf (Z.to_nat curlen) in
  let buf := copy_at buf 56 (store64h len) in
  compress st buf.
End Stream.

(** src/sha1hash.c 395-442: afs_sha1_process, with [inlen] the number of bytes in [input]. *)
Definition afs_sha1_process (md : option hash_state) (input : option (list Z)) : Z * option hash_state :=
  match md, input with
  | Some m, Some bytes =>
      if h_curlen m >? 64 then (CRYPT_INVALID_ARG, md)
      else (CRYPT_OK, Some (process_loop compress1 (List.length bytes) m bytes))
  | _, _ => (CRYPT_NOP, md)
  end.

(** src/sha256hash.c 80-134, 475: afs_sha256_process; it also has an overflow check. *)
Definition afs_sha256_process (md : option hash_state) (input : option (list Z)) : Z * option hash_state :=
  match md, input with
  | Some m, Some bytes =>
      if h_curlen m >? 64 then (CRYPT_INVALID_ARG, md)
      else if u64 (h_length m + Z.of_nat (List.length bytes)) <? h_length m then (CRYPT_HASH_OVERFLOW, md)
      else (CRYPT_OK, Some (process_loop compress256 (List.length bytes) m bytes))
  | _, _ => (CRYPT_ERROR, md)
  end.

(** src/sha1hash.c 456-507: afs_sha1_done; the bytes written to [out], [None] when nothing is
    written.  [out] says whether the output pointer is not NULL.  The final context is left out. *)
Definition afs_sha1_done (md : option hash_state) (out : bool) : Z * option (list Z) :=
  match md with
  | Some m =>
      if negb out then (CRYPT_NOP, None)
      else if h_curlen m >=? 64 then (CRYPT_INVALID_ARG, None)
      else (CRYPT_OK,
            Some (flat_map (fun i => store32h (get (finish compress1 m) i)) (seq 0 5)))
  | None => (CRYPT_NOP, None)
  end.

(** src/sha256hash.c 489-541: afs_sha256_done. *)
Definition afs_sha256_done (md : option hash_state) (out : bool) : Z * option (list Z) :=
  match md with
  | Some m =>
      if negb out then (CRYPT_ERROR, None)
      else if h_curlen m >=? 64 then (CRYPT_INVALID_ARG, None)
      else (CRYPT_OK,
            Some (flat_map (fun i => store32h (get (finish compress256 m) i)) (seq 0 8)))
  | None => (CRYPT_ERROR, None)
  end.

(* ------------------------------------------------------------- hex output *)

(** sprintf "%02x" of an unsigned char. *)
Definition hex_digit (n : Z) : Z := if n <? 10 then 48 + n else 87 + n.
Definition hex2 (c : Z) : list Z := [hex_digit (c / 16); hex_digit (c mod 16)].

(** src/sha1hash.c 521-537: afs_sha1_hash_to_hex_string; the string left in [out].
    Reading past the digest is undefined. *)
Definition afs_sha1_hash_to_hex_string (input : option (list Z)) (out : bool)
    : outcome (Z * option (list Z)) :=
  match input with
  | Some bytes =>
      if out then
        if (List.length bytes <? 20)%nat then UB
        else Ok (CRYPT_OK, Some (flat_map (fun i => hex2 (get bytes i)) (seq 0 20)))
      else Ok (CRYPT_NOP, None)
  | None => Ok (CRYPT_NOP, None)
  end.

(* ------------------------------------------------------- file checksums *)

(** What a call of fread delivers is up to the environment: [short k], when not zero, is a limit
    on the bytes delivered by the k-th call; [error_at k] says the k-th call fails.  errno after a
    failed call is not zero; [errno_eof] is its value when a call delivers nothing at the end of
    the file (errno is not reset by the code, so it may be left over from an earlier call). *)
Record reader : Type := Reader {
  short : nat -> nat;
  error_at : nat -> bool;
  errno_eof : Z
}.

(** fread(buf, 1, max, in) with the rest of the file [rest]: bytes delivered. *)
Definition fread (rd : reader) (k : nat) (max : Z) (rest : list Z) : list Z :=
  if error_at rd k then []
  else
    let n := Z.to_nat (Z.min max (Z.of_nat (List.length rest))) in
    firstn (match short rd k with O => n | s => Nat.min s n end) rest.

Section File.
Variable init : option hash_state -> Z * option hash_state.
Variable process : option hash_state -> option (list Z) -> Z * option hash_state.
Variable done : option hash_state -> bool -> Z * option (list Z).
Variable hashsize : nat.

(** src/sha1.c 190-209, src/sha256.c 143-162: the loop of hash_filehandle; [k] counts the
    calls of fread.  [Ok None] says the digest buffer is not written.  A read of more than
    512 bytes overruns the local buffer.  [size] is a 64-bit signed integer; the conversion
    of a negative one to size_t is huge.  Every turn reads at least one byte, so the length of
    the rest of the file (plus one) bounds the number of turns. *)
Fixpoint hash_loop (fuel : nat) (rd : reader) (k : nat) (md : option hash_state) (rest : list Z)
    (size : Z) : outcome (Z * option (list Z)) :=
  match fuel with
  | O => UB
  | S fuel' =>
      if size =? 0 then Ok (done md true)
      else
        let max_size := u64 (if size >? 512 then 512 else size) in
        let bytes := fread rd k max_size rest in
        if (512 <? List.length bytes)%nat then UB
        else if (List.length bytes =? 0)%nat then
          let errno := if error_at rd k then 1 else errno_eof rd in
          if negb (errno =? 0) then Ok (CRYPT_OK, None) else Ok (done md true)
        else
          let '(err, md') := process md (Some bytes) in
          if negb (err =? CRYPT_OK) then Ok (err, None)
          else hash_loop fuel' rd (S k) md' (skipn (List.length bytes) rest)
                         (i64 (size - Z.of_nat (List.length bytes)))
  end.

(** src/sha1.c 173-212, src/sha256.c 125-165: hash_filehandle on an open stream.  The local
    context is not initialised: [junk] is its buffer. *)
Definition hash_filehandle (junk : list Z) (rd : reader) (rest : list Z) (size : Z)
    : outcome (Z * option (list Z)) :=
  let '(err, md) := init (Some (HashState 0 [] 0 junk)) in
  if negb (err =? CRYPT_OK) then Ok (err, None)
  else hash_loop (S (List.length rest)) rd 0 md rest size.

(** src/sha1.c 215-272, src/sha256.c 168-225: sum2_private on a file with the given content.
    ftell gives the number of bytes.  The sum start + size overflowing is undefined; fseek to a
    negative position fails, to a position after the end it succeeds and reads see nothing.
    The error code of hash_filehandle is ignored, so when nothing was written the
    indeterminate bytes of the malloc'ed digest are printed (undefined). *)
Definition sum2_private (junk : list Z) (rd : reader) (content : list Z) (start size : Z)
    : outcome (option (list Z)) :=
  let file_size := Z.of_nat (List.length content) in
  if negb ((- 2^63 <=? start + size) && (start + size <? 2^63)) then UB
  else if start + size >? file_size then Ok None
  else
    let size := if size =? -1 then file_size - start else size in
    if negb ((- 2^63 <=? size) && (size <? 2^63)) then UB
    else if start <? 0 then Ok None
    else
      match hash_filehandle junk rd (skipn (Z.to_nat start) content) size with
      | UB => UB
      | Ok (_, None) => UB
      | Ok (_, Some digest) => Ok (Some (flat_map (fun i => hex2 (get digest i)) (seq 0 hashsize)))
      end.

(** src/sha1.c 102-127, src/sha256.c 56-81: the sum2 functions.  [content] is [None] when
    fopen fails. *)
Definition sum2 (junk : list Z) (rd : reader) (name : option (list Z))
    (content : option (list Z)) (start size : Z) : outcome (option (list Z)) :=
  match name with
  | None => Ok None
  | Some _ => match content with
              | None => Ok None
              | Some bytes => sum2_private junk rd bytes start size
              end
  end.
End File.

(** src/sha1.c 76-79, 102-127 and src/sha256.c 56-97. *)
Definition afs_sha1_sum2 := sum2 afs_sha1_init afs_sha1_process afs_sha1_done 20.
Definition afs_sha1_sum1 junk rd name content := afs_sha1_sum2 junk rd name content 0 (-1).
Definition afs_sha256_sum2 := sum2 afs_sha256_init afs_sha256_process afs_sha256_done 32.
Definition afs_sha256_sum1 junk rd name content := afs_sha256_sum2 junk rd name content 0 (-1).
End Words.
