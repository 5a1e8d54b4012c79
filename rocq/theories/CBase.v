(** Machine integers, C strings and the libc number conversions the library relies on.
    Platform: LP64 two's complement (int 32 bits, long and long long 64 bits). *)
From Coq Require Export List ZArith Lia Bool String Ascii.
Export ListNotations.
Global Open Scope Z_scope.
Global Open Scope list_scope.

(** Conversion to an unsigned / signed integer type of 32 or 64 bits. *)
Definition u8  (z : Z) : Z := z mod 256.
Definition u32 (z : Z) : Z := z mod 2^32.
Definition u64 (z : Z) : Z := z mod 2^64.
Definition i32 (z : Z) : Z := (z + 2^31) mod 2^32 - 2^31.
Definition i64 (z : Z) : Z := (z + 2^63) mod 2^64 - 2^63.

Definition is_u32 (z : Z) : Prop := 0 <= z < 2^32.
Definition is_i32 (z : Z) : Prop := - 2^31 <= z < 2^31.
Definition is_i64 (z : Z) : Prop := - 2^63 <= z < 2^63.

(** Result of a call that may have undefined behaviour (NULL dereference,
    out-of-bounds access, ...). *)
Inductive outcome (A : Type) : Type :=
| Ok (a : A)
| UB.
Arguments Ok {A} a.
Arguments UB {A}.

Definition obind {A B} (m : outcome A) (f : A -> outcome B) : outcome B :=
  match m with Ok a => f a | UB => UB end.

(** C strings: the bytes before the terminating NUL. *)
Notation cstr := (list Z) (only parsing).

Definition s2z (s : string) : cstr :=
  map (fun a => Z.of_N (N_of_ascii a)) (list_ascii_of_string s).

Fixpoint str_eqb (a b : cstr) : bool :=
  match a, b with
  | [], [] => true
  | x :: a', y :: b' => (x =? y) && str_eqb a' b'
  | _, _ => false
  end.

(** strcmp (C11 7.24.4.2): sign of the first difference, bytes compared as unsigned char;
    a proper prefix is smaller (its NUL is smaller than any byte). *)
Fixpoint strcmp (a b : cstr) : Z :=
  match a, b with
  | [], [] => 0
  | [], _ :: _ => -1
  | _ :: _, [] => 1
  | x :: a', y :: b' => if x <? y then -1 else if y <? x then 1 else strcmp a' b'
  end.

(** A pointer to a C string that may be NULL; the recurrent idiom
    [p ? p : ""] of the equal functions. *)
Definition or_empty (s : option cstr) : cstr :=
  match s with Some x => x | None => [] end.

(** [s == NULL || strlen(s) == 0] *)
Definition null_or_empty (s : option cstr) : bool :=
  match s with None => true | Some [] => true | Some _ => false end.

(** Decimal digits of a non-negative number, most significant first. *)
Fixpoint dec_digits (fuel : nat) (n : Z) (acc : cstr) : cstr :=
  match fuel with
  | O => acc
  | S f => let acc' := (48 + n mod 10) :: acc in
           if n <? 10 then acc' else dec_digits f (n / 10) acc'
  end.

(** printf "%u" / "%lld" of a non-negative argument. *)
Definition print_nonneg (n : Z) : cstr := dec_digits (S (Z.to_nat (Z.log2 n))) n [].

(** printf "%d" / "%lld". *)
Definition print_dec (z : Z) : cstr :=
  if z <? 0 then 45 :: print_nonneg (- z) else print_nonneg z.

(** printf "%0<w>u": zero padded on the left to width [w]. *)
Definition pad_zero (w : nat) (s : cstr) : cstr := repeat 48 (w - List.length s) ++ s.

(** printf "%0<w>d": the sign counts and comes first. *)
Definition print_dec_pad (w : nat) (z : Z) : cstr :=
  if z <? 0 then 45 :: pad_zero (w - 1) (print_nonneg (- z)) else pad_zero w (print_nonneg z).

(** isspace in the C locale. *)
Definition c_isspace (c : Z) : bool := ((9 <=? c) && (c <=? 13)) || (c =? 32).
Definition c_isdigit (c : Z) : bool := (48 <=? c) && (c <=? 57).

Fixpoint skip_space (s : cstr) : cstr :=
  match s with
  | c :: s' => if c_isspace c then skip_space s' else s
  | [] => []
  end.

(** Value of the leading decimal digits, and the rest of the string. *)
Fixpoint read_digits (s : cstr) (acc : Z) : Z * cstr :=
  match s with
  | c :: s' => if c_isdigit c then read_digits s' (10 * acc + (c - 48)) else (acc, s)
  | [] => (acc, [])
  end.

(** Integer denoted by the prefix of a string as strtol base 10 reads it, without a range limit. *)
Definition read_int (s : cstr) : Z :=
  match skip_space s with
  | 45 :: s' => - fst (read_digits s' 0)
  | 43 :: s' => fst (read_digits s' 0)
  | s' => fst (read_digits s' 0)
  end.

Definition clamp64 (z : Z) : Z := Z.max (- 2^63) (Z.min (2^63 - 1) z).

(** glibc: atoll(s) = strtoll(s, NULL, 10), saturating at the 64-bit limits;
    atoi(s) = (int)strtol(s, NULL, 10) with 64-bit long. *)
Definition atoll (s : cstr) : Z := clamp64 (read_int s).
Definition atoi (s : cstr) : Z := i32 (clamp64 (read_int s)).
