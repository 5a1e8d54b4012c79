(** Boxing format arithmetic: src/controlframe/boxingformat.c *)
From Verif Require Import CBase.

(** 1058-1072. [dividend] is a size_t, [divisor] an unsigned int; the cast applies to the dividend
    before the division, the remainder is taken in 64 bits. *)
Definition get_ceil (dividend divisor : Z) : Z :=
  if divisor =? 0 then 0
  else
    let result := u32 dividend / divisor in
    if negb (dividend mod divisor =? 0) then u32 (result + 1) else result.
(** 307-315, for a non-NULL format *)
Definition get_data_frames (bytes_per_frame file_size : Z) : Z := get_ceil file_size bytes_per_frame.

(** 1021-1027: the loop, with fuel; None when the fuel runs out. [>>] on a negative int is
    arithmetic. *)
Fixpoint depth_loop (fuel : nat) (l depth : Z) : option Z :=
  if l =? 0 then Some depth
  else match fuel with
       | O => None
       | S f => depth_loop f (Z.shiftr l 1) (u32 (depth + 1))
       end.
(** 1007-1030 with a frame; [levels] is the int the frame reports. *)
Definition bits_per_pixel (fuel : nat) (levels : Z) : option Z := depth_loop fuel (levels - 1) 0.
(** 1042-1055; powf(2, b) is exact for b <= 31. *)
Definition symbol_per_pixel (bits : Z) : Z := if bits =? 0 then 0 else 2 ^ bits.
(** 905: capacity (int) * bits_per_pixel (unsigned) / CHAR_BIT in unsigned arithmetic *)
Definition bytes_per_frame (capacity bits : Z) : Z := u32 (u32 capacity * bits) / 8.
