(** The zero reference frame: src/zeroreferenceframe.c.
    The single-precision arithmetic is that of Flocq's IEEE 754 binary32 with round to nearest, ties
    to even; every operation is rounded to float (FLT_EVAL_METHOD 0, no contraction). *)
From Coq Require Import ZArith.
From Flocq Require Import Core BinarySingleNaN.
From Verif Require Import CBase ImageModel.

Definition f32 := binary_float 24 128.
Lemma prec32 : Prec_gt_0 24.
Proof. reflexivity. Qed.
Lemma emax32 : Prec_lt_emax 24 128.
Proof. reflexivity. Qed.
#[global] Existing Instance prec32.
#[global] Existing Instance emax32.
(** conversion of an integer *)
Definition of_int (z : Z) : f32 := binary_normalize 24 128 prec32 emax32 mode_NE z 0 false.
Definition fadd : f32 -> f32 -> f32 := Bplus mode_NE.
Definition fsub : f32 -> f32 -> f32 := Bminus mode_NE.
Definition fmul : f32 -> f32 -> f32 := Bmult mode_NE.
Definition fdiv : f32 -> f32 -> f32 := Bdiv mode_NE.
(** A decimal constant n/100 with the suffix f: the nearest float *)
Definition hundredths (n : Z) : f32 := fdiv (of_int n) (of_int 100).
(** Conversion to unsigned int: truncation, undefined when the value does not fit (C11 6.3.1.4) *)
Definition to_u32 (x : f32) : outcome Z :=
  if is_finite x then let n := Btrunc x in if (0 <=? n) && (n <? 2^32) then Ok n else UB else UB.

(** 23-25 *)
Definition FRAME_HEIGHT_MM := hundredths 1387.
Definition PITCH_HEIGHT_MM := hundredths 198.
Definition PERF_PITCH_HEIGHT_MM := hundredths 472.
Definition two : f32 := of_int 2.

(** inc/zeroreferenceframe.h *)
Record mark := mkMark { mk_width : Z; mk_height : Z; mk_x : Z; mk_y : Z }.
(** 130-155 and 97-113: None is NULL or DFALSE *)
Definition mark_create (frame_width frame_height : Z) : outcome (option mark) :=
  if (frame_width =? 0) || (frame_height =? 0) then Ok None
  else
    let pixel_pitch := fdiv FRAME_HEIGHT_MM (of_int frame_height) in
    let width := frame_width / 2 in
    obind (to_u32 (fdiv PITCH_HEIGHT_MM pixel_pitch)) (fun height =>
    let top_left_x := width in
    obind (to_u32 (fdiv (fsub FRAME_HEIGHT_MM (fadd (fmul two PERF_PITCH_HEIGHT_MM) PITCH_HEIGHT_MM)) (fmul two pixel_pitch))) (fun top_left_y =>
    if (width =? 0) || (height =? 0) || (top_left_x =? 0) || (top_left_y =? 0) then Ok None
    else Ok (Some (mkMark width height top_left_x top_left_y)))).

Record zero_frame := mkZero { zf_width : Z; zf_height : Z; zf_mark : mark }.
(** 196-250 *)
Definition zero_frame_create (frame_width frame_height : Z) : outcome (option zero_frame) :=
  if (frame_width =? 0) || (frame_height =? 0) then Ok None
  else obind (mark_create frame_width frame_height) (fun m =>
       Ok (option_map (mkZero frame_width frame_height) m)).

(** 310-319: BOXING_PIXEL_MIN is 0 and BOXING_PIXEL_MAX is 255 in the boxing library *)
Definition zero_pixel (z : zero_frame) (i j : Z) : Z :=
  let m := zf_mark z in
  if (mk_x m <=? i) && (mk_y m <=? j) && (j <? u32 (mk_y m + mk_height m)) then 0 else 255.
(** IMAGE8_PIXEL(image, i, j) = v; undefined outside of the data *)
Definition put_pixel (im : image) (i j v : Z) : outcome image :=
  let k := Z.to_nat (j * im_width im + i) in
  if (k <? List.length (im_data im))%nat then Ok (mkImage (im_width im) (im_height im) (firstn k (im_data im) ++ v :: skipn (S k) (im_data im)))
  else UB.
(** 308-320: [n] rows from [j] on *)
Fixpoint fill_column (z : zero_frame) (i j : Z) (n : nat) (im : image) : outcome image :=
  match n with
  | O => Ok im
  | S n => obind (put_pixel im i j (zero_pixel z i j)) (fill_column z i (j + 1) n)
  end.
(** 306-321: [n] columns from [i] on *)
Fixpoint fill_columns (z : zero_frame) (i : Z) (n : nat) (im : image) : outcome image :=
  match n with
  | O => Ok im
  | S n => obind (fill_column z i 0 (Z.to_nat (zf_height z)) im) (fill_columns z (i + 1) n)
  end.
(** 290-324; [fresh] is what boxing_image8_create returns, with any content *)
Definition zero_frame_image (z : zero_frame) (fresh : image) : outcome image :=
  fill_columns z 0 (Z.to_nat (zf_width z)) fresh.
