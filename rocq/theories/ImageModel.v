(** Cutting the sections of a layout out of a frame image: src/toc/previewimageutils.c.
    boxing_image8, boxing_image8_crop and boxing_image8_rotate belong to the boxing library, which
    is not in the repository: an image is its size and its bytes, row by row, and the two functions
    are parameters. *)
From Verif Require Import CBase TocModel.

Record image := mkImage { im_width : Z; im_height : Z; im_data : list Z }.
(** IMAGE8_PIXEL: column [i] of row [j] *)
Definition pixel (im : image) (i j : Z) : option Z :=
  if (0 <=? i) && (i <? im_width im) && (0 <=? j) && (j <? im_height im)
  then nth_error (im_data im) (Z.to_nat (j * im_width im + i)) else None.

Section Extract.
(** boxing_image8_crop(source, x, y, width, height); None is NULL *)
Variable crop : image -> Z -> Z -> Z -> Z -> option image.
(** boxing_image8_rotate(image, degrees) *)
Variable rotate : option image -> Z -> option image.

(** 73-86: one section; the sums are unsigned int *)
Definition extract1 (source : image) (s : option section) : option image * bool :=
  match s with
  | Some s =>
      if (u32 (s_x s + s_width s) <=? im_width source) && (u32 (s_y s + s_height s) <=? im_height source)
      then (rotate (crop source (s_x s) (s_y s) (s_width s) (s_height s)) (s_rotation s), true)
      else (None, false)
  | None => (None, false)
  end.
(** 71-87: [n] sections from index [i] on; the images and the number of extracted ones *)
Fixpoint extract_loop (d : layout_def) (source : image) (i : Z) (n : nat) (extracted : Z) : list (option image) * Z :=
  match n with
  | O => ([], extracted)
  | S n => let (im, ok) := extract1 source (layout_def_get_section d i) in
           let (l, e) := extract_loop d source (i + 1) n (if ok then u32 (extracted + 1) else extracted) in
           (im :: l, e)
  end.
(** 54-89: the array of images (None: the caller's pointer is left alone) and the returned int;
    inc/toc/previewimageutils.h gives the error value. malloc is assumed to succeed. *)
Definition extract (d : option layout_def) (source : option image) : option (list (option image)) * Z :=
  match d, source with
  | Some d, Some source =>
      let n := layout_def_section_count d in
      let (l, e) := extract_loop d source 0 (Z.to_nat n) 0 in
      (if 0 <? n then Some l else None, i32 e)
  | _, _ => (None, -1)
  end.
End Extract.
