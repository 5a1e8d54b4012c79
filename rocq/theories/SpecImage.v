(** What cutting a section out of an image means. Independent of the extraction code. *)
From Verif Require Import CBase TocModel SpecToc ImageModel.

(** The section lies inside the image. *)
Definition inside (s : section) (im : image) : Prop :=
  s_x s + s_width s <= im_width im /\ s_y s + s_height s <= im_height im.
(** The bytes of the image are there. *)
Definition complete (im : image) : Prop :=
  0 <= im_width im < 2^32 /\ 0 <= im_height im < 2^32 /\ Z.of_nat (List.length (im_data im)) = im_width im * im_height im.
(** [b] is the part of [a] with upper left corner (x, y) and size w x h. *)
Definition sub_image (a : image) (x y w h : Z) (b : image) : Prop :=
  complete b /\ im_width b = w /\ im_height b = h /\
  forall i j, 0 <= i < w -> 0 <= j < h -> pixel b i j = pixel a (x + i) (y + j).
(** What the boxing library promises: cropping a part that lies inside the image gives that part. *)
Definition crops (crop : image -> Z -> Z -> Z -> Z -> option image) : Prop :=
  forall a x y w h, complete a -> 0 <= x -> 0 <= y -> 0 <= w -> 0 <= h -> x + w <= im_width a -> y + h <= im_height a ->
  exists b, crop a x y w h = Some b /\ sub_image a x y w h b.
(** Rotating by 0 degrees gives the same picture. *)
Definition rotates (rotate : option image -> Z -> option image) : Prop := forall im, rotate (Some im) 0 = Some im.
Definition section_range (s : section) : Prop := is_u32 (s_x s) /\ is_u32 (s_y s) /\ is_u32 (s_width s) /\ is_u32 (s_height s).
(** The right and lower edge are 32-bit numbers. *)
Definition edges_fit (s : section) : Prop := s_x s + s_width s < 2^32 /\ s_y s + s_height s < 2^32.
