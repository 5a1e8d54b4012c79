(** C38: the zero reference frame. *)
From Verif Require Import CBase CBaseProofs ImageModel SpecImage ZeroModel ZeroProofs.
Open Scope Z_scope.

(** A frame can be made exactly from 2 columns and 12 rows on; nothing is undefined. *)
Lemma created w h : is_u32 w -> is_u32 h ->
  exists r, zero_frame_create w h = Ok r /\
    match r with
    | None => w < 2 \/ h < 12
    | Some z => 2 <= w /\ 12 <= h /\ zf_width z = w /\ zf_height z = h /\ mk_width (zf_mark z) = w / 2 /\ mk_x (zf_mark z) = w / 2 /\
        1 <= mk_height (zf_mark z) /\ 1 <= mk_y (zf_mark z) /\
        2097152 * (1387 * mk_height (zf_mark z) - 198 * h) <= 198 * h /\ - (198 * h) < 2097152 * (1387 * (mk_height (zf_mark z) + 1) - 198 * h) /\
        2097152 * (2774 * mk_y (zf_mark z) - 245 * h) <= 245 * h /\ - (245 * h) < 2097152 * (2774 * (mk_y (zf_mark z) + 1) - 245 * h)
    end.
Proof.
  intros W H. unfold is_u32 in *. unfold zero_frame_create, mark_create.
  destruct ((w =? 0) || (h =? 0)) eqn:Z0; [exists None; split; [reflexivity|lia]|].
  destruct (height_bounds h ltac:(lia)) as (n & E1 & R1 & B1 & B2). destruct (top_bounds h ltac:(lia)) as (m & E2 & R2 & B3 & B4).
  rewrite E1, E2. cbn [obind]. pose proof (Z.div_mod w 2 ltac:(lia)). pose proof (Z.mod_pos_bound w 2 ltac:(lia)).
  destruct ((w / 2 =? 0) || (n =? 0) || (w / 2 =? 0) || (m =? 0)) eqn:Q.
  - exists None. split; [reflexivity|]. lia.
  - eexists. split; [reflexivity|]. cbn [option_map zf_width zf_height zf_mark mk_width mk_x mk_height mk_y]. lia.
Qed.
Theorem C38_created_iff w h : is_u32 w -> is_u32 h ->
  exists r, zero_frame_create w h = Ok r /\ (r <> None <-> 2 <= w /\ 12 <= h).
Proof.
  intros W H. destruct (created w h W H) as (r & E & R). exists r. split; [exact E|]. destruct r; [|intuition lia]. split; [lia|discriminate].
Qed.
Print Assumptions C38_created_iff.
(** The bar starts at the horizontal centre and lies inside the frame, with room below it. *)
Theorem C38_inside w h z : is_u32 w -> is_u32 h -> zero_frame_create w h = Ok (Some z) ->
  let m := zf_mark z in
  zf_width z = w /\ zf_height z = h /\ mk_x m = w / 2 /\ 0 < mk_width m /\ mk_x m + mk_width m <= w /\
  0 < mk_y m /\ 0 < mk_height m /\ mk_y m + mk_height m < h.
Proof.
  intros W H E. destruct (created w h W H) as (r & E' & R). rewrite E in E'. injection E' as <-.
  pose proof (Z.div_mod w 2 ltac:(lia)). pose proof (Z.mod_pos_bound w 2 ltac:(lia)). cbn zeta. lia.
Qed.
Print Assumptions C38_inside.
(** Its height and its distance from the upper edge are 1.98 mm and (13.87 - (2 * 4.72 + 1.98)) / 2
    = 1.225 mm of 13.87 mm, up to one pixel and a relative rounding error of 2^-21. *)
Theorem C38_size w h z : is_u32 w -> is_u32 h -> zero_frame_create w h = Ok (Some z) ->
  let near actual num den := 2^21 * (den * actual - num * h) <= num * h /\ - (num * h) < 2^21 * (den * (actual + 1) - num * h) in
  near (mk_height (zf_mark z)) 198 1387 /\ near (mk_y (zf_mark z)) 245 2774.
Proof.
  intros W H E. destruct (created w h W H) as (r & E' & R). rewrite E in E'. injection E' as <-. intro near. unfold near. change (2^21) with 2097152. lia.
Qed.
Print Assumptions C38_size.
(** The truncation can be one pixel short of the exact size. *)
Theorem C38_exact_size_refuted : exists w h z, zero_frame_create w h = Ok (Some z) /\ (198 * h) mod 1387 = 0 /\ mk_height (zf_mark z) <> 198 * h / 1387.
Proof. exists 4096, 13870. eexists. split; [vm_compute; reflexivity|]. split; [reflexivity|]. vm_compute. discriminate. Qed.
Print Assumptions C38_exact_size_refuted.

(** * The picture *)
Lemma pixel_at im i j : 0 <= i < im_width im -> 0 <= j < im_height im -> pixel im i j = nth_error (im_data im) (Z.to_nat (j * im_width im + i)).
Proof. intros I J. unfold pixel. replace ((0 <=? i) && (i <? im_width im) && (0 <=? j) && (j <? im_height im)) with true by lia. reflexivity. Qed.
Lemma put_nth {A} (l : list A) k v : (k < List.length l)%nat ->
  List.length (firstn k l ++ v :: skipn (S k) l) = List.length l /\ nth_error (firstn k l ++ v :: skipn (S k) l) k = Some v /\
  forall m, m <> k -> nth_error (firstn k l ++ v :: skipn (S k) l) m = nth_error l m.
Proof.
  revert k. induction l as [|x l IH]; intros k H; [cbn in H; lia|]. destruct k as [|k].
  - split; [reflexivity|]. split; [reflexivity|]. intros [|m] N; [congruence|reflexivity].
  - cbn [List.length] in H. destruct (IH k ltac:(lia)) as (L & Sv & O). change (skipn (S (S k)) (x :: l)) with (skipn (S k) l). cbn [firstn app].
    split; [cbn [List.length]; now rewrite L|]. split; [exact Sv|]. intros [|m] N; [reflexivity|]. apply O. congruence.
Qed.
Definition same_size (a b : image) : Prop := im_width a = im_width b /\ im_height a = im_height b.
Lemma put_pixel_ok im i j v : complete im -> 0 <= i < im_width im -> 0 <= j < im_height im ->
  exists im', put_pixel im i j v = Ok im' /\ complete im' /\ same_size im' im /\ pixel im' i j = Some v /\
    forall i' j', (i', j') <> (i, j) -> pixel im' i' j' = pixel im i' j'.
Proof.
  intros (W & H & L) I J. set (k := Z.to_nat (j * im_width im + i)). assert (K : (k < List.length (im_data im))%nat) by (unfold k; nia).
  destruct (put_nth (im_data im) k v K) as (P1 & P2 & P3). unfold put_pixel. fold k. replace (k <? List.length (im_data im))%nat with true by (symmetry; now apply Nat.ltb_lt).
  eexists. split; [reflexivity|]. split; [split; [exact W|split; [exact H|]]; cbn [im_data im_width im_height]; rewrite P1; exact L|]. split; [split; reflexivity|].
  split; [rewrite pixel_at by assumption; exact P2|]. intros i' j' N. unfold pixel. cbn [im_data im_width im_height].
  destruct ((0 <=? i') && (i' <? im_width im) && (0 <=? j') && (j' <? im_height im)) eqn:Q; [|reflexivity]. apply P3. intro E. apply N.
  assert (E' : j' * im_width im + i' = j * im_width im + i) by (unfold k in E; nia). assert (j' = j) by nia. subst. f_equal. lia.
Qed.
Lemma fill_column_ok z i n : forall j im, complete im -> 0 <= i < im_width im -> 0 <= j -> j + Z.of_nat n <= im_height im ->
  exists im', fill_column z i j n im = Ok im' /\ complete im' /\ same_size im' im /\
    forall i' j', pixel im' i' j' = if (i' =? i) && (j <=? j') && (j' <? j + Z.of_nat n) then Some (zero_pixel z i' j') else pixel im i' j'.
Proof.
  induction n as [|n IH]; intros j im C I J B.
  - exists im. split; [reflexivity|]. split; [exact C|]. split; [split; reflexivity|]. intros i' j'. replace ((i' =? i) && (j <=? j') && (j' <? j + Z.of_nat 0)) with false by lia. reflexivity.
  - destruct (put_pixel_ok im i j (zero_pixel z i j) C I ltac:(lia)) as (im1 & E1 & C1 & (W1 & H1) & S1 & O1).
    destruct (IH (j + 1) im1 C1 ltac:(lia) ltac:(lia) ltac:(lia)) as (im2 & E2 & C2 & (W2 & H2) & P2). exists im2.
    split; [cbn [fill_column]; rewrite E1; exact E2|]. split; [exact C2|]. split; [split; congruence|]. intros i' j'. rewrite P2.
    destruct ((i' =? i) && (j + 1 <=? j') && (j' <? j + 1 + Z.of_nat n)) eqn:Q.
    + replace ((i' =? i) && (j <=? j') && (j' <? j + Z.of_nat (S n))) with true by lia. reflexivity.
    + destruct ((i' =? i) && (j <=? j') && (j' <? j + Z.of_nat (S n))) eqn:Q'.
      * assert (i' = i /\ j' = j) as (-> & ->) by lia. exact S1.
      * apply O1. intro X. injection X as -> ->. lia.
Qed.
Lemma fill_columns_ok z n : forall i im, complete im -> 0 <= i -> i + Z.of_nat n <= im_width im -> im_height im = zf_height z ->
  exists im', fill_columns z i n im = Ok im' /\ complete im' /\ same_size im' im /\
    forall i' j', i <= i' < i + Z.of_nat n -> 0 <= j' < zf_height z -> pixel im' i' j' = Some (zero_pixel z i' j').
Proof.
  (* the columns already drawn stay as they are *)
  enough (G : forall i im, complete im -> 0 <= i -> i + Z.of_nat n <= im_width im -> im_height im = zf_height z ->
    exists im', fill_columns z i n im = Ok im' /\ complete im' /\ same_size im' im /\
    forall i' j', (i <= i' < i + Z.of_nat n -> 0 <= j' < zf_height z -> pixel im' i' j' = Some (zero_pixel z i' j')) /\
                  (i' < i -> pixel im' i' j' = pixel im i' j')).
  { intros i im C I B H. destruct (G i im C I B H) as (im' & E & C' & S & Q). exists im'. repeat split; try assumption; try apply C'; try apply S. intros i' j'. apply Q. }
  induction n as [|n IH]; intros i im C I B H.
  - exists im. split; [reflexivity|]. split; [exact C|]. split; [split; reflexivity|]. intros. split; [lia|reflexivity].
  - assert (0 <= zf_height z) by (destruct C as (_ & C & _); lia).
    destruct (fill_column_ok z i (Z.to_nat (zf_height z)) 0 im C ltac:(lia) ltac:(lia) ltac:(lia)) as (im1 & E1 & C1 & (W1 & H1) & P1).
    destruct (IH (i + 1) im1 C1 ltac:(lia) ltac:(lia) ltac:(lia)) as (im2 & E2 & C2 & (W2 & H2) & P2). exists im2.
    split; [cbn [fill_columns]; rewrite E1; exact E2|]. split; [exact C2|]. split; [split; congruence|]. intros i' j'. destruct (P2 i' j') as (Q1 & Q2). split.
    + intros I' J'. destruct (Z.eq_dec i' i) as [->|]; [|apply Q1; lia]. rewrite Q2 by lia. rewrite P1. replace ((i =? i) && (0 <=? j') && (j' <? 0 + Z.of_nat (Z.to_nat (zf_height z)))) with true by lia. reflexivity.
    + intro L. rewrite Q2 by lia. rewrite P1. replace ((i' =? i) && (0 <=? j') && (j' <? 0 + Z.of_nat (Z.to_nat (zf_height z)))) with false by lia. reflexivity.
Qed.
(** Whatever the new image contains, it is drawn completely: black (0) from the centre column to the
    right edge in the rows of the bar, white (255) everywhere else. *)
Theorem C38_image w h z fresh : is_u32 w -> is_u32 h -> zero_frame_create w h = Ok (Some z) ->
  complete fresh -> im_width fresh = w -> im_height fresh = h ->
  exists im, zero_frame_image z fresh = Ok im /\ im_width im = w /\ im_height im = h /\
    forall i j, 0 <= i < w -> 0 <= j < h ->
      pixel im i j = Some (if (w / 2 <=? i) && (mk_y (zf_mark z) <=? j) && (j <? mk_y (zf_mark z) + mk_height (zf_mark z)) then 0 else 255).
Proof.
  intros W H E C Wi Hi. destruct (C38_inside w h z W H E) as (Zw & Zh & X & _ & _ & Y & T & B). unfold is_u32 in *.
  destruct (fill_columns_ok z (Z.to_nat (zf_width z)) 0 fresh C ltac:(lia) ltac:(lia) ltac:(lia)) as (im & E' & _ & (S1 & S2) & P).
  exists im. split; [exact E'|]. split; [lia|]. split; [lia|]. intros i j I J. rewrite P by lia. unfold zero_pixel. rewrite u32_small by lia. now rewrite X.
Qed.
Print Assumptions C38_image.
(** With an even width the picture is black exactly on the bar. *)
Definition on_bar (m : mark) (i j : Z) : Prop := mk_x m <= i < mk_x m + mk_width m /\ mk_y m <= j < mk_y m + mk_height m.
Theorem C38_black_on_bar_partial w h z fresh : is_u32 w -> is_u32 h -> Z.even w = true -> zero_frame_create w h = Ok (Some z) ->
  complete fresh -> im_width fresh = w -> im_height fresh = h ->
  exists im, zero_frame_image z fresh = Ok im /\
    forall i j, 0 <= i < w -> 0 <= j < h -> (pixel im i j = Some 0 <-> on_bar (zf_mark z) i j) /\ (pixel im i j = Some 255 <-> ~ on_bar (zf_mark z) i j).
Proof.
  intros W H V E C Wi Hi. destruct (C38_image w h z fresh W H E C Wi Hi) as (im & E' & _ & _ & P). exists im. split; [exact E'|].
  intros i j I J. rewrite P by assumption. destruct (created w h W H) as (r & E2 & R). rewrite E in E2. injection E2 as <-.
  apply Z.even_spec in V. destruct V as (k & V). assert (w / 2 = k) by (subst w; rewrite Z.mul_comm; apply Z.div_mul; lia). unfold on_bar.
  destruct ((w / 2 <=? i) && (mk_y (zf_mark z) <=? j) && (j <? mk_y (zf_mark z) + mk_height (zf_mark z))) eqn:Q;
    (split; (split; [intro X; try discriminate X; lia|intro X; try reflexivity; exfalso; lia])).
Qed.
Print Assumptions C38_black_on_bar_partial.
(** With an odd width the last column is black too, although the bar ends before it. *)
Theorem C38_odd_width_refuted w h z fresh : is_u32 w -> is_u32 h -> Z.odd w = true -> zero_frame_create w h = Ok (Some z) ->
  complete fresh -> im_width fresh = w -> im_height fresh = h ->
  exists im, zero_frame_image z fresh = Ok im /\ pixel im (w - 1) (mk_y (zf_mark z)) = Some 0 /\ ~ on_bar (zf_mark z) (w - 1) (mk_y (zf_mark z)).
Proof.
  intros W H V E C Wi Hi. destruct (C38_image w h z fresh W H E C Wi Hi) as (im & E' & _ & _ & P). exists im. split; [exact E'|].
  destruct (C38_inside w h z W H E) as (_ & _ & X & P1 & P2 & Y & T & B). destruct (created w h W H) as (r & E2 & R). rewrite E in E2. injection E2 as <-.
  apply Z.odd_spec in V. destruct V as (k & V). assert (w / 2 = k) by (subst w; rewrite Z.mul_comm; rewrite Z.div_add_l by lia; rewrite Z.add_0_r; reflexivity).
  rewrite P by lia. replace ((w / 2 <=? w - 1) && _ && _) with true by lia. split; [reflexivity|]. unfold on_bar. lia.
Qed.
Print Assumptions C38_odd_width_refuted.
Example C38_witness : exists z z3, zero_frame_create 4096 2160 = Ok (Some z) /\ mk_y (zf_mark z) = 190 /\ mk_height (zf_mark z) = 308 /\
  zero_frame_create 3 12 = Ok (Some z3) /\ complete (mkImage 3 12 (repeat 7 36)) /\
  zero_frame_image z3 (mkImage 3 12 (repeat 7 36)) = Ok (mkImage 3 12 ([255; 255; 255; 255; 0; 0] ++ repeat 255 30)).
Proof. eexists. eexists. split; [vm_compute; reflexivity|]. split; [reflexivity|]. split; [reflexivity|]. split; [vm_compute; reflexivity|]. split; [vm_compute; intuition congruence|vm_compute; reflexivity]. Qed.
