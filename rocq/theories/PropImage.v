(** C13: images of sections. *)
From Verif Require Import CBase CBaseProofs TocModel SpecToc TocProofs2 ImageModel SpecImage PropToc2.

Definition insideb (s : section) (im : image) : bool :=
  (s_x s + s_width s <=? im_width im) && (s_y s + s_height s <=? im_height im).
Lemma insideb_iff s im : insideb s im = true <-> inside s im.
Proof. unfold insideb, inside. lia. Qed.

Section Proofs.
Variable crop : image -> Z -> Z -> Z -> Z -> option image.
Variable rotate : option image -> Z -> option image.
Notation step im s := (if insideb s im then rotate (crop im (s_x s) (s_y s) (s_width s) (s_height s)) (s_rotation s) else None).
Lemma extract1_eq im s : section_range s -> edges_fit s -> extract1 crop rotate im (Some s) = (step im s, insideb s im).
Proof.
  intros (X & Y & W & H) (F1 & F2). unfold extract1, is_u32 in *. rewrite !u32_small by lia. fold (insideb s im). destruct (insideb s im); reflexivity.
Qed.
Definition count_inside im (l : list section) : Z := Z.of_nat (List.length (filter (fun s => insideb s im) l)).
Lemma extract_loop_eq d im l : forall i e, def_sections d = firstn (Z.to_nat i) (def_sections d) ++ l -> 0 <= i <= Z.of_nat (List.length (def_sections d)) ->
  Forall section_range l -> Forall edges_fit l -> 0 <= e -> e + Z.of_nat (List.length l) < 2^32 ->
  extract_loop crop rotate d im i (List.length l) e = (map (fun s => step im s) l, e + count_inside im l).
Proof.
  induction l as [|s l IH]; intros i e D I R F P B.
  - unfold count_inside. cbn. f_equal. lia.
  - cbn [List.length extract_loop map]. assert (G : layout_def_get_section d i = Some s).
    { rewrite C43_section_by_index by lia. rewrite D. rewrite nth_error_app2 by (rewrite firstn_length; lia).
      rewrite firstn_length. replace (Z.to_nat i - _)%nat with 0%nat by lia. reflexivity. }
    assert (L : Z.of_nat (List.length (def_sections d)) = i + 1 + Z.of_nat (List.length l)).
    { rewrite D, app_length, firstn_length. cbn [List.length]. lia. }
    rewrite G. inversion R as [|? ? R1 R2]; subst. inversion F as [|? ? F1 F2]; subst. cbn [List.length] in B. rewrite extract1_eq by assumption.
    rewrite IH; [| |lia|assumption|assumption| |].
    + unfold count_inside. cbn [filter]. destruct (insideb s im); cbn [List.length]; f_equal; rewrite ?u32_small by lia; lia.
    + rewrite D at 1. replace (Z.to_nat (i + 1)) with (S (Z.to_nat i)) by lia.
      assert (X : firstn (S (Z.to_nat i)) (def_sections d) = firstn (Z.to_nat i) (def_sections d) ++ [s]).
      { rewrite D at 1. rewrite firstn_app, firstn_firstn, firstn_length. replace (Nat.min (S (Z.to_nat i)) (Z.to_nat i)) with (Z.to_nat i) by lia.
        replace (S (Z.to_nat i) - _)%nat with 1%nat by lia. reflexivity. }
      rewrite X, <- app_assoc. reflexivity.
    + destruct (insideb s im); [rewrite u32_small by lia|]; lia.
    + destruct (insideb s im); [rewrite u32_small by lia|]; lia.
Qed.
End Proofs.

(** Every section that lies inside the image gives the rotated sub-image, every other one nothing;
    the result is the number of sections inside. *)
Theorem C13_sections_extracted crop rotate d im : crops crop ->
  complete im -> Forall section_range (def_sections d) -> Forall edges_fit (def_sections d) ->
  def_sections d <> [] -> Z.of_nat (List.length (def_sections d)) < 2^31 ->
  exists images, extract crop rotate (Some d) (Some im) = (Some images, Z.of_nat (List.length (filter (fun s => insideb s im) (def_sections d)))) /\
    List.length images = List.length (def_sections d) /\
    forall k s, nth_error (def_sections d) k = Some s ->
      (inside s im -> exists part, sub_image im (s_x s) (s_y s) (s_width s) (s_height s) part /\ nth_error images k = Some (rotate (Some part) (s_rotation s))) /\
      (~ inside s im -> nth_error images k = Some None).
Proof.
  intros C K R F N B. set (l := def_sections d) in *.
  assert (S : layout_def_section_count d = Z.of_nat (List.length l)).
  { unfold layout_def_section_count, l, def_sections, vec_size, vec_list in *. destruct (ld_sections d) as [[l0|]|]; try reflexivity. apply u32_small. lia. }
  assert (P : 0 < Z.of_nat (List.length l)) by (destruct l; [congruence|cbn [List.length]; lia]).
  unfold extract. rewrite S, Nat2Z.id. rewrite (extract_loop_eq crop rotate d im l 0 0); try assumption; try lia; [|reflexivity].
  replace (0 <? Z.of_nat (List.length l)) with true by lia. unfold count_inside. eexists. split; [|split].
  - f_equal. rewrite Z.add_0_l. apply i32_small. assert (List.length (filter (fun s => insideb s im) l) <= List.length l)%nat by (clear; induction l as [|a l IH]; cbn; [lia|destruct (insideb a im); cbn; lia]). unfold is_i32. lia.
  - apply map_length.
  - intros k s E. apply (map_nth_error (fun s => if insideb s im then rotate (crop im (s_x s) (s_y s) (s_width s) (s_height s)) (s_rotation s) else None)) in E as M.
    rewrite M. assert (Rs : section_range s) by (rewrite Forall_forall in R; apply R; eapply nth_error_In; exact E).
    destruct Rs as (X & Y & W & H). unfold is_u32 in *. split.
    + intros (I1 & I2). replace (insideb s im) with true by (symmetry; apply insideb_iff; split; assumption).
      destruct (C im (s_x s) (s_y s) (s_width s) (s_height s)) as (b & E1 & E2); try assumption; try lia. exists b. rewrite E1. split; [exact E2|reflexivity].
    + intro I. destruct (insideb s im) eqn:Q; [apply insideb_iff in Q; contradiction|reflexivity].
Qed.
Print Assumptions C13_sections_extracted.
(** Without rotation, pixel (i, j) of the image of a section is the frame's pixel (x + i, y + j). *)
Theorem C13_pixels crop rotate d im images n k s : crops crop -> rotates rotate ->
  complete im -> Forall section_range (def_sections d) -> Forall edges_fit (def_sections d) -> Z.of_nat (List.length (def_sections d)) < 2^31 ->
  extract crop rotate (Some d) (Some im) = (Some images, n) -> nth_error (def_sections d) k = Some s -> inside s im -> s_rotation s = 0 ->
  exists part, nth_error images k = Some (Some part) /\ im_width part = s_width s /\ im_height part = s_height s /\
    forall i j, 0 <= i < s_width s -> 0 <= j < s_height s -> pixel part i j = pixel im (s_x s + i) (s_y s + j).
Proof.
  intros C T K R F B E N I Z0. destruct (C13_sections_extracted crop rotate d im C K R F) as (images' & E' & _ & H); try assumption.
  { intro Q. rewrite Q in N. destruct k; discriminate N. }
  rewrite E in E'. injection E' as <- _. destruct (H k s N) as ((part & (_ & W & Hh & P) & M) & _); [exact I|]. rewrite Z0, T in M. now exists part.
Qed.
Print Assumptions C13_pixels.
(** Missing arguments are an error, a definition without sections gives nothing. *)
Theorem C13_missing crop rotate d im :
  extract crop rotate None im = (None, -1) /\ extract crop rotate d None = (None, -1) /\
  (forall d', def_sections d' = [] -> extract crop rotate (Some d') (Some (mkImage 0 0 [])) = (None, 0)).
Proof.
  split; [reflexivity|]. split; [destruct d; reflexivity|]. intros d' E. unfold extract.
  assert (S : layout_def_section_count d' = 0).
  { unfold layout_def_section_count, def_sections, vec_size, vec_list in *. destruct (ld_sections d') as [[l|]|]; try reflexivity. now subst. }
  rewrite S. reflexivity.
Qed.
Print Assumptions C13_missing.

(** * A crop and a rotation that meet the contracts *)
Definition rows (im : image) (x y w : Z) (h : nat) : list Z :=
  flat_map (fun j => firstn (Z.to_nat w) (skipn (Z.to_nat ((y + Z.of_nat j) * im_width im + x)) (im_data im))) (seq 0 h).
Definition crop_rows (im : image) (x y w h : Z) : option image := Some (mkImage w h (rows im x y w (Z.to_nat h))).
Definition rotate_none (im : option image) (_ : Z) : option image := im.
Lemma flat_map_nth {A} (f : nat -> list A) w n : (forall j, (j < n)%nat -> List.length (f j) = w) ->
  List.length (flat_map f (seq 0 n)) = (n * w)%nat /\
  forall i j, (j < n)%nat -> (i < w)%nat -> nth_error (flat_map f (seq 0 n)) (j * w + i) = nth_error (f j) i.
Proof.
  intro L. induction n as [|n IH]; [split; [reflexivity|lia]|]. destruct IH as (IH1 & IH2); [intros; apply L; lia|].
  rewrite seq_S, flat_map_app. cbn [Nat.add flat_map]. rewrite app_nil_r. split.
  - rewrite app_length, IH1, L; lia.
  - intros i j J I. destruct (Nat.eq_dec j n) as [->|].
    + rewrite nth_error_app2 by lia. f_equal. lia.
    + rewrite nth_error_app1 by (rewrite IH1; nia). apply IH2; lia.
Qed.
Lemma firstn_at {A} (l : list A) : forall k m, (m < k)%nat -> nth_error (firstn k l) m = nth_error l m.
Proof. induction l as [|x l IH]; intros [|k] [|m] H; try reflexivity; try lia. cbn. apply IH. lia. Qed.
Lemma skipn_at {A} (l : list A) : forall n m, nth_error (skipn n l) m = nth_error l (n + m).
Proof. induction l as [|x l IH]; intros [|n] m; try reflexivity; [destruct m; reflexivity|]. cbn. apply IH. Qed.
Lemma crop_rows_crops : crops crop_rows.
Proof.
  intros a x y w h (W & H & D) X Y P Q I J. eexists. split; [reflexivity|].
  assert (L : forall j, (j < Z.to_nat h)%nat -> List.length (firstn (Z.to_nat w) (skipn (Z.to_nat ((y + Z.of_nat j) * im_width a + x)) (im_data a))) = Z.to_nat w).
  { intros j Lj. rewrite firstn_length, skipn_length. nia. }
  destruct (flat_map_nth _ _ _ L) as (L1 & L2). unfold rows. split; [|split; [reflexivity|split; [reflexivity|]]].
  - split; [cbn; lia|]. split; [cbn; lia|]. cbn [im_data im_width im_height]. rewrite L1. nia.
  - intros i j Pi Pj. unfold pixel. cbn [im_width im_height im_data].
    replace ((0 <=? i) && (i <? w) && (0 <=? j) && (j <? h)) with true by lia.
    replace ((0 <=? x + i) && (x + i <? im_width a) && (0 <=? y + j) && (y + j <? im_height a)) with true by lia.
    replace (Z.to_nat (j * w + i)) with (Z.to_nat j * Z.to_nat w + Z.to_nat i)%nat by nia. rewrite L2 by lia.
    rewrite firstn_at by lia. rewrite skipn_at. f_equal. nia.
Qed.
Definition ex_layout : layout_def :=
  mkLayoutDef (Some (s2z "1")) (Some (s2z "a")) (Some (Some [mkSection 1 1 1 2 1 0; mkSection 2 2 0 2 2 0])).
Definition ex_image : image := mkImage 3 2 [1; 2; 3; 4; 5; 6].
Example C13_witness : crops crop_rows /\ rotates rotate_none /\ complete ex_image /\
  Forall section_range (def_sections ex_layout) /\ Forall edges_fit (def_sections ex_layout) /\
  extract crop_rows rotate_none (Some ex_layout) (Some ex_image) = (Some [Some (mkImage 2 1 [5; 6]); None], 1).
Proof.
  split; [apply crop_rows_crops|]. split; [intro; reflexivity|]. split; [vm_compute; intuition congruence|].
  split; [repeat (apply Forall_cons; [unfold section_range, is_u32; cbn; lia|]); apply Forall_nil|].
  split; [repeat (apply Forall_cons; [unfold edges_fit; cbn; lia|]); apply Forall_nil|]. reflexivity.
Qed.
(** A section whose right edge does not fit in 32 bits is taken for one inside the image: the crop
    is asked for columns the image does not have. *)
Theorem C13_edge_wrap_refuted crop rotate : exists d im s, complete im /\ def_sections d = [s] /\ section_range s /\ section_is_valid s = true /\ ~ inside s im /\
  extract crop rotate (Some d) (Some im) = (Some [rotate (crop im (s_x s) (s_y s) (s_width s) (s_height s)) (s_rotation s)], 1).
Proof.
  exists (mkLayoutDef None None (Some (Some [mkSection 1 (2^32 - 1) 0 2 1 0]))), ex_image, (mkSection 1 (2^32 - 1) 0 2 1 0).
  split; [vm_compute; intuition congruence|]. split; [reflexivity|]. split; [unfold section_range, is_u32; cbn; lia|]. split; [reflexivity|].
  split; [|reflexivity]. unfold inside. cbn. lia.
Qed.
Print Assumptions C13_edge_wrap_refuted.
