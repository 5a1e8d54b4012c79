(** C36: the text tables stay within their buffers. *)
From Verif Require Import CBase CBaseProofs TocModel TableModel SpecTable TableProofs.

Lemma Forall_in {A} (P : A -> Prop) l x : Forall P l -> In x l -> P x.
Proof. intros F I. rewrite Forall_forall in F. now apply F. Qed.
Lemma small_width rows w : small rows w -> (0 < rows)%nat -> Z.of_nat w < 2^30.
Proof. unfold small. nia. Qed.
Lemma u64_small z : 0 <= z < 2^64 -> u64 z = z.
Proof. intro. unfold u64. now apply Z.mod_small. Qed.

(** * Files *)
Lemma files_lengths_fold l : forall a, Forall file_in_table l -> (forall f, In f l -> len (text (f_unique_id f)) < 2^32 /\ len (text (f_file_format f)) < 2^32 /\ len (text (f_name f)) < 2^32) ->
  ofold files_lengths_step a l = Ok (mkFilesLengths
    (maxz (fl_id a) (map (fun f => digits_count (f_id f)) l)) (maxz (fl_unique a) (map (fun f => len (text (f_unique_id f))) l))
    (maxz (fl_parent a) (map (fun f => len (parent_text (f_parent_id f))) l)) (maxz (fl_format a) (map (fun f => len (format_text f)) l))
    (maxz (fl_name a) (map (fun f => len (text (f_name f))) l))).
Proof.
  induction l as [|f l IH]; intros a F B; [now destruct a|]. inversion F as [|? ? (U & FF & N & S & I & P) F']; subst. destruct (B f (or_introl eq_refl)) as (B1 & B2 & B3).
  cbn [ofold]. unfold files_lengths_step at 1. rewrite !deref_ok by assumption. cbn [obind]. rewrite !strlen_ok by assumption.
  rewrite IH; [|exact F'|intros; apply B; now right]. cbn [fl_id fl_unique fl_parent fl_format fl_name map].
  do 2 f_equal; unfold maxz; cbn [fold_left].
  - f_equal. unfold parent_text. destruct (f_parent_id f =? FILE_NO_PARENT) eqn:E1; [now rewrite andb_false_r|]. destruct (f_parent_id f =? FILE_PARENT) eqn:E2; [reflexivity|].
    cbn [negb andb]. now rewrite digits_len.
  - f_equal. unfold format_text. destruct (text (f_file_format f)) as [|c s]; [reflexivity|]. rewrite len_cons. pose proof (len_nonneg s). replace (1 + len s =? 0) with false by lia. reflexivity.
Qed.
Lemma parent_text_bound p : is_i32 p -> len (parent_text p) <= 11.
Proof. intro H. unfold parent_text. destruct (p =? FILE_NO_PARENT); [unfold len; cbn; lia|]. destruct (p =? FILE_PARENT); [unfold len; cbn; lia|]. now apply dec_bound32. Qed.
Lemma parent_cell_len w p : is_i32 p -> len (parent_cell w p) = Z.max (Z.of_nat w) (len (parent_text p)).
Proof. intro H. unfold parent_cell, parent_text. destruct (p =? FILE_NO_PARENT); [apply pad_zero_len|]. destruct (p =? FILE_PARENT); [apply pad_zero_len|]. apply number_len. Qed.
Lemma parent_cell_ok w p : (1 <= w)%nat -> Z.of_nat w < 2^31 ->
  (if p =? FILE_NO_PARENT then parent_mark (Z.of_nat w) (s2z "N") else if p =? FILE_PARENT then parent_mark (Z.of_nat w) (s2z "P") else fmt_d (Z.of_nat w) p) = Ok (parent_cell w p).
Proof.
  intros W B. assert (M : forall c, parent_mark (Z.of_nat w) [c] = Ok (pad_zero w [c])).
  { intro c. unfold parent_mark. destruct (1 <? Z.of_nat w) eqn:E.
    - rewrite u32_small by lia. replace (Z.of_nat w - 1) with (Z.of_nat (w - 1)) by lia. rewrite fmt_d_ok by lia. cbn [obind]. f_equal. unfold number, print_dec_pad, pad_zero. change (0 <? 0) with false. cbv iota.
      change (print_nonneg 0) with [48]. cbn [List.length]. rewrite <- app_assoc. destruct w as [|[|w]]; [lia|lia|].
      replace (S (S w) - 1 - 1)%nat with w by lia. replace (S (S w) - 1)%nat with (S w) by lia. rewrite app_assoc, <- repeat_cons. reflexivity.
    - replace w with 1%nat by lia. reflexivity. }
  unfold parent_cell. destruct (p =? FILE_NO_PARENT); [apply M|]. destruct (p =? FILE_PARENT); [apply M|]. now apply fmt_d_ok.
Qed.
Lemma files_widths_ok l : Forall file_in_table l -> l <> [] -> small (List.length l) (files_width (files_columns l)) ->
  files_lengths_of l = Ok (let w := files_columns l in mkFilesLengths (Z.of_nat (fw_id w)) (Z.of_nat (fw_unique w)) (Z.of_nat (fw_parent w)) (Z.of_nat (fw_format w)) (Z.of_nat (fw_name w))).
Proof.
  intros F N S. assert (W := small_width _ _ S ltac:(destruct l; [congruence|cbn; lia])). unfold files_width in W.
  unfold files_lengths_of. rewrite files_lengths_fold; [|exact F|].
  - cbn [fl_id fl_unique fl_parent fl_format fl_name]. cbv zeta. unfold files_columns. cbn [fw_id fw_unique fw_parent fw_format fw_name].
    rewrite <- !(maxz_widest' (fun f => len (text (f_name f))) (fun f => text (f_name f))) by reflexivity.
    rewrite <- !(maxz_widest' (fun f => len (format_text f)) format_text) by reflexivity.
    rewrite <- !(maxz_widest' (fun f => len (parent_text (f_parent_id f))) (fun f => parent_text (f_parent_id f))) by reflexivity.
    rewrite <- !(maxz_widest' (fun f => len (text (f_unique_id f))) (fun f => text (f_unique_id f))) by reflexivity.
    rewrite <- !(maxz_widest' (fun f => digits_count (f_id f)) (fun f => print_dec (f_id f))); [reflexivity|].
    intros f I. apply digits_len. now apply (Forall_in _ _ _ F I).
  - intros f I. unfold files_columns in W. cbn [fw_id fw_unique fw_parent fw_format fw_name] in W.
    pose proof (widest_map 36 (fun f => text (f_unique_id f)) l f I). pose proof (widest_map 0 (fun f => text (f_name f)) l f I). pose proof (widest_map 0 format_text l f I) as X. cbv beta in *.
    assert (len (text (f_file_format f)) <= len (format_text f)) by (unfold format_text; destruct (text (f_file_format f)); [unfold len; cbn; lia|lia]). lia.
Qed.
Lemma files_line_len l f : file_in_table f -> In f l -> len (files_line (files_columns l) f) <= Z.of_nat (files_width (files_columns l)).
Proof.
  intros (_ & _ & _ & _ & _ & P) I. unfold files_line. rewrite line_len by discriminate. cbn [fold_right List.length]. rewrite number_len, !left_len, parent_cell_len by exact P.
  unfold files_width, files_columns. cbn [fw_id fw_unique fw_parent fw_format fw_name].
  pose proof (widest_map 1 (fun f => print_dec (f_id f)) l f I). pose proof (widest_map 36 (fun f => text (f_unique_id f)) l f I). pose proof (widest_map 0 (fun f => text (f_name f)) l f I).
  pose proof (widest_map 1 (fun f => parent_text (f_parent_id f)) l f I). pose proof (widest_map 0 format_text l f I). pose proof (widest_least 36 (map (fun f => text (f_unique_id f)) l)). cbv beta in *. lia.
Qed.
Lemma files_table_save_cons l : l <> [] -> files_table_save (Some (Some l)) =
  obind (files_lengths_of l) (fun a =>
      let table1_width := u32 (fl_id a + fl_unique a + fl_parent a + fl_format a + fl_name a + 5) in
      let table1_length := u64 (len FILES_HEADER + table1_width * Z.of_nat (List.length l) + 1) in
      obind (put_asserted (mkBlock (u64 (table1_length + 1 + EPSILON)) None) (FILES_HEADER ++ [10])) (fun b =>
      obind (ofold (files_row a) b l) (fun b => Ok (Some (bk_text b))))).
Proof. destruct l; [congruence|reflexivity]. Qed.
(** The file table: everything is written inside the block and the text is the specified one. *)
Theorem C36_files_table l : Forall file_in_table l -> small (List.length l) (files_width (files_columns l)) ->
  files_table_save (Some (Some l)) = Ok (Some (Some (files_table l))).
Proof.
  intros F S. destruct l as [|f0 l0]; [reflexivity|]. set (l := f0 :: l0) in *. assert (W := small_width _ _ S ltac:(cbn; lia)).
  rewrite files_table_save_cons by discriminate. rewrite (files_widths_ok l F) by (try exact S; discriminate). cbn [obind]. cbv zeta.
  cbn [fl_id fl_unique fl_parent fl_format fl_name].
  set (w := files_columns l) in *. unfold small in S. unfold files_width in S, W. assert (L : (0 < List.length l)%nat) by (cbn; lia).
  change (len FILES_HEADER) with 52. unfold EPSILON. rewrite u32_small by lia. rewrite (u64_small (52 + _ + 1)) by nia. rewrite u64_small by nia.
  rewrite put_asserted_ok by (cbn [or_empty]; change (len (FILES_HEADER ++ [10])) with 53; unfold len; cbn [List.length]; nia). cbn [obind or_empty app].
  pose proof (flat_map_len (files_line w) l (Z.of_nat (files_width w)) (fun f I => files_line_len l f (Forall_in _ _ _ F I) I)) as T.
  unfold files_width in T. match goal with |- context [mkBlock ?k _] => set (n := k) end.
  rewrite (puts_ok _ (files_line w) n put_asserted).
  - reflexivity.
  - intros t s H. apply put_asserted_ok; [subst n; nia|exact H].
  - intros f b I. destruct (Forall_in _ _ _ F I) as (U & FF & N & S255 & Id & P). unfold files_row. cbn [fl_id fl_unique fl_parent fl_format fl_name].
    assert (P1 : (1 <= fw_parent w)%nat) by apply widest_least.
    assert (P2 : Z.of_nat (fw_parent w) <= 11). { unfold w, files_columns. cbn [fw_parent]. apply widest_map_bound; [lia|]. intros g Ig. apply parent_text_bound. apply (Forall_in _ _ _ F Ig). }
    rewrite parent_cell_ok by lia. cbn [obind]. unfold local_text at 1. rewrite parent_cell_len by exact P. pose proof (parent_text_bound _ P). replace (Z.max (Z.of_nat (fw_parent w)) (len (parent_text (f_parent_id f))) + 1 <=? 255) with true by lia. cbn [obind].
    rewrite !deref_ok by assumption. cbn [obind]. assert (Fm : (if negb (len (text (f_file_format f)) =? 0) then text (f_file_format f) else s2z "N") = format_text f).
    { unfold format_text. destruct (text (f_file_format f)) as [|c s]; [reflexivity|]. rewrite len_cons. pose proof (len_nonneg s). replace (1 + len s =? 0) with false by lia. reflexivity. }
    rewrite Fm. assert (Lf : len (format_text f) < 255). { unfold format_text, len. destruct (text (f_file_format f)); [cbn; lia|]. lia. }
    unfold local_text. replace (len (format_text f) + 1 <=? 255) with true by lia. cbn [obind]. rewrite !fmt_d_ok, !fmt_s_ok by lia. rewrite (fmt_s_ok 36) by lia.
    change (cells [Ok ?a; Ok ?b; Ok ?c; Ok ?d; Ok ?e]) with (cells (map Ok [a; b; c; d; e])). rewrite cells_ok. reflexivity.
  - change (len (FILES_HEADER ++ [10])) with 53. subst n. nia.
Qed.
Print Assumptions C36_files_table.

(** * Locations *)
Lemma maxz_app a l1 l2 : maxz a (l1 ++ l2) = maxz (maxz a l1) l2.
Proof. unfold maxz. apply fold_left_app. Qed.
Definition visual_max (a : loc_lengths) (v : list (Z * page)) : loc_lengths :=
  mkLoc (ll_did a) (ll_dstart_frame a) (ll_dstart_byte a) (ll_dend_frame a) (ll_dend_byte a) (ll_dsize a) (ll_dsum a)
    (maxz (ll_vid a) (map (fun q => digits_count (fst q)) v)) (maxz (ll_vlayout a) (map (fun q => len (text (pg_layout_id (snd q)))) v))
    (maxz (ll_vframe a) (map (fun q => udigits_count (pg_start_frame (snd q))) v)) (maxz (ll_vsection a) (map (fun q => udigits_count (pg_start_section (snd q))) v))
    (maxz (ll_vcount a) (map (fun q => udigits_count (pg_section_count (snd q))) v))
    (maxz (ll_vdim a) (map (fun q => udigits_count (pg_dimension_x (snd q)) + udigits_count (pg_dimension_y (snd q)) + 1) v))
    (maxz (ll_voverlap a) (map (fun q => udigits_count (pg_overlap_x (snd q)) + udigits_count (pg_overlap_y (snd q)) + 1) v))
    (ll_pages a + Z.of_nat (List.length v)).
Definition digital_max (a : loc_lengths) (l : list toc_file) : loc_lengths :=
  mkLoc (maxz (ll_did a) (map (fun f => digits_count (f_id f)) l)) (maxz (ll_dstart_frame a) (map (fun f => digits_count (f_start_frame f)) l))
    (maxz (ll_dstart_byte a) (map (fun f => digits_count (f_start_byte f)) l)) (maxz (ll_dend_frame a) (map (fun f => digits_count (f_end_frame f)) l))
    (maxz (ll_dend_byte a) (map (fun f => digits_count (f_end_byte f)) l)) (maxz (ll_dsize a) (map (fun f => digits64_count (f_size f)) l))
    (maxz (ll_dsum a) (map (fun f => len (text (f_checksum f))) l))
    (ll_vid a) (ll_vlayout a) (ll_vframe a) (ll_vsection a) (ll_vcount a) (ll_vdim a) (ll_voverlap a) (ll_pages a).
Lemma visual_max_app a v1 v2 : visual_max a (v1 ++ v2) = visual_max (visual_max a v1) v2.
Proof. unfold visual_max. cbn [ll_did ll_dstart_frame ll_dstart_byte ll_dend_frame ll_dend_byte ll_dsize ll_dsum ll_vid ll_vlayout ll_vframe ll_vsection ll_vcount ll_vdim ll_voverlap ll_pages]. rewrite !map_app, !maxz_app, app_length. f_equal. lia. Qed.
Lemma loc_pages_fold id ps : forall a, (forall p, In p ps -> pg_layout_id p <> None /\ len (text (pg_layout_id p)) < 2^32) -> 0 <= ll_pages a -> ll_pages a + Z.of_nat (List.length ps) < 2^32 ->
  ofold (loc_page id) a ps = Ok (visual_max a (map (pair id) ps)).
Proof.
  induction ps as [|p ps IH]; intros a H Z0 B; [unfold visual_max; cbn; rewrite Z.add_0_r; now destruct a|]. cbn [List.length] in B. destruct (H p (or_introl eq_refl)) as (N & L).
  cbn [ofold]. unfold loc_page at 1. rewrite deref_ok by exact N. cbn [obind]. rewrite strlen_ok by exact L. rewrite u32_small by lia.
  rewrite IH; [|intros; apply H; now right|cbn [ll_pages]; lia|cbn [ll_pages]; lia]. f_equal. unfold visual_max, maxz. cbn [map fold_left List.length ll_did ll_dstart_frame ll_dstart_byte ll_dend_frame ll_dend_byte ll_dsize ll_dsum ll_vid ll_vlayout ll_vframe ll_vsection ll_vcount ll_vdim ll_voverlap ll_pages fst snd].
  f_equal. lia.
Qed.
Lemma loc_fold l : forall a, (forall f, In f l -> f_checksum f <> None /\ len (text (f_checksum f)) < 2^32) ->
  (forall q, In q (all_pages l) -> pg_layout_id (snd q) <> None /\ len (text (pg_layout_id (snd q))) < 2^32) ->
  0 <= ll_pages a -> ll_pages a + Z.of_nat (List.length (all_pages l)) < 2^32 ->
  ofold loc_file a l = Ok (visual_max (digital_max a l) (all_pages l)).
Proof.
  induction l as [|f l IH]; intros a H G Z0 B.
  - unfold visual_max, digital_max. cbn. rewrite Z.add_0_r. now destruct a.
  - destruct (H f (or_introl eq_refl)) as (N & L). unfold all_pages in B, G. cbn [flat_map] in B, G. fold (all_pages l) in B, G. rewrite app_length, map_length in B.
    cbn [ofold]. unfold loc_file at 1. rewrite deref_ok by exact N. cbn [obind]. cbv zeta. rewrite strlen_ok by exact L. change (pages_of f) with (file_pages f).
    rewrite loc_pages_fold; [|intros p I; apply (G (f_id f, p)); apply in_or_app; left; now apply in_map|cbn [ll_pages]; lia|cbn [ll_pages]; lia]. cbn [obind].
    rewrite IH; [|intros; apply H; now right|intros; apply G; apply in_or_app; now right|unfold visual_max; cbn [ll_pages]; lia|unfold visual_max; cbn [ll_pages]; rewrite map_length; lia].
    f_equal. unfold all_pages at 2. cbn [flat_map]. fold (all_pages l). rewrite visual_max_app.
    unfold visual_max, digital_max, maxz. cbn [map fold_left ll_did ll_dstart_frame ll_dstart_byte ll_dend_frame ll_dend_byte ll_dsize ll_dsum ll_vid ll_vlayout ll_vframe ll_vsection ll_vcount ll_vdim ll_voverlap ll_pages]. reflexivity.
Qed.
(** widths of the last two columns, which do not follow their texts *)
Definition dim_width (v : list (Z * page)) : Z := maxz 11 (map (fun q => len (print_dec (pg_dimension_x (snd q))) + len (print_dec (pg_dimension_y (snd q))) + 1) v).
Definition overlap_width (v : list (Z * page)) : Z := maxz 5 (map (fun q => len (print_dec (pg_overlap_x (snd q))) + len (print_dec (pg_overlap_y (snd q))) + 1) v).
(** the same as the specification names them *)
Lemma maxz_ge l : forall a, a <= maxz a l.
Proof. unfold maxz. induction l as [|x l IH]; intro a; [reflexivity|]. cbn [fold_left]. specialize (IH (set_max a x)). rewrite set_max_max in *. lia. Qed.
Lemma maxz_in l x : In x l -> forall a, x <= maxz a l.
Proof. unfold maxz. induction l as [|y l IH]; [easy|]. intros [->|I] a; cbn [fold_left]; [|now apply IH]. pose proof (maxz_ge l (set_max a x)) as G. unfold maxz in G. rewrite set_max_max in *. lia. Qed.
Lemma maxz_le l m : (forall x, In x l -> x <= m) -> forall a, a <= m -> maxz a l <= m.
Proof. unfold maxz. induction l as [|y l IH]; intros H a A; [exact A|]. cbn [fold_left]. apply IH; [intros; apply H; now right|]. rewrite set_max_max. specialize (H y (or_introl eq_refl)). lia. Qed.
Lemma maxz_longest l a : maxz a l = longest a l.
Proof. unfold maxz, longest. revert a. induction l as [|x l IH]; intro a; [reflexivity|]. cbn [fold_left fold_right]. rewrite IH, set_max_max. clear IH. induction l as [|y l IH]; cbn [fold_right]; lia. Qed.
Lemma map_maxz_ext {A} (f g : A -> Z) l a : (forall x, In x l -> f x = g x) -> maxz a (map f l) = maxz a (map g l).
Proof. intro H. f_equal. now apply map_ext_in. Qed.
Definition pages_in_table (l : list toc_file) : Prop := forall q, In q (all_pages l) -> page_in_table (snd q).
Lemma page_id_ok l : Forall file_in_location l -> forall q, In q (all_pages l) -> is_i32 (fst q).
Proof.
  intros F q I. unfold all_pages in I. apply in_flat_map in I. destruct I as (f & If & I). apply in_map_iff in I. destruct I as (p & <- & _).
  apply (Forall_in _ _ _ F If).
Qed.
Lemma by_cell_len w x y : 0 <= x -> 0 <= y -> len (by_cell w x y) = Z.max (Z.of_nat w) (len (print_dec x)) + Z.max (Z.of_nat w) (len (print_dec y)) + 1.
Proof. intros X Y. unfold by_cell. rewrite !len_app, !number_len. change (len (s2z "x")) with 1. lia. Qed.
Lemma alike_len k x y : 0 <= x -> 0 <= y -> alike (Z.of_nat (S k)) x y ->
  len (by_cell (S k) x y) <= Z.max (2 * Z.of_nat (S k) + 1) (len (print_dec x) + len (print_dec y) + 1).
Proof.
  intros X Y A. rewrite by_cell_len by assumption. unfold print_dec. replace (x <? 0) with false by lia. replace (y <? 0) with false by lia. destruct A as [(A & B)|(A & B)].
  - pose proof (print_bound k x ltac:(lia)). pose proof (print_bound k y ltac:(lia)). lia.
  - replace (Z.of_nat (S k) - 1) with (Z.of_nat k) in * by lia. pose proof (print_lower k x A). pose proof (print_lower k y B). lia.
Qed.
Lemma filter_len {A} (p : A -> bool) l : (List.length (filter p l) <= List.length l)%nat.
Proof. induction l as [|x l IH]; cbn; [lia|]. destruct (p x); cbn; lia. Qed.
Lemma all_pages_filter p l : (List.length (all_pages (filter p l)) <= List.length (all_pages l))%nat /\ incl (all_pages (filter p l)) (all_pages l).
Proof.
  unfold all_pages. induction l as [|f l (IH & II)]; [split; [cbn; lia|easy]|]. cbn [filter flat_map]. destruct (p f); cbn [flat_map]; rewrite ?app_length; (split; [lia|]).
  - apply incl_app; [apply incl_appl, incl_refl|now apply incl_appr].
  - now apply incl_appr.
Qed.
Definition loc_widths (l : list toc_file) : loc_lengths :=
  let d := digital_columns l in let v := visual_columns (all_pages l) in
  mkLoc (Z.of_nat (dw_id d)) (Z.of_nat (dw_frame1 d)) (Z.of_nat (dw_byte1 d)) (Z.of_nat (dw_frame2 d)) (Z.of_nat (dw_byte2 d)) (Z.of_nat (dw_size d)) (Z.of_nat (dw_sum d))
    (Z.of_nat (vw_id v)) (Z.of_nat (vw_layout v)) (Z.of_nat (vw_frame v)) (Z.of_nat (vw_section v)) (Z.of_nat (vw_count v))
    (dim_width (all_pages l)) (overlap_width (all_pages l)) (Z.of_nat (List.length (all_pages l))).
Lemma mkLoc_eq a0 a1 a2 a3 a4 a5 a6 a7 a8 a9 a10 a11 a12 a13 a14 b0 b1 b2 b3 b4 b5 b6 b7 b8 b9 b10 b11 b12 b13 b14 : a0 = b0 -> a1 = b1 -> a2 = b2 -> a3 = b3 -> a4 = b4 -> a5 = b5 -> a6 = b6 -> a7 = b7 -> a8 = b8 -> a9 = b9 -> a10 = b10 -> a11 = b11 -> a12 = b12 -> a13 = b13 -> a14 = b14 -> mkLoc a0 a1 a2 a3 a4 a5 a6 a7 a8 a9 a10 a11 a12 a13 a14 = mkLoc b0 b1 b2 b3 b4 b5 b6 b7 b8 b9 b10 b11 b12 b13 b14.
Proof. intros. now subst. Qed.
Lemma loc_widths_ok l : Forall file_in_location l -> pages_in_table l ->
  small (List.length l) (digital_width (digital_columns l)) -> small (List.length (all_pages l)) (visual_width (visual_columns (all_pages l))) ->
  loc_lengths_of l = Ok (loc_widths l).
Proof.
  intros F P S1 S2. unfold loc_lengths_of. rewrite loc_fold.
  - f_equal. unfold visual_max, digital_max, loc_widths, dim_width, overlap_width, digital_columns, visual_columns.
    cbn [ll_did ll_dstart_frame ll_dstart_byte ll_dend_frame ll_dend_byte ll_dsize ll_dsum ll_vid ll_vlayout ll_vframe ll_vsection ll_vcount ll_vdim ll_voverlap ll_pages
         dw_id dw_frame1 dw_byte1 dw_frame2 dw_byte2 dw_size dw_sum vw_id vw_layout vw_frame vw_section vw_count].
    assert (Fi : forall f, In f l -> file_in_location f) by (intros f; now apply Forall_in). assert (Id := page_id_ok l F).
    apply mkLoc_eq.
    + apply (maxz_widest' _ _ _ 1%nat). intros x I. apply digits_len. apply (Fi x I).
    + apply (maxz_widest' _ _ _ 3%nat). intros x I. apply digits_len. apply (Fi x I).
    + apply (maxz_widest' _ _ _ 7%nat). intros x I. apply digits_len. apply (Fi x I).
    + apply (maxz_widest' _ _ _ 3%nat). intros x I. apply digits_len. apply (Fi x I).
    + apply (maxz_widest' _ _ _ 7%nat). intros x I. apply digits_len. apply (Fi x I).
    + apply (maxz_widest' _ _ _ 12%nat). intros x I. apply digits64_len. apply (Fi x I).
    + apply (maxz_widest' _ _ _ 40%nat). intros x I. reflexivity.
    + apply (maxz_widest' _ _ _ 1%nat). intros x I. apply digits_len. now apply Id.
    + apply (maxz_widest' _ _ _ 1%nat). intros x I. reflexivity.
    + apply (maxz_widest' _ _ _ 3%nat). intros x I. apply udigits_len. apply (P x I).
    + apply (maxz_widest' _ _ _ 1%nat). intros x I. apply udigits_len. apply (P x I).
    + apply (maxz_widest' _ _ _ 3%nat). intros x I. apply udigits_len. apply (P x I).
    + apply map_maxz_ext. intros x I. destruct (P x I) as (_ & _ & _ & _ & _ & X & Y & _). now rewrite !udigits_len by assumption.
    + apply map_maxz_ext. intros x I. destruct (P x I) as (_ & _ & _ & _ & _ & _ & _ & X & Y). now rewrite !udigits_len by assumption.
    + apply Z.add_0_l.
  - intros f I. split; [apply (Forall_in _ _ _ F I)|]. pose proof (small_width _ _ S1 ltac:(destruct l; [easy|cbn; lia])) as W. unfold digital_width, digital_columns in W. cbn [dw_id dw_frame1 dw_byte1 dw_frame2 dw_byte2 dw_size dw_sum] in W.
    pose proof (widest_map 40 (fun f => text (f_checksum f)) l f I). cbv beta in *. lia.
  - intros q I. destruct (P q I) as (N & L & _). split; [exact N|]. unfold len. lia.
  - cbn. lia.
  - cbn [ll_pages]. unfold small in S2. unfold visual_width in S2. nia.
Qed.
Lemma digital_line_len l f : In f l -> len (digital_line (digital_columns l) f) <= Z.of_nat (digital_width (digital_columns l)).
Proof.
  intros I. unfold digital_line. rewrite line_len by discriminate. cbn [fold_right List.length]. rewrite !number_len.
  unfold digital_width, digital_columns. cbn [dw_id dw_frame1 dw_byte1 dw_frame2 dw_byte2 dw_size dw_sum].
  pose proof (widest_map 1 (fun f => print_dec (f_id f)) l f I). pose proof (widest_map 3 (fun f => print_dec (f_start_frame f)) l f I). pose proof (widest_map 7 (fun f => print_dec (f_start_byte f)) l f I).
  pose proof (widest_map 3 (fun f => print_dec (f_end_frame f)) l f I). pose proof (widest_map 7 (fun f => print_dec (f_end_byte f)) l f I). pose proof (widest_map 12 (fun f => size_text (f_size f)) l f I).
  pose proof (widest_map 40 (fun f => text (f_checksum f)) l f I). pose proof (size_dec (f_size f)). cbv beta in *. lia.
Qed.
Definition pages_in_location (l : list toc_file) : Prop := forall q, In q (all_pages l) -> page_in_location (snd q).
Lemma visual_line_len v q : (forall q, In q v -> page_in_location (snd q)) -> In q v ->
  let w := visual_columns v in
  len (visual_line w q) <= Z.of_nat (vw_id w) + Z.of_nat (vw_layout w) + Z.of_nat (vw_frame w) + Z.of_nat (vw_section w) + Z.of_nat (vw_count w) + dim_width v + overlap_width v + 7.
Proof.
  intros P I. cbv zeta. destruct (P q I) as ((_ & _ & ? & ? & ? & ? & ? & ? & ?) & A1 & A2). unfold visual_line. rewrite line_len by discriminate. cbn [fold_right List.length]. rewrite !number_len, pad_zero_len.
  unfold is_u32 in *. pose proof (alike_len 4 (pg_dimension_x (snd q)) (pg_dimension_y (snd q)) ltac:(lia) ltac:(lia) A1). pose proof (alike_len 1 (pg_overlap_x (snd q)) (pg_overlap_y (snd q)) ltac:(lia) ltac:(lia) A2).
  pose proof (maxz_in _ _ (in_map (fun q => len (print_dec (pg_dimension_x (snd q))) + len (print_dec (pg_dimension_y (snd q))) + 1) v q I) 11) as D1. pose proof (maxz_ge (map (fun q => len (print_dec (pg_dimension_x (snd q))) + len (print_dec (pg_dimension_y (snd q))) + 1) v) 11) as D2.
  pose proof (maxz_in _ _ (in_map (fun q => len (print_dec (pg_overlap_x (snd q))) + len (print_dec (pg_overlap_y (snd q))) + 1) v q I) 5) as O1. pose proof (maxz_ge (map (fun q => len (print_dec (pg_overlap_x (snd q))) + len (print_dec (pg_overlap_y (snd q))) + 1) v) 5) as O2.
  fold (dim_width v) in D1, D2. fold (overlap_width v) in O1, O2.
  unfold visual_columns. cbn [vw_id vw_layout vw_frame vw_section vw_count].
  pose proof (widest_map 1 (fun q => print_dec (fst q)) v q I). pose proof (widest_map 1 (fun q => text (pg_layout_id (snd q))) v q I). pose proof (widest_map 3 (fun q => print_dec (pg_start_frame (snd q))) v q I).
  pose proof (widest_map 1 (fun q => print_dec (pg_start_section (snd q))) v q I). pose proof (widest_map 3 (fun q => print_dec (pg_section_count (snd q))) v q I). cbv beta in *. lia.
Qed.
Lemma ofold_skip {A S} (f : S -> A -> outcome S) (p : A -> bool) l : (forall s x, p x = false -> f s x = Ok s) -> forall s, ofold f s l = ofold f s (filter p l).
Proof. intro H. induction l as [|x l IH]; intro s; [reflexivity|]. cbn [ofold filter]. destruct (p x) eqn:E; cbn [ofold]; [destruct (f s x); [apply IH|reflexivity]|]. rewrite H by exact E. apply IH. Qed.
Lemma dim_bound v : (forall q, In q v -> page_in_table (snd q)) -> dim_width v <= 21 /\ overlap_width v <= 21 /\ 11 <= dim_width v /\ 5 <= overlap_width v.
Proof.
  intro P. unfold dim_width, overlap_width. repeat split; try apply maxz_ge; apply maxz_le; try lia; intros x I; apply in_map_iff in I; destruct I as (q & <- & I);
    destruct (P q I) as (_ & _ & _ & _ & _ & X & Y & Z1 & Z2); [pose proof (dec_boundu _ X); pose proof (dec_boundu _ Y)|pose proof (dec_boundu _ Z1); pose proof (dec_boundu _ Z2)]; lia.
Qed.
Lemma visual_bounds v : (forall q, In q v -> is_i32 (fst q)) -> (forall q, In q v -> page_in_table (snd q)) -> let w := visual_columns v in
  Z.of_nat (vw_id w) <= 11 /\ Z.of_nat (vw_layout w) <= 254 /\ Z.of_nat (vw_frame w) <= 10 /\ Z.of_nat (vw_section w) <= 10 /\ Z.of_nat (vw_count w) <= 10 /\ (1 <= vw_layout w)%nat.
Proof.
  intros Id P. cbv zeta. unfold visual_columns. cbn [vw_id vw_layout vw_frame vw_section vw_count].
  repeat split; try apply widest_least; apply widest_map_bound; try lia; intros q I; destruct (P q I) as (_ & L & ? & ? & ? & _); try (apply dec_boundu; assumption); [apply dec_bound32; now apply Id|unfold len; lia].
Qed.
Lemma layout_cell_ok w s : (List.length s <= w)%nat -> Z.of_nat w < 255 -> (1 <= w)%nat -> layout_cell (Z.of_nat w) s = Ok (pad_zero w s).
Proof.
  intros L W One. unfold layout_cell. rewrite strlen_ok by (unfold len; lia). destruct (len s <? Z.of_nat w) eqn:E.
  - replace (Z.of_nat w - len s) with (Z.of_nat (w - List.length s)) by (unfold len; lia). rewrite fmt_d_ok by lia. cbn [obind].
    replace (number (w - List.length s) 0 ++ s) with (pad_zero w s); [unfold local_text; rewrite pad_zero_len; unfold len in *; replace (Z.max (Z.of_nat w) (Z.of_nat (List.length s)) + 1 <=? 255) with true by lia; reflexivity|].
    unfold number, print_dec_pad, pad_zero. change (0 <? 0) with false. cbv iota. change (print_nonneg 0) with [48]. cbn [List.length]. unfold len in E. destruct (w - List.length s)%nat as [|k] eqn:K; [lia|].
    replace (S k - 1)%nat with k by lia. rewrite <- app_assoc. cbn [repeat]. rewrite (repeat_cons k 48). now rewrite <- app_assoc.
  - cbn [obind]. unfold local_text, len in *. replace (Z.of_nat (List.length s) + 1 <=? 255) with true by lia. unfold pad_zero. replace (w - List.length s)%nat with 0%nat by lia. reflexivity.
Qed.
Lemma pair_cell_ok w x y : Z.of_nat w <= 100 -> is_u32 x -> is_u32 y -> pair_cell (Z.of_nat w) x y = Ok (by_cell w x y).
Proof.
  intros W X Y. unfold pair_cell. unfold is_u32 in *. rewrite !fmt_u_ok by lia. cbn [obind]. unfold local_text. fold (by_cell w x y). rewrite by_cell_len by lia.
  pose proof (dec_boundu x X). pose proof (dec_boundu y Y). replace (_ <=? 255) with true by lia. reflexivity.
Qed.
Lemma dim_longest v : dim_width v = longest 11 (map (fun q => pair_length (pg_dimension_x (snd q)) (pg_dimension_y (snd q))) v).
Proof. unfold dim_width. rewrite maxz_longest. f_equal. apply map_ext. intro q. unfold pair_length, len. lia. Qed.
Lemma overlap_longest v : overlap_width v = longest 5 (map (fun q => pair_length (pg_overlap_x (snd q)) (pg_overlap_y (snd q))) v).
Proof. unfold overlap_width. rewrite maxz_longest. f_equal. apply map_ext. intro q. unfold pair_length, len. lia. Qed.
(** the state after both loops *)
Lemma location_iff l : Forall file_in_location l -> pages_in_table l ->
  small (List.length l) (digital_width (digital_columns l)) -> small (List.length (all_pages l)) (visual_width (visual_columns (all_pages l))) ->
  location_table_save (Some (Some l)) = match digital_files l, visual_pages l with
    | [], [] => Ok (Some None)
    | _, _ => if len (location_table l) + 1 <=? location_room l then Ok (Some (Some (location_table l))) else UB
    end.
Proof.
  intros F P S1 S2. unfold location_table_save. rewrite loc_widths_ok by assumption. cbn [obind]. unfold loc_widths.
  cbn [ll_did ll_dstart_frame ll_dstart_byte ll_dend_frame ll_dend_byte ll_dsize ll_dsum ll_vid ll_vlayout ll_vframe ll_vsection ll_vcount ll_vdim ll_voverlap ll_pages].
  assert (Id := page_id_ok l F). pose proof (dim_bound _ P) as DB. pose proof (visual_bounds _ Id P) as VB. cbv zeta in VB. set (d := digital_columns l) in *. set (v := visual_columns (all_pages l)) in *.
  change (len DIGITAL_HEADER) with 46. change (len DIGITAL_HEADER2) with 77. change (len VISUAL_HEADER) with 135.
  assert (W1 : l <> [] -> Z.of_nat (digital_width d) < 2^30) by (intro N; apply (small_width _ _ S1); destruct l; [congruence|cbn; lia]).
  assert (D0 : l = [] -> Z.of_nat (digital_width d) < 2^30) by (intros ->; vm_compute; reflexivity).
  assert (W : Z.of_nat (digital_width d) < 2^30) by (destruct l; [now apply D0|now apply W1]). clear W1 D0.
  unfold small in S1, S2. unfold digital_width in S1, W. unfold visual_width in S2.
  rewrite (u32_small (Z.of_nat (dw_id d) + _ + _ + _ + _ + _ + _ + _)) by lia.
  rewrite (u32_small (Z.of_nat (vw_id v) + _ + _ + _ + _ + _ + _ + _)) by lia.
  cbv zeta. rewrite (u64_small (Z.of_nat (dw_id d) + _ + _ + _ + _ + _ + _ + _ + 1)) by lia. rewrite (u64_small (Z.of_nat (vw_id v) + _ + _ + _ + _ + _ + _ + _ + 1)) by lia.
  assert (Dw : Z.of_nat (dw_id d) + Z.of_nat (dw_frame1 d) + Z.of_nat (dw_byte1 d) + Z.of_nat (dw_frame2 d) + Z.of_nat (dw_byte2 d) + Z.of_nat (dw_size d) + Z.of_nat (dw_sum d) + 6 + 1 = Z.of_nat (digital_width d)) by (unfold digital_width; lia).
  rewrite Dw. set (vw := Z.of_nat (vw_id v) + Z.of_nat (vw_layout v) + Z.of_nat (vw_frame v) + Z.of_nat (vw_section v) + Z.of_nat (vw_count v) + dim_width (all_pages l) + overlap_width (all_pages l) + 6 + 1).
  assert (Vw : 0 <= vw * Z.of_nat (List.length (all_pages l)) < 2^30) by (unfold vw; nia).
  assert (Dl : 0 <= Z.of_nat (digital_width d) * Z.of_nat (List.length l) < 2^30) by (unfold digital_width; nia).
  rewrite (u64_small (46 + 77 + _ + 1)) by lia. rewrite (u64_small (135 + _)) by lia. rewrite u64_small by lia.
  match goal with |- context [mkBlock ?k _] => set (n := k) end.
  (* digital rows *)
  rewrite (ofold_skip _ file_is_digital l) by (intros s x E; unfold digital_row; now rewrite E).
  change (filter file_is_digital l) with (digital_files l).
  pose proof (flat_map_len (digital_line d) (digital_files l) (Z.of_nat (digital_width d)) (fun f I => digital_line_len l f (proj1 (proj1 (filter_In _ _ _) I)))) as T1.
  assert (L1 : (List.length (digital_files l) <= List.length l)%nat) by apply filter_len.
  assert (T1' : len (flat_map (digital_line d) (digital_files l)) <= Z.of_nat (digital_width d) * Z.of_nat (List.length l)).
  { eapply Z.le_trans; [exact T1|]. rewrite Z.mul_comm. apply Z.mul_le_mono_nonneg_l; lia. }
  rewrite (headed_ok _ (digital_line d) (DIGITAL_HEADER ++ DIGITAL_HEADER2) n).
  2: { intros f b done I. apply filter_In in I. destruct I as (I & Dg). destruct (Forall_in _ _ _ F I) as (N & _). unfold digital_row. change (file_is_digital f = true) in Dg. rewrite Dg. cbn [fst snd].
       cbn [ll_did ll_dstart_frame ll_dstart_byte ll_dend_frame ll_dend_byte ll_dsize ll_dsum].
       destruct (if done then Ok b else put b (DIGITAL_HEADER ++ DIGITAL_HEADER2)); [|reflexivity]. cbn [obind]. rewrite !fmt_d_ok by lia. rewrite deref_ok by exact N.
       change (cells [Ok ?c1; Ok ?c2; Ok ?c3; Ok ?c4; Ok ?c5; Ok ?c6; Ok ?c7]) with (cells (map Ok [c1; c2; c3; c4; c5; c6; c7])). rewrite cells_ok. reflexivity. }
  2: { cbn [or_empty]. change (len (DIGITAL_HEADER ++ DIGITAL_HEADER2)) with 123. change (len []) with 0. subst n. lia. }
  cbn [obind].
  (* the text so far *)
  set (dt := match digital_files l with [] => [] | _ => DIGITAL_HEADER ++ DIGITAL_HEADER2 ++ flat_map (digital_line d) (digital_files l) ++ [10] end).
  assert (E1 : forall X : block -> outcome (option (option cstr)), obind (if snd (match digital_files l with [] => (mkBlock n None, false) | _ => (mkBlock n (Some (or_empty None ++ (DIGITAL_HEADER ++ DIGITAL_HEADER2) ++ flat_map (digital_line d) (digital_files l))), true) end)
             then put (fst (match digital_files l with [] => (mkBlock n None, false) | _ => (mkBlock n (Some (or_empty None ++ (DIGITAL_HEADER ++ DIGITAL_HEADER2) ++ flat_map (digital_line d) (digital_files l))), true) end)) [10]
             else Ok (fst (match digital_files l with [] => (mkBlock n None, false) | _ => (mkBlock n (Some (or_empty None ++ (DIGITAL_HEADER ++ DIGITAL_HEADER2) ++ flat_map (digital_line d) (digital_files l))), true) end))) X
           = X (mkBlock n (match digital_files l with [] => None | _ => Some dt end))).
  { intro X. unfold dt. destruct (digital_files l) as [|f0 r]; [reflexivity|]. cbn [fst snd or_empty app]. rewrite put_ok; [cbn [obind]; do 3 f_equal; cbn [or_empty]; now rewrite <- !app_assoc|].
    cbn [or_empty]. rewrite !len_app. change (len DIGITAL_HEADER) with 46. change (len DIGITAL_HEADER2) with 77. change (len [10]) with 1. subst n. lia. }
  rewrite E1. clear E1.
  assert (Ldt : len dt <= 124 + Z.of_nat (digital_width d) * Z.of_nat (List.length l)).
  { unfold dt. destruct (digital_files l) as [|f0 r]; [change (len []) with 0; lia|]. rewrite !len_app. change (len DIGITAL_HEADER) with 46. change (len DIGITAL_HEADER2) with 77. change (len [10]) with 1. lia. }
  (* visual rows *)
  rewrite (ofold_skip _ (fun f => file_is_preview f && negb (file_is_parent f)) l) by (intros s x E; unfold visual_file; now rewrite E).
  rewrite (ofold_ext _ (fun s f => ofold (fun s q => visual_row (loc_widths l) (fst q) s (snd q)) s (map (pair (f_id f)) (file_pages f))))
    by (intros s f I; apply filter_In in I; destruct I as (_ & E); unfold visual_file; rewrite E, ofold_map; reflexivity).
  rewrite ofold_flat. change (flat_map (fun f => map (pair (f_id f)) (file_pages f)) (filter (fun g => file_is_preview g && negb (file_is_parent g)) l)) with (visual_pages l).
  destruct (all_pages_filter (fun f => set_bit TYPE_PREVIEW (f_types f) && negb (f_parent_id f =? FILE_PARENT)) l) as (L2 & Inc). fold (visual_pages l) in L2, Inc.
  assert (R : n = location_room l).
  { unfold n, location_room, visual_room. fold d v. rewrite <- dim_longest, <- overlap_longest. unfold vw. lia. }
  destruct (visual_pages l) as [|q0 u] eqn:EV.
  { cbn [ofold obind fst bk_text]. unfold location_table. fold d. rewrite EV, app_nil_r. destruct (digital_files l) as [|f0 r] eqn:ED; [reflexivity|].
    rewrite <- R. match goal with |- context [len ?x + 1 <=? n] => change x with dt end. replace (len dt + 1 <=? n) with true by (unfold n; lia). reflexivity. }
  assert (NV : visual_pages l <> []) by congruence. rewrite <- EV in *. clear EV q0 u.
  rewrite (headed_iff _ (visual_line v) VISUAL_HEADER n); [|intros q b done I|exact NV].
  2: { apply Inc in I. destruct (P q I) as (N & L & ? & ? & ? & ? & ? & ? & ?). unfold visual_row, loc_widths. cbn [fst snd]. fold d v.
       destruct (if done then Ok b else put b VISUAL_HEADER); [|reflexivity]. cbn [obind]. rewrite deref_ok by exact N. cbn [obind].
       cbn [ll_vid ll_vlayout ll_vframe ll_vsection ll_vcount]. unfold is_u32 in *. rewrite fmt_d_ok by lia. rewrite !fmt_u_ok by lia. rewrite layout_cell_ok; [|..]; try lia.
       2: { pose proof (widest_map 1 (fun q => text (pg_layout_id (snd q))) (all_pages l) q I) as X. unfold v, visual_columns. cbn [vw_layout]. cbv beta in X. unfold len in X. lia. }
       rewrite (pair_cell_ok 5), (pair_cell_ok 2) by (unfold is_u32; lia).
       change (cells [Ok ?c1; Ok ?c2; Ok ?c3; Ok ?c4; Ok ?c5; Ok ?c6; Ok ?c7]) with (cells (map Ok [c1; c2; c3; c4; c5; c6; c7])). rewrite cells_ok. reflexivity. }
  assert (ET : or_empty (match digital_files l with [] => None | _ => Some dt end) ++ VISUAL_HEADER ++ flat_map (visual_line v) (visual_pages l) = location_table l).
  { unfold location_table. fold d v. unfold dt. destruct (visual_pages l) as [|q0 u]; [congruence|]. destruct (digital_files l) as [|f0 r]; reflexivity. }
  rewrite ET, R. destruct (visual_pages l) as [|q0 u]; [congruence|].
  destruct (digital_files l); destruct (len (location_table l) + 1 <=? location_room l); reflexivity.
Qed.
Lemma location_fits l : pages_in_location l -> len (location_table l) + 1 <= location_room l.
Proof.
  intro P. assert (PT : pages_in_table l) by (intros q I; apply (P q I)).
  pose proof (flat_map_len (digital_line (digital_columns l)) (digital_files l) (Z.of_nat (digital_width (digital_columns l))) (fun f I => digital_line_len l f (proj1 (proj1 (filter_In _ _ _) I)))) as T1.
  assert (L1 : (List.length (digital_files l) <= List.length l)%nat) by apply filter_len.
  destruct (all_pages_filter (fun f => set_bit TYPE_PREVIEW (f_types f) && negb (f_parent_id f =? FILE_PARENT)) l) as (L2 & Inc). fold (visual_pages l) in L2, Inc.
  assert (V0 : 0 <= visual_room (all_pages l)) by (unfold visual_room; rewrite <- dim_longest, <- overlap_longest; pose proof (dim_bound _ PT); lia).
  assert (T2 : len (flat_map (visual_line (visual_columns (all_pages l))) (visual_pages l)) <= Z.of_nat (List.length (visual_pages l)) * visual_room (all_pages l)).
  { apply flat_map_len. intros q I. pose proof (visual_line_len (all_pages l) q P (Inc q I)) as X. cbv zeta in X. unfold visual_room. rewrite <- dim_longest, <- overlap_longest. lia. }
  assert (A1 : Z.of_nat (List.length (digital_files l)) * Z.of_nat (digital_width (digital_columns l)) <= Z.of_nat (List.length l) * Z.of_nat (digital_width (digital_columns l))) by (apply Z.mul_le_mono_nonneg_r; lia).
  assert (A2 : Z.of_nat (List.length (visual_pages l)) * visual_room (all_pages l) <= Z.of_nat (List.length (all_pages l)) * visual_room (all_pages l)) by (apply Z.mul_le_mono_nonneg_r; lia).
  unfold location_room, location_table.
  assert (B1 : len (match digital_files l with [] => [] | d => s2z "DIGITAL DATA LOCATIONS" ++ [10] ++ s2z "======================" ++ [10] ++ s2z "<fileId> <startFrame> <startByte> <endFrame> <endByte> <size> <sha1Checksum>" ++ [10] ++ flat_map (digital_line (digital_columns l)) d ++ [10] end)
     <= 46 + 77 + 1 + Z.of_nat (List.length l) * Z.of_nat (digital_width (digital_columns l))).
  { destruct (digital_files l); [change (len []) with 0; lia|]. rewrite !len_app. change (len [10]) with 1. change (len (s2z "DIGITAL DATA LOCATIONS")) with 22. change (len (s2z "======================")) with 22. change (len (s2z "<fileId> <startFrame> <startByte> <endFrame> <endByte> <size> <sha1Checksum>")) with 76. lia. }
  assert (B2 : len (match visual_pages l with [] => [] | v => s2z "VISUAL DATA LOCATIONS" ++ [10] ++ s2z "=====================" ++ [10] ++ s2z "<fileId> <layoutId> <startFrame> <startSection> <sectionCount> <dimensionWxH> <overlapWxH>" ++ [10] ++ flat_map (visual_line (visual_columns (all_pages l))) v end)
     <= 135 + Z.of_nat (List.length (all_pages l)) * visual_room (all_pages l)).
  { destruct (visual_pages l); [change (len []) with 0; lia|]. rewrite !len_app. change (len [10]) with 1. change (len (s2z "VISUAL DATA LOCATIONS")) with 21. change (len (s2z "=====================")) with 21. change (len (s2z "<fileId> <layoutId> <startFrame> <startSection> <sectionCount> <dimensionWxH> <overlapWxH>")) with 90. lia. }
  rewrite len_app. lia.
Qed.
Lemma location_ok l : Forall file_in_location l -> pages_in_location l ->
  small (List.length l) (digital_width (digital_columns l)) -> small (List.length (all_pages l)) (visual_width (visual_columns (all_pages l))) ->
  location_table_save (Some (Some l)) = Ok (Some (match digital_files l, visual_pages l with [], [] => None | _, _ => Some (location_table l) end)).
Proof.
  intros F P S1 S2. rewrite location_iff; auto; [|intros q I; apply (P q I)]. pose proof (location_fits l P). replace (_ <=? location_room l) with true by lia.
  destruct (digital_files l), (visual_pages l); reflexivity.
Qed.
(** The location table of files that have any row, with the paddings of its last two columns alike. *)
Theorem C36_location_table_partial l : Forall file_in_location l -> (forall q, In q (all_pages l) -> page_in_location (snd q)) ->
  small (List.length l) (digital_width (digital_columns l)) -> small (List.length (all_pages l)) (visual_width (visual_columns (all_pages l))) ->
  digital_files l <> [] \/ visual_pages l <> [] ->
  location_table_save (Some (Some l)) = Ok (Some (Some (location_table l))).
Proof.
  intros F P S1 S2 N. rewrite location_ok by assumption. destruct (digital_files l); [|reflexivity]. destruct (visual_pages l); [|reflexivity]. destruct N; congruence.
Qed.
Print Assumptions C36_location_table_partial.
(** Without any row the returned block is never written: it is not even a terminated string. *)
Theorem C36_location_unwritten_refuted l : Forall file_in_location l -> (forall q, In q (all_pages l) -> page_in_location (snd q)) ->
  small (List.length l) (digital_width (digital_columns l)) -> small (List.length (all_pages l)) (visual_width (visual_columns (all_pages l))) ->
  digital_files l = [] -> visual_pages l = [] ->
  location_table_save (Some (Some l)) = Ok (Some None).
Proof. intros F P S1 S2 N1 N2. rewrite location_ok by assumption. now rewrite N1, N2. Qed.
Print Assumptions C36_location_unwritten_refuted.
Definition ex_page (ox : Z) : page := mkPage (Some (s2z "7")) 3 1 2 2480 3508 ox 0.
Definition ex_row (ox : Z) : toc_file :=
  mkFile (Some (s2z "a.pdf")) (Some (s2z "2020")) (Some (repeat 97 40)) 1234 1 0 0 2 99 (Some (s2z "id")) FILE_NO_PARENT TYPE_ALL
         (Some (mkPreview (Some [ex_page ox]) 300)) (Some (s2z "PRONOM/19")) None.
(** One page with an overlap of 100 columns and no rows: the table is one byte longer than its block. *)
Theorem C36_location_overflow_refuted : file_is_valid (ex_row 100) = true /\ location_table_save (Some (Some [ex_row 100])) = UB.
Proof. split; vm_compute; reflexivity. Qed.
Print Assumptions C36_location_overflow_refuted.
(** A valid file without a format makes the table dereference NULL; a format of 255 bytes overruns a local array. *)
Definition ex_format (x : option cstr) : toc_file :=
  mkFile (Some (s2z "a.pdf")) (Some (s2z "2020")) (Some (repeat 97 40)) 1234 1 0 0 2 99 (Some (s2z "id")) FILE_NO_PARENT TYPE_DIGITAL None x None.
Theorem C36_files_format_refuted : file_is_valid (ex_format None) = true /\ files_table_save (Some (Some [ex_format None])) = UB /\
  file_is_valid (ex_format (Some (repeat 97 255))) = true /\ files_table_save (Some (Some [ex_format (Some (repeat 97 255))])) = UB.
Proof. repeat split; vm_compute; reflexivity. Qed.
Print Assumptions C36_files_format_refuted.
Example C36_files_witness : Forall file_in_table [ex_row 10; ex_row 20] /\ small 2 (files_width (files_columns [ex_row 10; ex_row 20])) /\
  files_table [ex_row 10] = s2z "<fileId> <uniqueId> <parentId> <formatId> <fileName>" ++ [10] ++ s2z "1 id                                   N PRONOM/19 a.pdf" ++ [10].
Proof. split; [|split; vm_compute; reflexivity]. apply Forall_cons; [|apply Forall_cons; [|apply Forall_nil]]; unfold file_in_table; (split; [discriminate|split; [discriminate|split; [discriminate|split; [cbn; lia|split; split; vm_compute; intuition congruence]]]]). Qed.
Example C36_location_witness : Forall file_in_location [ex_row 10] /\ (forall q, In q (all_pages [ex_row 10]) -> page_in_location (snd q)) /\
  small 1 (digital_width (digital_columns [ex_row 10])) /\ small 1 (visual_width (visual_columns (all_pages [ex_row 10]))) /\ digital_files [ex_row 10] <> [] /\
  location_table_save (Some (Some [ex_row 10])) = Ok (Some (Some (s2z "DIGITAL DATA LOCATIONS" ++ [10] ++ s2z "======================" ++ [10] ++
    s2z "<fileId> <startFrame> <startByte> <endFrame> <endByte> <size> <sha1Checksum>" ++ [10] ++ s2z "1 000 0000000 002 0000099 000000001234 aaaaaaaaaaaaaaaaaaaaaaaaaaaaaaaaaaaaaaaa" ++ [10; 10] ++
    s2z "VISUAL DATA LOCATIONS" ++ [10] ++ s2z "=====================" ++ [10] ++
    s2z "<fileId> <layoutId> <startFrame> <startSection> <sectionCount> <dimensionWxH> <overlapWxH>" ++ [10] ++ s2z "1 7 003 1 002 02480x03508 10x00" ++ [10]))).
Proof.
  split; [apply Forall_cons; [|apply Forall_nil]; unfold file_in_location; split; [discriminate|vm_compute; intuition congruence]|].
  split; [intros q [<-|[]]; split; [split; [discriminate|]; split; [cbn; lia|]; vm_compute; intuition congruence|]; vm_compute; intuition congruence|].
  split; [vm_compute; reflexivity|]. split; [vm_compute; reflexivity|]. split; [vm_compute; discriminate|vm_compute; reflexivity].
Qed.
(** The table of any files and pages, whatever the paddings of its last two columns: when it and its
    terminator fit into [location_room l] bytes it is returned, and otherwise a byte is written behind
    the block. *)
Theorem C36_location_exact l : Forall file_in_location l -> (forall q, In q (all_pages l) -> page_in_table (snd q)) ->
  small (List.length l) (digital_width (digital_columns l)) -> small (List.length (all_pages l)) (visual_width (visual_columns (all_pages l))) ->
  digital_files l <> [] \/ visual_pages l <> [] ->
  location_table_save (Some (Some l)) =
    if Z.of_nat (List.length (location_table l)) + 1 <=? location_room l then Ok (Some (Some (location_table l))) else UB.
Proof.
  intros F P S1 S2 N. rewrite location_iff by assumption. destruct (digital_files l); [|reflexivity]. destruct (visual_pages l); [|reflexivity]. destruct N; congruence.
Qed.
Print Assumptions C36_location_exact.
(** An overlap of 99 columns fits, one of 100 does not. *)
Example C36_location_exact_witness : (forall q, In q (all_pages [ex_row 100]) -> page_in_table (snd q)) /\ digital_files [ex_row 100] <> [] /\
  Z.of_nat (List.length (location_table [ex_row 99])) + 1 <= location_room [ex_row 99] /\
  location_room [ex_row 100] < Z.of_nat (List.length (location_table [ex_row 100])) + 1.
Proof.
  split; [intros q [<-|[]]; split; [discriminate|]; split; [cbn; lia|]; vm_compute; intuition congruence|].
  split; [vm_compute; discriminate|]. split; vm_compute; congruence.
Qed.
