(** C36, continued: the metadata table of one file and the layout table. *)
From Verif Require Import CBase CBaseProofs TocModel ValidProofs TableModel SpecTable TableProofs PropTable PropTable2.

(** * Metadata of one file *)
Lemma indexed_len {A} (l : list A) : forall i, List.length (indexed i l) = List.length l.
Proof. induction l; intro i; cbn; [reflexivity|now rewrite IHl]. Qed.
Lemma indexed_in {A} (l : list A) : forall i q, In q (indexed i l) -> i <= fst q < i + Z.of_nat (List.length l) /\ In (snd q) l.
Proof.
  induction l as [|x l IH]; intros i q; cbn [indexed In List.length]; [easy|]. intros [<-|I]; cbn [fst snd]; [split; [lia|now left]|].
  destruct (IH _ _ I). split; [lia|now right].
Qed.
Lemma mkFm_eq a b c d e a' b' c' d' e' : a = a' -> b = b' -> c = c' -> d = d' -> e = e' -> mkFm a b c d e = mkFm a' b' c' d' e'.
Proof. now intros -> -> -> -> ->. Qed.
Lemma fm_fold l : forall i a, (forall s, In s l -> source_ok s) ->
  ofold fm_step (i, a) l = Ok (i + Z.of_nat (List.length l),
    mkFm (maxz (fm_id a) (map (fun q => udigits_count (fst q)) (indexed i l))) (maxz (fm_file a) (map (fun q => udigits_count (u32 (fs_file_id (snd q)))) (indexed i l)))
         (maxz (fm_source a) (map (fun q => udigits_count (u32 (fs_source_id (snd q)))) (indexed i l))) (maxz (fm_format a) (map (fun q => len (text (fs_format_id (snd q)))) (indexed i l)))
         (maxz (fm_data a) (map (fun q => len (text (fs_data (snd q)))) (indexed i l)))).
Proof.
  induction l as [|s l IH]; intros i a H.
  - cbn. rewrite Z.add_0_r. now destruct a.
  - destruct (H s (or_introl eq_refl)) as (N1 & N2 & L1 & L2). cbn [ofold]. unfold fm_step at 1. rewrite !deref_ok by assumption. cbn [obind]. rewrite !strlen_ok by assumption.
    rewrite IH by (intros; apply H; now right). f_equal. apply pair_equal_spec. split; [cbn [List.length]; lia|]. cbn [fm_id fm_file fm_source fm_format fm_data indexed map fst snd].
    unfold maxz. cbn [fold_left]. reflexivity.
Qed.
Lemma u32_is z : is_u32 (u32 z).
Proof. unfold is_u32, u32. pose proof (Z.mod_pos_bound z (2^32)). lia. Qed.
Lemma fm_widths_ok l : (forall s, In s l -> source_in_table s) -> small (List.length l) (one_width (one_columns (indexed 0 l))) ->
  fm_lengths_of l = Ok (let w := one_columns (indexed 0 l) in
    mkFm (Z.of_nat (fst w)) (Z.of_nat (mw_source_file (snd w))) (Z.of_nat (mw_source (snd w))) (Z.of_nat (mw_format (snd w))) (Z.of_nat (mw_data (snd w)))).
Proof.
  intros P S. assert (B : Z.of_nat (List.length l) < 2^30).
  { unfold small, one_width, meta_width in S. nia. }
  assert (So : forall s, In s l -> source_ok s).
  { intros s I. destruct (P s I) as (N1 & N2 & _). assert (W := small_width _ _ S ltac:(destruct l; [easy|cbn; lia])). unfold one_width, meta_width, one_columns in W. cbn [fst snd mw_file mw_source_file mw_source mw_format mw_data] in W.
    assert (J : exists q, In q (indexed 0 l) /\ snd q = s).
    { clear - I. revert I. generalize 0. induction l as [|x l IH]; [easy|]. intros z [->|I]; [exists (z, s); split; [now left|reflexivity]|]. destruct (IH (z + 1) I) as (q & Q & E). exists q. split; [now right|exact E]. }
    destruct J as (q & Q & <-). pose proof (widest_map 0 (fun q : Z * fsource => text (fs_format_id (snd q))) _ q Q). pose proof (widest_map 0 (fun q : Z * fsource => text (fs_data (snd q))) _ q Q). cbv beta in *.
    unfold source_ok. repeat split; try assumption; lia. }
  unfold fm_lengths_of. rewrite fm_fold by exact So. cbn [obind snd]. f_equal. cbn [fm_id fm_file fm_source fm_format fm_data]. unfold one_columns. cbn [fst snd mw_file mw_source_file mw_source mw_format mw_data].
  apply mkFm_eq.
  - apply (maxz_widest' (fun q : Z * fsource => udigits_count (fst q)) (fun q => print_dec (fst q)) (indexed 0 l) 1). intros q I. apply udigits_len. apply indexed_in in I. unfold is_u32. lia.
  - apply (maxz_widest' (fun q : Z * fsource => udigits_count (u32 (fs_file_id (snd q)))) (fun q => print_dec (u32 (fs_file_id (snd q)))) (indexed 0 l) 0). intros q I. apply udigits_len. apply u32_is.
  - apply (maxz_widest' (fun q : Z * fsource => udigits_count (u32 (fs_source_id (snd q)))) (fun q => print_dec (u32 (fs_source_id (snd q)))) (indexed 0 l) 0). intros q I. apply udigits_len. apply u32_is.
  - apply (maxz_widest' (fun q : Z * fsource => len (text (fs_format_id (snd q)))) (fun q => text (fs_format_id (snd q))) (indexed 0 l) 0). reflexivity.
  - apply (maxz_widest' (fun q : Z * fsource => len (text (fs_data (snd q)))) (fun q => text (fs_data (snd q))) (indexed 0 l) 0). reflexivity.
Qed.
Lemma one_line_len v q : In q v -> let w := one_columns v in
  len (one_line w q) <= Z.of_nat (fst w) + Z.of_nat (mw_source_file (snd w)) + Z.of_nat (mw_source (snd w)) + Z.of_nat (mw_format (snd w)) + Z.of_nat (mw_data (snd w)) + 5.
Proof.
  intro I. cbv zeta. unfold one_line. rewrite line_len by discriminate. cbn [fold_right List.length]. rewrite !number_len, left_len. unfold one_columns. cbn [fst snd mw_file mw_source_file mw_source mw_format mw_data].
  pose proof (widest_map 1 (fun q => print_dec (fst q)) v q I). pose proof (widest_map 0 (fun q => print_dec (u32 (fs_file_id (snd q)))) v q I). pose proof (widest_map 0 (fun q => print_dec (u32 (fs_source_id (snd q)))) v q I).
  pose proof (widest_map 0 (fun q => text (fs_format_id (snd q))) v q I). pose proof (widest_map 0 (fun q => text (fs_data (snd q))) v q I). cbv beta in *. lia.
Qed.
Lemma fm_rows_ok a w n l : forall i t,
  (forall q b, In q (indexed i l) -> fm_row a (fst q, b) (snd q) = obind (put b (one_line w q)) (fun b => Ok (fst q + 1, b))) ->
  len t + len (flat_map (one_line w) (indexed i l)) + 1 <= n ->
  ofold (fm_row a) (i, mkBlock n (Some t)) l = Ok (i + Z.of_nat (List.length l), mkBlock n (Some (t ++ flat_map (one_line w) (indexed i l)))).
Proof.
  induction l as [|s l IH]; intros i t H L; [cbn; now rewrite app_nil_r, Z.add_0_r|]. cbn [indexed ofold flat_map] in *. rewrite len_app in L. pose proof (len_nonneg (flat_map (one_line w) (indexed (i + 1) l))).
  pose proof (H (i, s) (mkBlock n (Some t)) (or_introl eq_refl)) as E. cbn [fst snd] in E. rewrite E. rewrite put_ok by (cbn [or_empty]; lia). cbn [obind or_empty].
  rewrite IH; [|intros; apply H; now right|rewrite len_app; lia]. rewrite <- app_assoc. f_equal. apply pair_equal_spec. split; [cbn [List.length]; lia|reflexivity].
Qed.
(** The metadata table of one file. *)
Theorem C36_file_metadata_table l : (forall s, In s l -> source_in_table s) -> small (List.length l) (one_width (one_columns (indexed 0 l))) ->
  fmetadata_table_save (Some (Some l)) = Ok (Some (Some (one_table l))).
Proof.
  intros P S. unfold fmetadata_table_save. cbn [vec_list]. rewrite (fm_widths_ok l P S). cbn [obind]. cbv zeta. cbn [fm_id fm_file fm_source fm_format fm_data]. change (len FM_HEADER) with 77. unfold vec_size. cbn [vec_list].
  set (w := one_columns (indexed 0 l)) in *. unfold small, one_width, meta_width in S.
  assert (B : 0 <= Z.of_nat (List.length l) < 2^30) by nia. rewrite (u32_small (Z.of_nat (List.length l))) by lia.
  set (tw := Z.of_nat (fst w) + Z.of_nat (mw_source_file (snd w)) + Z.of_nat (mw_source (snd w)) + Z.of_nat (mw_format (snd w)) + Z.of_nat (mw_data (snd w)) + 4 + 1).
  assert (M : 0 <= tw * Z.of_nat (List.length l) < 2^30) by (unfold tw; nia).
  assert (U : u32 tw * Z.of_nat (List.length l) = tw * Z.of_nat (List.length l)).
  { destruct (Z.eq_dec (Z.of_nat (List.length l)) 0) as [->|N]; [lia|]. rewrite u32_small; [reflexivity|]. unfold tw in *. nia. }
  rewrite U. rewrite (u32_small (tw * _ + 1)) by lia. rewrite u32_small by lia.
  set (n := 77 + (tw * Z.of_nat (List.length l) + 1) + 1). rewrite put_ok by (cbn [or_empty]; change (len []) with 0; change (len FM_HEADER) with 77; unfold n; lia). cbn [obind or_empty app].
  assert (T : len (flat_map (one_line w) (indexed 0 l)) <= tw * Z.of_nat (List.length l)).
  { rewrite Z.mul_comm, <- (indexed_len l 0). apply flat_map_len. intros q I. pose proof (one_line_len (indexed 0 l) q I) as X. cbv zeta in X. fold w in X. unfold tw. lia. }
  rewrite (fm_rows_ok _ w).
  - cbn [obind snd bk_text]. unfold one_table. fold w. reflexivity.
  - intros q b I. assert (I' := indexed_in _ _ _ I). destruct (P _ (proj2 I')) as (N1 & N2 & _). unfold fm_row. rewrite !deref_ok by assumption. cbn [obind fm_id fm_file fm_source fm_format fm_data].
    pose proof (u32_is (fs_file_id (snd q))) as V1. pose proof (u32_is (fs_source_id (snd q))) as V2. unfold is_u32 in V1, V2.
    assert (L : (0 < List.length l)%nat) by (destruct l; [easy|cbn; lia]). assert (M' : tw < 2^30) by (unfold tw in *; nia). unfold tw in M'.
    rewrite !fmt_u_ok, fmt_s_ok by lia.
    change (cells [Ok ?c1; Ok ?c2; Ok ?c3; Ok ?c4; Ok ?c5]) with (cells (map Ok [c1; c2; c3; c4; c5])). rewrite cells_ok. cbn [obind]. unfold one_line. reflexivity.
  - change (len FM_HEADER) with 77. unfold n. lia.
Qed.
Print Assumptions C36_file_metadata_table.
(** Metadata without a list of sources: only the header. *)
Theorem C36_file_metadata_empty : fmetadata_table_save (Some None) = Ok (Some (Some (one_table []))) /\ fmetadata_table_save None = Ok None.
Proof. split; vm_compute; reflexivity. Qed.
Print Assumptions C36_file_metadata_empty.

(** * Layouts *)
Lemma mkLd_eq a0 a1 a2 a3 a4 a5 a6 a7 a8 a9 b0 b1 b2 b3 b4 b5 b6 b7 b8 b9 : a0 = b0 -> a1 = b1 -> a2 = b2 -> a3 = b3 -> a4 = b4 -> a5 = b5 -> a6 = b6 -> a7 = b7 -> a8 = b8 -> a9 = b9 ->
  mkLd a0 a1 a2 a3 a4 a5 a6 a7 a8 a9 = mkLd b0 b1 b2 b3 b4 b5 b6 b7 b8 b9.
Proof. now intros -> -> -> -> -> -> -> -> -> ->. Qed.
Definition sections_max (a : ld_lengths) (s : list section) : ld_lengths :=
  mkLd (ldl_id a) (ldl_sections a) (ldl_name a) (maxz (ldl_section_id a) (map (fun s => udigits_count (s_id s)) s)) (maxz (ldl_x a) (map (fun s => udigits_count (s_x s)) s))
    (maxz (ldl_y a) (map (fun s => udigits_count (s_y s)) s)) (maxz (ldl_width a) (map (fun s => udigits_count (s_width s)) s)) (maxz (ldl_height a) (map (fun s => udigits_count (s_height s)) s))
    (maxz (ldl_rotation a) (map (fun s => udigits_count (s_rotation s)) s)) (ldl_count a + Z.of_nat (List.length s)).
Lemma ld_sections_fold s : forall a, 0 <= ldl_count a -> ldl_count a + Z.of_nat (List.length s) < 2^32 -> fold_left ld_section s a = sections_max a s.
Proof.
  induction s as [|x s IH]; intros a Z0 B.
  - unfold sections_max. cbn. rewrite Z.add_0_r. now destruct a.
  - cbn [fold_left List.length] in *. rewrite IH; unfold ld_section at 1; cbn [ldl_count]; rewrite ?u32_small by lia; try lia.
    unfold sections_max, ld_section, maxz. cbn [ldl_id ldl_sections ldl_name ldl_section_id ldl_x ldl_y ldl_width ldl_height ldl_rotation ldl_count map fold_left List.length].
    apply mkLd_eq; try reflexivity. lia.
Qed.
Lemma ld_fold l : forall a, (forall d, In d l -> ld_id d <> None /\ ld_name d <> None /\ len (text (ld_id d)) < 2^32 /\ len (text (ld_name d)) < 2^32) ->
  0 <= ldl_count a -> ldl_count a + Z.of_nat (List.length (all_sections l)) < 2^32 ->
  let s := map snd (all_sections l) in
  ofold ld_step a l = Ok (mkLd (maxz (ldl_id a) (map (fun d => len (text (ld_id d))) l)) (maxz (ldl_sections a) (map (fun d => udigits_count (section_count d)) l)) (maxz (ldl_name a) (map (fun d => len (text (ld_name d))) l))
    (maxz (ldl_section_id a) (map (fun s => udigits_count (s_id s)) s)) (maxz (ldl_x a) (map (fun s => udigits_count (s_x s)) s))
    (maxz (ldl_y a) (map (fun s => udigits_count (s_y s)) s)) (maxz (ldl_width a) (map (fun s => udigits_count (s_width s)) s)) (maxz (ldl_height a) (map (fun s => udigits_count (s_height s)) s))
    (maxz (ldl_rotation a) (map (fun s => udigits_count (s_rotation s)) s)) (ldl_count a + Z.of_nat (List.length s))).
Proof.
  induction l as [|d l IH]; intros a H Z0 B; cbv zeta.
  - cbn. rewrite Z.add_0_r. now destruct a.
  - destruct (H d (or_introl eq_refl)) as (N1 & N2 & L1 & L2). unfold all_sections in *. cbn [flat_map] in *. fold (all_sections l) in *. rewrite app_length, map_length in B.
    cbn [ofold]. unfold ld_step at 1. rewrite !deref_ok by assumption. cbn [obind]. rewrite !strlen_ok by assumption. change (sections_of d) with (layout_sections d).
    rewrite ld_sections_fold by (cbn [ldl_count]; lia). cbv zeta in IH. rewrite IH; [|intros; apply H; now right|unfold sections_max; cbn [ldl_count]; lia|unfold sections_max; cbn [ldl_count]; lia].
    f_equal. unfold sections_max. cbn [ldl_id ldl_sections ldl_name ldl_section_id ldl_x ldl_y ldl_width ldl_height ldl_rotation ldl_count map].
    assert (Q : forall (k : cstr) (z : list section), map snd (map (pair k) z) = z) by (intros k z; induction z as [|y z IHz]; [reflexivity|cbn [map snd]; now rewrite IHz]).
    rewrite (map_app snd), Q, !map_app, !maxz_app, app_length.
    assert (C : layout_def_section_count d = section_count d).
    { unfold layout_def_section_count, section_count, layout_sections, vec_size in *. destruct (ld_sections d); [apply u32_small; lia|reflexivity]. }
    rewrite C. apply mkLd_eq; try reflexivity. lia.
Qed.
Lemma id_cell_ok w id : (List.length id <= w)%nat -> Z.of_nat w < 2^31 -> id_cell (Z.of_nat w) id = layout_id_cell w id.
Proof.
  intros L W. unfold id_cell, layout_id_cell. cbv zeta. unfold len. rewrite u64_small by lia. rewrite i32_small by (unfold is_i32; lia). replace (Z.of_nat w - Z.of_nat (List.length id) <? 0) with false by lia.
  f_equal. replace (Z.to_nat (Z.of_nat w - Z.of_nat (List.length id))) with (w - List.length id)%nat by lia. generalize (w - List.length id)%nat as k. intro k.
  do 12 (destruct k as [|k]; [reflexivity|]). reflexivity.
Qed.
Lemma id_cell_len w id : (List.length id <= w)%nat -> len (layout_id_cell w id) <= Z.of_nat w.
Proof. intro L. unfold layout_id_cell, len. rewrite app_length, repeat_length. lia. Qed.
Lemma ld_widths_ok l : (forall d, In d l -> layout_in_table d) -> l <> [] -> small (List.length l) (layout_width1 (layout_columns l)) -> small (List.length (all_sections l)) (layout_width2 (layout_columns l)) ->
  ld_lengths_of l = Ok (let w := layout_columns l in mkLd (Z.of_nat (lw_id w)) (Z.of_nat (lw_sections w)) (Z.of_nat (lw_name w)) (Z.of_nat (lw_section w)) (Z.of_nat (lw_x w)) (Z.of_nat (lw_y w))
     (Z.of_nat (lw_w w)) (Z.of_nat (lw_h w)) (Z.of_nat (lw_r w)) (Z.of_nat (List.length (all_sections l)))).
Proof.
  intros P N S1 S2. assert (W := small_width _ _ S1 ltac:(destruct l; [congruence|cbn; lia])). unfold layout_width1 in W.
  assert (B : Z.of_nat (List.length (all_sections l)) < 2^30) by (unfold small, layout_width2 in S2; nia).
  assert (Ss : forall s, In s (map snd (all_sections l)) -> section_in_table s).
  { intros s I. apply in_map_iff in I. destruct I as (q & <- & I). unfold all_sections in I. apply in_flat_map in I. destruct I as (d & Id & I). apply in_map_iff in I. destruct I as (s & <- & I).
    apply (Forall_in _ _ _ (proj2 (proj2 (P d Id))) I). }
  assert (Sc : forall d, In d l -> is_u32 (section_count d)).
  { intros d I. assert (X : (List.length (layout_sections d) <= List.length (all_sections l))%nat).
    { clear - I. induction l as [|y l IH]; [easy|]. unfold all_sections. cbn [flat_map]. rewrite app_length, map_length. destruct I as [->|I]; [lia|]. specialize (IH I). unfold all_sections in IH. lia. }
    unfold is_u32, section_count. lia. }
  unfold ld_lengths_of. pose proof (ld_fold l (mkLd 0 0 0 0 0 0 0 0 3 0)) as E. cbv zeta in E. rewrite E; clear E.
  - cbn [ldl_id ldl_sections ldl_name ldl_section_id ldl_x ldl_y ldl_width ldl_height ldl_rotation ldl_count]. f_equal. cbv zeta. unfold layout_columns. cbv zeta. cbn [lw_id lw_sections lw_name lw_section lw_x lw_y lw_w lw_h lw_r].
    apply mkLd_eq.
    + apply (maxz_widest' (fun d => len (text (ld_id d))) (fun d => text (ld_id d)) l 0). reflexivity.
    + apply (maxz_widest' (fun d => udigits_count (section_count d)) (fun d => print_dec (section_count d)) l 0). intros d I. apply udigits_len. now apply Sc.
    + apply (maxz_widest' (fun d => len (text (ld_name d))) (fun d => text (ld_name d)) l 0). reflexivity.
    + apply (maxz_widest' (fun s => udigits_count (s_id s)) (fun s => print_dec (s_id s)) (map snd (all_sections l)) 0). intros s I. apply udigits_len. apply (Ss s I).
    + apply (maxz_widest' (fun s => udigits_count (s_x s)) (fun s => print_dec (s_x s)) (map snd (all_sections l)) 0). intros s I. apply udigits_len. apply (Ss s I).
    + apply (maxz_widest' (fun s => udigits_count (s_y s)) (fun s => print_dec (s_y s)) (map snd (all_sections l)) 0). intros s I. apply udigits_len. apply (Ss s I).
    + apply (maxz_widest' (fun s => udigits_count (s_width s)) (fun s => print_dec (s_width s)) (map snd (all_sections l)) 0). intros s I. apply udigits_len. apply (Ss s I).
    + apply (maxz_widest' (fun s => udigits_count (s_height s)) (fun s => print_dec (s_height s)) (map snd (all_sections l)) 0). intros s I. apply udigits_len. apply (Ss s I).
    + apply (maxz_widest' (fun s => udigits_count (s_rotation s)) (fun s => print_dec (s_rotation s)) (map snd (all_sections l)) 3). intros s I. apply udigits_len. apply (Ss s I).
    + rewrite map_length. lia.
  - intros d I. destruct (P d I) as (N1 & N2 & _). unfold layout_columns in W. cbv zeta in W. cbn [lw_id lw_sections lw_name] in W.
    pose proof (widest_map 0 (fun d => text (ld_id d)) l d I). pose proof (widest_map 0 (fun d => text (ld_name d)) l d I). cbv beta in *. repeat split; try assumption; lia.
  - cbn. lia.
  - cbn [ldl_count]. lia.
Qed.
Lemma layout_line_len l d : In d l -> len (layout_line (layout_columns l) d) <= Z.of_nat (layout_width1 (layout_columns l)).
Proof.
  intro I. unfold layout_line. rewrite line_len by discriminate. cbn [fold_right List.length]. rewrite !number_len. unfold layout_width1, layout_columns. cbv zeta. cbn [lw_id lw_sections lw_name].
  pose proof (widest_map 0 (fun d => text (ld_id d)) l d I) as X. pose proof (widest_map 0 (fun d => text (ld_name d)) l d I). pose proof (widest_map 0 (fun d => print_dec (section_count d)) l d I). cbv beta in *.
  pose proof (id_cell_len (widest 0 (map (fun d => text (ld_id d)) l)) (text (ld_id d)) ltac:(unfold len in X; lia)). lia.
Qed.
Lemma section_id_wide l q : In q (all_sections l) -> len (fst q) <= Z.of_nat (lw_id (layout_columns l)).
Proof.
  intro I. unfold all_sections in I. apply in_flat_map in I. destruct I as (d & Id & I). apply in_map_iff in I. destruct I as (s & <- & I). cbn [fst]. unfold layout_columns. cbv zeta. cbn [lw_id].
  apply (widest_map 0 (fun d => text (ld_id d)) l d Id).
Qed.
Lemma section_line_len l q : In q (all_sections l) -> len (section_line (layout_columns l) q) <= Z.of_nat (layout_width2 (layout_columns l)).
Proof.
  intro I. pose proof (section_id_wide l q I) as Wi. pose proof (in_map snd _ _ I) as J. destruct q as [id s]. cbn [fst snd] in *. unfold section_line. rewrite line_len by discriminate. cbn [fold_right List.length]. rewrite !number_len.
  unfold layout_width2. pose proof (id_cell_len (lw_id (layout_columns l)) id ltac:(unfold len in Wi; lia)) as X. unfold layout_columns in *. cbv zeta in *. cbn [lw_id lw_sections lw_name lw_section lw_x lw_y lw_w lw_h lw_r] in *.
  pose proof (widest_map 0 (fun s => print_dec (s_id s)) _ s J). pose proof (widest_map 0 (fun s => print_dec (s_x s)) _ s J). pose proof (widest_map 0 (fun s => print_dec (s_y s)) _ s J).
  pose proof (widest_map 0 (fun s => print_dec (s_width s)) _ s J). pose proof (widest_map 0 (fun s => print_dec (s_height s)) _ s J). pose proof (widest_map 3 (fun s => print_dec (s_rotation s)) _ s J). cbv beta in *. lia.
Qed.
(** The layout table. *)
Theorem C36_layouts_table l : (forall d, In d l -> layout_in_table d) -> small (List.length l) (layout_width1 (layout_columns l)) -> small (List.length (all_sections l)) (layout_width2 (layout_columns l)) ->
  layouts_table_save (Some (Some l)) = Ok (Some (Some (layouts_table l))).
Proof.
  intros P S1 S2. assert (N : l = [] \/ l <> []) by (destruct l; [now left|right; discriminate]). destruct N as [->|N]; [vm_compute; reflexivity|].
  unfold layouts_table_save. cbn [vec_list]. rewrite (ld_widths_ok l P N S1 S2). cbn [obind]. cbv zeta. cbn [ldl_id ldl_sections ldl_name ldl_section_id ldl_x ldl_y ldl_width ldl_height ldl_rotation ldl_count]. unfold vec_size. cbn [vec_list].
  change (len LD_HEADER) with 52. change (len LD_COLUMNS1) with 29. change (len LD_COLUMNS2) with 60. change (u32 52) with 52.
  assert (W := small_width _ _ S1 ltac:(destruct l; [congruence|cbn; lia])).
  set (w := layout_columns l) in *. assert (L0 : (0 < List.length l)%nat) by (destruct l; [congruence|cbn; lia]).
  set (w1 := Z.of_nat (lw_id w) + Z.of_nat (lw_sections w) + Z.of_nat (lw_name w) + 3).
  set (w2 := Z.of_nat (lw_id w) + Z.of_nat (lw_section w) + Z.of_nat (lw_x w) + Z.of_nat (lw_y w) + Z.of_nat (lw_w w) + Z.of_nat (lw_h w) + Z.of_nat (lw_r w) + 7).
  assert (E1 : w1 = Z.of_nat (layout_width1 w)) by (unfold w1, layout_width1; lia). assert (E2 : w2 = Z.of_nat (layout_width2 w)) by (unfold w2, layout_width2; lia).
  unfold small in S1, S2. rewrite <- E1 in S1, W. rewrite <- E2 in S2.
  assert (B1 : 0 <= Z.of_nat (List.length l) < 2^30) by (unfold w1 in S1; nia). rewrite (u32_small (Z.of_nat (List.length l))) by lia. rewrite (u32_small w1) by lia.
  rewrite (u32_small (29 + w1 * _ + 1)) by lia.
  assert (U : u32 w2 * Z.of_nat (List.length (all_sections l)) = w2 * Z.of_nat (List.length (all_sections l))).
  { destruct (Z.eq_dec (Z.of_nat (List.length (all_sections l))) 0) as [->|Z0]; [lia|]. rewrite u32_small; [reflexivity|]. nia. }
  rewrite U. rewrite (u32_small (60 + w2 * _ + 1)) by lia. rewrite u32_small by lia. rewrite u64_small by lia.
  match goal with |- context [mkBlock ?k _] => set (n := k) end.
  assert (T1 : len (flat_map (layout_line w) l) <= w1 * Z.of_nat (List.length l)).
  { rewrite Z.mul_comm. apply flat_map_len. intros d I. rewrite E1. now apply layout_line_len. }
  assert (T2 : len (flat_map (section_line w) (all_sections l)) <= w2 * Z.of_nat (List.length (all_sections l))).
  { rewrite Z.mul_comm. apply flat_map_len. intros q I. rewrite E2. now apply section_line_len. }
  pose proof (len_nonneg (flat_map (layout_line w) l)). pose proof (len_nonneg (flat_map (section_line w) (all_sections l))).
  assert (Lh : len (LD_HEADER ++ LD_COLUMNS1) = 81) by reflexivity.
  rewrite put_ok by (cbn [or_empty]; change (len []) with 0; unfold n; lia). cbn [obind or_empty app].
  assert (Sw : lw_sections w = widest 0 (map (fun d => print_dec (section_count d)) l)) by reflexivity.
  rewrite (puts_ok (ld_row1 _) (layout_line w) n put).
  - cbn [obind].
    rewrite put_ok by (cbn [or_empty]; rewrite len_app; change (len LD_COLUMNS2) with 60; unfold n; lia). cbn [obind or_empty].
    match goal with |- context [ofold ?f] => match f with (fun b d => ofold (ld_row2 ?a d) b (sections_of d)) => set (aa := a) end end.
    rewrite (ofold_ext (fun b d => ofold (ld_row2 aa d) b (sections_of d)) (fun b d => ofold (fun b q => put b (section_line w q)) b (map (pair (text (ld_id d))) (layout_sections d)))).
    + rewrite (ofold_flat (fun b q => put b (section_line w q)) (fun d => map (pair (text (ld_id d))) (layout_sections d)) l). fold (all_sections l).
      rewrite (puts_ok (fun b q => put b (section_line w q)) (section_line w) n put).
      * cbn [obind]. replace (Z.of_nat (List.length l) =? 0) with false by lia. cbn [negb].
        rewrite put_ok by (cbn [or_empty]; rewrite !len_app; change (len LD_HEADER) with 52; change (len LD_COLUMNS1) with 29; change (len LD_COLUMNS2) with 60; change (len [10]) with 1; unfold n; lia). cbn [obind or_empty bk_text].
        unfold layouts_table. fold w. unfold LD_HEADER, LD_COLUMNS1, LD_COLUMNS2. rewrite <- !app_assoc. destruct l; [congruence|]. reflexivity.
      * apply put_ok.
      * reflexivity.
      * rewrite !len_app; change (len LD_HEADER) with 52; change (len LD_COLUMNS1) with 29; change (len LD_COLUMNS2) with 60; unfold n; lia.
    + intros b d I. destruct (P d I) as (N1 & N2 & Q). rewrite ofold_map. apply ofold_ext. intros b' s Is. unfold ld_row2. rewrite deref_ok by assumption. cbn [obind]. unfold aa. cbn [ldl_id ldl_sections ldl_name ldl_section_id ldl_x ldl_y ldl_width ldl_height ldl_rotation ldl_count].
      destruct (Forall_in _ _ _ Q Is) as (J1 & J2 & J3 & J4 & J5 & J6). unfold is_u32 in *.
      assert (Is' : In (text (ld_id d), s) (all_sections l)) by (unfold all_sections; apply in_flat_map; exists d; split; [exact I|now apply in_map]).
      pose proof (section_id_wide l _ Is') as Wi. cbn [fst] in Wi. fold w in Wi. assert (M : w2 < 2^30) by (destruct (all_sections l) as [|? r]; [easy|cbn [List.length] in S2; nia]). unfold w2 in M.
      rewrite id_cell_ok by (unfold len in Wi; lia). rewrite !fmt_u_ok by lia.
      change (cells [Ok ?c1; Ok ?c2; Ok ?c3; Ok ?c4; Ok ?c5; Ok ?c6; Ok ?c7]) with (cells (map Ok [c1; c2; c3; c4; c5; c6; c7])). rewrite cells_ok. reflexivity.
  - apply put_ok.
  - intros d b I. destruct (P d I) as (N1 & N2 & Q). unfold ld_row1. rewrite !deref_ok by assumption. cbn [obind ldl_id ldl_sections ldl_name ldl_section_id ldl_x ldl_y ldl_width ldl_height ldl_rotation ldl_count].
    pose proof (widest_map 0 (fun d => text (ld_id d)) l d I) as Wi. change (widest 0 (map (fun d => text (ld_id d)) l)) with (lw_id w) in Wi. unfold w1 in W. rewrite id_cell_ok by (unfold len in Wi; lia).
    assert (C : layout_def_section_count d = section_count d).
    { assert (X : (List.length (layout_sections d) <= List.length (all_sections l))%nat).
      { clear - I. induction l as [|y l IH]; [easy|]. unfold all_sections. cbn [flat_map]. rewrite app_length, map_length. destruct I as [->|I]; [lia|]. specialize (IH I). unfold all_sections in IH. lia. }
      assert (B2 : Z.of_nat (List.length (all_sections l)) < 2^30) by (unfold w2 in S2; nia).
      unfold layout_def_section_count, section_count, layout_sections, vec_size in *. destruct (ld_sections d); [apply u32_small; lia|reflexivity]. }
    rewrite C. rewrite fmt_u_ok by (unfold section_count; lia).
    change (cells [Ok ?c1; Ok ?c2; Ok ?c3]) with (cells (map Ok [c1; c2; c3])). rewrite cells_ok. reflexivity.
  - rewrite Lh. unfold n. lia.
Qed.
Print Assumptions C36_layouts_table.
(** No list of layouts: both headers. *)
Theorem C36_layouts_empty : layouts_table_save (Some None) = Ok (Some (Some (layouts_table []))) /\ layouts_table_save None = Ok None.
Proof. split; vm_compute; reflexivity. Qed.
Print Assumptions C36_layouts_empty.
(** A metadata source that only names its file is valid, but both tables dereference its NULL strings. *)
Definition ex_linked : fsource := mkFsource None None 4 7.
Definition ex_linked_file : toc_file :=
  mkFile (Some (s2z "a.pdf")) (Some (s2z "2020")) (Some (repeat 97 40)) 1234 1 0 0 2 99 (Some (s2z "id")) FILE_NO_PARENT TYPE_DIGITAL None (Some (s2z "x")) (Some (Some [ex_linked])).
Theorem C36_metadata_linked_refuted : file_is_valid ex_linked_file = true /\ metadata_table_save (Some (Some [ex_linked_file])) = UB /\ fmetadata_table_save (Some (Some [ex_linked])) = UB.
Proof. repeat split; vm_compute; reflexivity. Qed.
Print Assumptions C36_metadata_linked_refuted.
Definition ex_sources : list fsource := [mkFsource (Some (s2z "author" ++ [10] ++ s2z "x")) (Some (s2z "7")) (-1) 12; mkFsource (Some (s2z "t")) (Some (s2z "99")) 2 (-1)].
Definition ex_meta_file : toc_file :=
  mkFile (Some (s2z "a.pdf")) (Some (s2z "2020")) (Some (repeat 97 40)) 1234 10 0 0 2 99 (Some (s2z "id")) FILE_NO_PARENT TYPE_DIGITAL None (Some (s2z "x")) (Some (Some ex_sources)).
Example C36_metadata_witness : (forall f, In f [ex_meta_file] -> is_i32 (f_id f)) /\ (forall q, In q (all_sources [ex_meta_file]) -> source_in_table (snd q)) /\
  small 2 (meta_width (meta_columns (all_sources [ex_meta_file]))) /\
  metadata_table [ex_meta_file] = [10] ++ s2z "USER DATA FILES METADATA" ++ [10] ++ s2z "========================" ++ [10] ++ s2z "<fileId> <sourceFileId> <sourceId> <formatId> <data>" ++ [10] ++
    s2z "10 -1 12 7  authorx" ++ [10] ++ s2z "10 02 00N 99 t" ++ [10].
Proof.
  split; [intros f [<-|[]]; vm_compute; intuition congruence|]. split; [intros q [<-|[<-|[]]]; unfold source_in_table; (split; [discriminate|split; [discriminate|vm_compute; intuition congruence]])|].
  split; vm_compute; reflexivity.
Qed.
Example C36_file_metadata_witness : (forall s, In s ex_sources -> source_in_table s) /\ small 2 (one_width (one_columns (indexed 0 ex_sources))) /\
  one_table ex_sources = s2z "METADATA SOURCES" ++ [10] ++ s2z "================" ++ [10] ++ s2z "<id> <fileId> <sourceId> <formatId> <data>" ++ [10] ++
    s2z "0 4294967295 0000000012 7  author" ++ [10] ++ s2z "x" ++ [10] ++ s2z "1 0000000002 4294967295 99 t" ++ [10].
Proof.
  split; [intros q [<-|[<-|[]]]; unfold source_in_table; (split; [discriminate|split; [discriminate|vm_compute; intuition congruence]])|]. split; vm_compute; reflexivity.
Qed.
Definition ex_layouts : list layout_def :=
  [mkLayoutDef (Some (s2z "1")) (Some (s2z "full")) (Some (Some [mkSection 1 0 0 4096 2160 0])); mkLayoutDef (Some (s2z "20")) (Some (s2z "two")) (Some (Some [mkSection 1 0 0 2048 2160 90; mkSection 2 2048 0 2048 2160 270]))].
Example C36_layouts_witness : (forall d, In d ex_layouts -> layout_in_table d) /\ small 2 (layout_width1 (layout_columns ex_layouts)) /\ small 3 (layout_width2 (layout_columns ex_layouts)) /\
  layouts_table ex_layouts = s2z "VISUAL LAYOUT DEFINITIONS" ++ [10] ++ s2z "=========================" ++ [10] ++ s2z "<layoutId> <sections> <name>" ++ [10] ++
    s2z "01 1 full" ++ [10] ++ s2z "20 2 two" ++ [10; 10] ++ s2z "<layoutId> <sectionId> <x> <y> <width> <height> <rotation>" ++ [10] ++
    s2z "01 1 0000 0 4096 2160 000" ++ [10] ++ s2z "20 1 0000 0 2048 2160 090" ++ [10] ++ s2z "20 2 2048 0 2048 2160 270" ++ [10; 10].
Proof.
  assert (S : forall a b c d e f, is_u32 a -> is_u32 b -> is_u32 c -> is_u32 d -> is_u32 e -> is_u32 f -> section_in_table (mkSection a b c d e f)) by (unfold section_in_table; tauto).
  split.
  - intros d [<-|[<-|[]]]; unfold layout_in_table; (split; [discriminate|split; [discriminate|]]); cbn [layout_sections ld_sections vec_list];
      [apply Forall_cons; [|apply Forall_nil]|apply Forall_cons; [|apply Forall_cons; [|apply Forall_nil]]]; apply S; vm_compute; intuition congruence.
  - split; [vm_compute; reflexivity|]. split; vm_compute; reflexivity.
Qed.
