(** C17-C22, C40, C41 and the save part of C25: save and load of the table-of-contents objects.

    [round_trips (save_X x) load_X y] (SpecTocXml): for every indentation callback, with or without
    the XML declaration, save_string gives a text and load_string on that text succeeds with [y]. *)
From Verif Require Import CBase CBaseProofs XmlEntity XmlModel SpecXml EntityProofs Utf8Proofs TrimProofs XmlProofs XmlRound SimProofs
  TocModel SpecToc ValidProofs EqualProofs TocXmlModel TocXmlBase SpecTocXml TocXmlProofs TocXmlProofs2 TocXmlProofs3 TocXmlProofs4 TocXmlProofs5 TocXmlNorm
  TocXmlRound TagsModel.
From Coq Require Import ZifyBool.

(** * C17: file entries *)
(** Any valid entry: the result is the entry with the normalisations that [file_back] lists. *)
Theorem C17_file_round_trip f : file_is_valid f = true -> file_carried f -> round_trips (save_file false f) load_file (file_back f).
Proof. exact (file_round false f). Qed.
Print Assumptions C17_file_round_trip.
(** An entry in normal form comes back equal. *)
Theorem C17_file_normal_form f : file_is_valid f = true -> file_carried f -> file_clean f ->
  exists g, round_trips (save_file false f) load_file g /\ file_equal g f = true.
Proof.
  intros V K C. exists (file_back f). split; [now apply C17_file_round_trip|]. apply file_decides. now apply file_back_norm.
Qed.
Print Assumptions C17_file_normal_form.
(** What comes back is valid again, so it can be saved again. *)
Theorem C17_file_back_valid f : file_is_valid f = true -> file_carried f -> file_solid f -> file_is_valid (file_back f) = true.
Proof. exact (file_back_valid f). Qed.
Print Assumptions C17_file_back_valid.

(** A concrete entry: digital with preview and metadata, non-ASCII name. *)
Lemma ascii_by s : forallb (fun c => (32 <=? c) && (c <? 128)) s = true -> is_text s.
Proof. intro H. apply ascii_text. rewrite forallb_forall in H. apply Forall_forall. intros c I. specialize (H c I). lia. Qed.
Lemma good_by l : forallb (fun c => (32 <=? c) && (c <? 65279)) l = true -> Forall good_cp l.
Proof. intro H. rewrite forallb_forall in H. apply Forall_forall. intros c I. specialize (H c I). unfold good_cp. lia. Qed.
Definition ex_name : option cstr := Some (s2z "r" ++ [195; 169] ++ s2z "port & <one>.pdf").
Lemma ex_name_text : carried ex_name.
Proof.
  intros x E. injection E as <-. exists ([114; 233] ++ s2z "port & <one>.pdf"). split; [|reflexivity]. now apply good_by.
Qed.
Fixpoint has_end (s : cstr) : bool :=
  match s with
  | [] => false
  | _ :: s' => (match s with 93 :: 93 :: 62 :: _ => true | _ => false end) || has_end s'
  end.
Lemma cdata_by s : is_text s -> has_end s = false -> cdata_ok s.
Proof.
  intros T H. split; [exact T|]. intros (a & b & ->). clear T. induction a as [|c a IH]; cbn in H; [discriminate|]. apply orb_false_elim in H as (_ & H). auto.
Qed.
Ltac atext := let x := fresh in let E := fresh in intros x E; first [discriminate E | injection E as <-; apply ascii_by; reflexivity].
Ltac apayload := let x := fresh in let E := fresh in intros x E; first [discriminate E | injection E as <-; apply cdata_by; [apply ascii_by; reflexivity|reflexivity]].
Ltac aclean := let x := fresh in let E := fresh in intros x E; first [discriminate E | injection E as <-; reflexivity].
Definition ex_page : page := mkPage (Some (s2z "layout-1")) 12 1 3 100 200 5 6.
Definition ex_preview : preview := mkPreview (Some [ex_page; mkPage (Some (s2z "layout-1")) 13 0 1 0 0 0 0]) 300.
Definition ex_fsource : fsource := mkFsource (Some (s2z "<dc:title>x & y</dc:title>")) (Some (s2z "dc")) (-1) 4.
Definition ex_file : toc_file :=
  mkFile ex_name (Some (s2z "2024-02-29T10:00:00")) (Some (s2z "da39a3ee")) 5000000000 7 20 100 25 4095 (Some (s2z "urn:1")) (-2) 3
         (Some ex_preview) (Some (s2z "PDF/A")) (Some (Some [ex_fsource; mkFsource None None 3 1])).
Lemma ex_page_carried : page_carried ex_page.
Proof. split; [atext|]. repeat split; unfold is_u32; cbn; lia. Qed.
Lemma ex_preview_carried : preview_carried ex_preview.
Proof.
  split; [|unfold is_i32; cbn; lia]. constructor; [apply ex_page_carried|]. constructor; [|constructor]. split; [atext|]. repeat split; unfold is_u32; cbn; lia.
Qed.
Lemma ex_fsource_carried : fsource_carried ex_fsource.
Proof. split; [apayload|]. split; [atext|]. split; unfold is_i32; cbn; lia. Qed.
Lemma ex_file_carried : file_carried ex_file.
Proof.
  unfold file_carried, ex_file; cbn [f_name f_date f_checksum f_size f_id f_start_frame f_start_byte f_end_frame f_end_byte f_unique_id f_parent_id f_types f_preview f_file_format f_metadata fsources_of].
  split; [apply ex_name_text|]. do 4 (split; [atext|]). repeat (split; [unfold is_i32, is_i64; lia|]). split.
  - intros p E. injection E as <-. apply ex_preview_carried.
  - split; [|unfold short; cbn; lia]. constructor; [apply ex_fsource_carried|]. constructor; [|constructor]. split; [apayload|]. split; [atext|]. split; unfold is_i32; cbn; lia.
Qed.
Lemma ex_file_clean : file_clean ex_file.
Proof.
  unfold file_clean. do 4 (split; [aclean|]). split; [discriminate|]. split; [cbn; lia|]. split; [intro N; exfalso; apply N; reflexivity|].
  split; [intro N; exfalso; apply N; reflexivity|]. split.
  - intros p E. injection E as <-. split; [|cbn; lia]. repeat constructor; cbn; lia.
  - split; [|right; discriminate]. constructor; [intro E; discriminate E|]. constructor; [|constructor]. intro. now left.
Qed.
Example C17_witness : file_is_valid ex_file = true /\ file_carried ex_file /\ file_clean ex_file.
Proof. split; [reflexivity|]. split; [apply ex_file_carried|apply ex_file_clean]. Qed.
(** Outside the normal form the result can differ: a name with outer blanks loses them. *)
Theorem C17_outer_blanks_refuted : exists f g, file_is_valid f = true /\ file_carried f /\ round_trips (save_file false f) load_file g /\ file_equal g f = false.
Proof.
  pose (f := mkFile (Some (s2z " a")) (Some (s2z "d")) (Some []) 0 1 (-1) (-1) (-1) (-1) None (-2) 0 None (Some (s2z "x")) None).
  exists f, (file_back f). assert (K : file_carried f).
  { unfold file_carried, f; cbn [f_name f_date f_checksum f_size f_id f_start_frame f_start_byte f_end_frame f_end_byte f_unique_id f_parent_id f_types f_preview f_file_format f_metadata fsources_of].
    do 5 (split; [atext|]). repeat (split; [unfold is_i32, is_i64; lia|]). split; [intros p E; discriminate E|]. split; [constructor|unfold short; cbn; lia]. }
  split; [reflexivity|]. split; [exact K|]. split; [now apply C17_file_round_trip|]. reflexivity.
Qed.
Print Assumptions C17_outer_blanks_refuted.

(** * C18: file lists *)
Theorem C18_files_round_trip l : Forall (fun f => file_is_valid f = true) l -> files_carried l ->
  round_trips (save_files (Some (Some l))) load_files (back_list file_back l).
Proof. exact (files_round l). Qed.
Print Assumptions C18_files_round_trip.
Theorem C18_files_normal_form l : l <> [] -> Forall (fun f => file_is_valid f = true) l -> Forall file_carried l -> Forall file_clean l ->
  exists l', round_trips (save_files (Some (Some l))) load_files (Some l') /\ files_equal (Some l') (Some l) = true /\ map f_id l' = map f_id l.
Proof.
  intros N V K C. exists (map file_back l). assert (So : Forall file_solid l).
  { apply Forall_forall. intros f I. rewrite Forall_forall in V, K, C. apply file_clean_solid; auto. apply file_valid_iff; auto. apply (K f I). }
  split; [|split].
  - rewrite <- (back_list_ok file_back l N). apply C18_files_round_trip; [exact V|]. now split.
  - apply (vec_decides _ _ file_decides). cbn [option_map]. f_equal. now apply files_back_norm.
  - rewrite map_map. reflexivity.
Qed.
Print Assumptions C18_files_normal_form.
Example C18_witness : [ex_file; ex_file] <> [] /\ Forall (fun f => file_is_valid f = true) [ex_file; ex_file] /\
  Forall file_carried [ex_file; ex_file] /\ Forall file_clean [ex_file; ex_file] /\ files_carried [ex_file; ex_file].
Proof.
  split; [discriminate|]. split; [repeat constructor|]. split; [repeat (constructor; [apply ex_file_carried|]); constructor|].
  split; [repeat (constructor; [apply ex_file_clean|]); constructor|]. split; [repeat (constructor; [apply ex_file_carried|]); constructor|].
  repeat constructor; intros x E; injection E as <-; discriminate.
Qed.
(** A list with an entry whose name is blank saves but does not load. *)
Theorem C18_blank_name_refuted : exists l s, Forall (fun f => file_is_valid f = true) l /\ Forall file_carried l /\
  save_object true (save_files (Some (Some l))) no_ws true = Some s /\ load_object load_files s = Ok None.
Proof.
  pose (f := mkFile (Some (s2z " ")) (Some (s2z "d")) (Some []) 0 1 (-1) (-1) (-1) (-1) None (-2) 0 None (Some (s2z "x")) None).
  exists [f]. eexists. split; [repeat constructor|]. split.
  { constructor; [|constructor]. unfold file_carried, f; cbn [f_name f_date f_checksum f_size f_id f_start_frame f_start_byte f_end_frame f_end_byte f_unique_id f_parent_id f_types f_preview f_file_format f_metadata fsources_of].
    do 5 (split; [atext|]). repeat (split; [unfold is_i32, is_i64; lia|]). split; [intros p E; discriminate E|]. split; [constructor|unfold short; cbn; lia]. }
  split; [vm_compute; reflexivity|]. vm_compute. reflexivity.
Qed.
Print Assumptions C18_blank_name_refuted.

(** * C19: previews and pages *)
Theorem C19_page_round_trip p : page_carried p -> round_trips (save_page p) load_page (page_back p).
Proof. exact (page_round p). Qed.
Print Assumptions C19_page_round_trip.
Theorem C19_preview_round_trip p : preview_is_valid (Some p) = true -> preview_carried p -> round_trips (save_preview (Some p)) load_preview (preview_back p).
Proof. exact (preview_round p). Qed.
Print Assumptions C19_preview_round_trip.
(** Pairs written together are both zero or both non-zero, and the resolution is known or -1: the very
    same preview comes back. *)
Theorem C19_preview_normal_form p : preview_is_valid (Some p) = true -> preview_carried p -> preview_clean p ->
  round_trips (save_preview (Some p)) load_preview p /\ preview_equal p p = true.
Proof.
  intros V K C. split; [|now apply preview_decides]. rewrite <- (preview_back_id p V C) at 2. now apply C19_preview_round_trip.
Qed.
Print Assumptions C19_preview_normal_form.
Theorem C19_page_normal_form p : page_carried p -> page_clean p -> round_trips (save_page p) load_page p.
Proof. intros K C. rewrite <- (page_back_id p C) at 2. now apply C19_page_round_trip. Qed.
Print Assumptions C19_page_normal_form.
Example C19_witness : preview_is_valid (Some ex_preview) = true /\ preview_carried ex_preview /\ preview_clean ex_preview.
Proof. split; [reflexivity|]. split; [apply ex_preview_carried|]. apply (ex_file_clean). reflexivity. Qed.
(** A valid page with one zero overlap loses the other. *)
Theorem C19_half_overlap_refuted : exists p q, page_is_valid p = true /\ page_carried p /\ round_trips (save_page p) load_page q /\ page_equal q p = false.
Proof.
  pose (p := mkPage (Some (s2z "a")) 1 0 1 10 10 3 0). exists p, (page_back p).
  assert (K : page_carried p) by (split; [atext|]; repeat split; unfold is_u32; cbn; lia).
  split; [reflexivity|]. split; [exact K|]. split; [now apply C19_page_round_trip|reflexivity].
Qed.
Print Assumptions C19_half_overlap_refuted.

(** * C20: preview layouts *)
Theorem C20_sections_round_trip l : sections_is_valid (Some (Some l)) = true -> sections_carried l ->
  round_trips (save_sections (Some (Some l))) load_sections (Some l) /\
  (forall s, In s l -> round_trips (save_section s) load_section s).
Proof.
  intros V C. split; [now apply sections_round|]. intros s I. destruct C as (C & _). rewrite Forall_forall in C. apply section_round; [auto|].
  pose proof (sections_check_valid l) as H. rewrite Forall_forall in H. apply H; auto. cbn [sections_is_valid] in V. destruct l; [discriminate|exact V].
Qed.
Print Assumptions C20_sections_round_trip.
Theorem C20_definition_round_trip d : layout_def_is_valid d = true -> layout_carried d -> round_trips (save_layout_def d) load_layout_def (layout_back d).
Proof. exact (layout_round d). Qed.
Print Assumptions C20_definition_round_trip.
Theorem C20_definition_normal_form d : layout_def_is_valid d = true -> layout_carried d -> layout_clean d ->
  exists e, round_trips (save_layout_def d) load_layout_def e /\ layout_def_equal e d = true.
Proof. intros V K C. exists (layout_back d). split; [now apply layout_round|]. apply def_decides. now apply layout_back_norm. Qed.
Print Assumptions C20_definition_normal_form.
Theorem C20_collection_round_trip l : Forall (fun d => layout_def_is_valid d = true) l -> layouts_carried l ->
  round_trips (save_layout_defs (Some (Some l))) load_layout_defs (back_list layout_back l).
Proof. exact (layouts_round l). Qed.
Print Assumptions C20_collection_round_trip.
Theorem C20_collection_normal_form l : l <> [] -> Forall (fun d => layout_def_is_valid d = true) l -> layouts_carried l -> Forall layout_clean l ->
  exists l', round_trips (save_layout_defs (Some (Some l))) load_layout_defs (Some l') /\ layout_defs_equal (Some l') (Some l) = true.
Proof.
  intros N V K C. exists (map layout_back l). split; [rewrite <- (back_list_ok layout_back l N); now apply layouts_round|].
  apply (vec_decides _ _ def_decides). cbn [option_map]. rewrite map_map. f_equal. apply map_same. eapply Forall_impl; [|exact C]. exact layout_back_norm.
Qed.
Print Assumptions C20_collection_normal_form.
Definition ex_layout (i : string) : layout_def :=
  mkLayoutDef (Some (s2z i)) (Some (s2z "Two columns")) (Some (Some [mkSection 1 0 0 100 200 0; mkSection 2 100 0 100 200 90])).
Definition ex_layouts : list layout_def := [ex_layout "l1"; ex_layout "l2"].
Lemma ex_layouts_carried : layouts_carried ex_layouts.
Proof.
  assert (S : sections_carried (def_sections (ex_layout "l1"))).
  { split; [repeat constructor; cbn; lia|]. cbn. repeat constructor; cbn; intuition discriminate. }
  split; [|split].
  - constructor; [|constructor; [|constructor]]; (split; [atext|split; [atext|exact S]]).
  - repeat constructor; intros x E; injection E as <-; discriminate.
  - cbn. repeat constructor; cbn; intuition discriminate.
Qed.
Lemma ex_layouts_clean : Forall layout_clean ex_layouts.
Proof. constructor; [|constructor; [|constructor]]; split; aclean. Qed.
Example C20_witness : ex_layouts <> [] /\ Forall (fun d => layout_def_is_valid d = true) ex_layouts /\ layouts_carried ex_layouts /\ Forall layout_clean ex_layouts.
Proof. split; [discriminate|]. split; [repeat constructor|]. split; [apply ex_layouts_carried|apply ex_layouts_clean]. Qed.
(** Validity does not ask for different section ids, loading does. *)
Theorem C20_repeated_section_id_refuted : exists l s, sections_is_valid (Some (Some l)) = true /\ Forall section_range l /\
  save_object true (save_sections (Some (Some l))) no_ws true = Some s /\ load_object load_sections s = Ok None.
Proof.
  exists [mkSection 1 0 0 10 10 0; mkSection 1 10 0 10 10 0]. eexists. split; [reflexivity|]. split; [repeat constructor; cbn; lia|].
  split; [vm_compute; reflexivity|]. vm_compute. reflexivity.
Qed.
Print Assumptions C20_repeated_section_id_refuted.

(** * C21: metadata. [split] stands for boxing_string_split(_, ";"), of which only [splits] is assumed. *)
Theorem C21_file_metadata_round_trip l : Forall (fun s => fsource_is_valid s = true) l -> Forall fsource_carried l -> short l ->
  round_trips (save_fmetadata (Some (Some l))) load_fmetadata (back_list fsource_back l) /\
  (forall s, In s l -> round_trips (save_fsource s) load_fsource (fsource_back s)).
Proof.
  intros V C Sh. split; [now apply fmetadata_round|]. intros s I. rewrite Forall_forall in V, C. apply fsource_round; auto.
Qed.
Print Assumptions C21_file_metadata_round_trip.
Theorem C21_file_metadata_normal_form l : l <> [] -> Forall (fun s => fsource_is_valid s = true) l -> Forall fsource_carried l -> short l -> Forall fsource_clean l ->
  exists l', round_trips (save_fmetadata (Some (Some l))) load_fmetadata (Some l') /\ fmetadata_equal (Some l') (Some l) = true.
Proof.
  intros N V K Sh C. exists (map fsource_back l). split; [rewrite <- (back_list_ok fsource_back l N); now apply fmetadata_round|].
  apply (vec_decides _ _ fsource_decides). cbn [option_map]. rewrite map_map. f_equal. apply map_same. eapply Forall_impl; [|exact C]. exact fsource_back_norm.
Qed.
Print Assumptions C21_file_metadata_normal_form.
Theorem C21_toc_metadata_round_trip split l : metadata_is_valid (Some (Some l)) = true -> Forall msource_carried l ->
  round_trips (save_metadata (Some (Some l))) (load_metadata split) (back_list (msource_back split) l).
Proof. exact (metadata_round split l). Qed.
Print Assumptions C21_toc_metadata_round_trip.
Theorem C21_toc_metadata_normal_form split l : splits split -> metadata_is_valid (Some (Some l)) = true -> Forall msource_carried l -> Forall msource_clean l ->
  round_trips (save_metadata (Some (Some l))) (load_metadata split) (Some l) /\
  (forall s, In s l -> round_trips (save_msource s) (load_msource split) s).
Proof.
  intros Sp V K C. assert (N : l <> []) by (intros ->; discriminate V). split.
  - pose proof (metadata_round split l V K) as R. rewrite (back_list_ok _ l N) in R.
    rewrite (map_same (msource_back split) (fun x => x)), map_id in R; [exact R|]. eapply Forall_impl; [|exact C]. intros s. now apply msource_back_id.
  - intros s I. rewrite Forall_forall in K, C. rewrite <- (msource_back_id split s Sp (C s I)) at 2. apply msource_round; auto.
    destruct l as [|x l]; [congruence|]. cbn [metadata_is_valid] in V. rewrite forallb_forall in V. auto.
Qed.
Print Assumptions C21_toc_metadata_normal_form.
Definition ex_msource : msource := mkMsource (Some (s2z "dc")) 1 (-1) (Some (s2z "<a>]] & </a>")) (Some [s2z "music"; s2z "old times"]).
Lemma ex_msource_carried : msource_carried ex_msource.
Proof. split; [atext|]. split; [apayload|]. split; [unfold is_i32; cbn; lia|]. split; [unfold is_i32; cbn; lia|]. intros l E. injection E as <-. apply ascii_by. reflexivity. Qed.
Lemma ex_msource_clean : msource_clean ex_msource.
Proof.
  intros l E. injection E as <-. split; [discriminate|]. split; [|reflexivity]. repeat constructor; try discriminate; cbn; lia.
Qed.
Example C21_witness : splits split_parts /\ metadata_is_valid (Some (Some [ex_msource; ex_msource])) = true /\ Forall msource_carried [ex_msource; ex_msource] /\
  Forall msource_clean [ex_msource; ex_msource].
Proof.
  split; [apply split_parts_ok|]. split; [reflexivity|]. split; [repeat (constructor; [apply ex_msource_carried|]); constructor|repeat (constructor; [apply ex_msource_clean|]); constructor].
Qed.
Example C21_witness_files : Forall (fun s => fsource_is_valid s = true) [ex_fsource] /\ Forall fsource_carried [ex_fsource] /\ short [ex_fsource] /\ Forall fsource_clean [ex_fsource].
Proof. repeat split; try (constructor; [|constructor]); try apply ex_fsource_carried; try reflexivity. intro E; discriminate E. Qed.
(** A source that refers to a file by id and has a format but no data loses the format. *)
Theorem C21_format_without_data_refuted : exists s t, fsource_is_valid s = true /\ fsource_carried s /\ round_trips (save_fsource s) load_fsource t /\ fsource_equal t s = false.
Proof.
  pose (s := mkFsource None (Some (s2z "dc")) 3 1). exists s, (fsource_back s).
  assert (K : fsource_carried s). { split; [intros x E; discriminate E|]. split; [atext|]. split; unfold is_i32; cbn; lia. }
  split; [reflexivity|]. split; [exact K|]. split; [now apply fsource_round|reflexivity].
Qed.
Print Assumptions C21_format_without_data_refuted.

(** * C22: reels and the table of contents *)
Theorem C22_reel_round_trip r : reel_is_valid r = true -> reel_carried r -> round_trips (save_reel r) load_reel (reel_back r).
Proof. exact (reel_round r). Qed.
Print Assumptions C22_reel_round_trip.
Theorem C22_reels_round_trip l : Forall (fun r => reel_is_valid r = true) l -> reels_carried l -> short l ->
  round_trips (save_reels (Some (Some l))) load_reels (back_list reel_back l).
Proof. exact (reels_round l). Qed.
Print Assumptions C22_reels_round_trip.
(** [t0] is the table of contents object the file is loaded into. *)
Theorem C22_toc_round_trip split t0 t : toc_is_valid t = true -> toc_carried t -> round_trips (save_toc t) (load_toc split t0) (toc_back split t).
Proof. exact (toc_round split t0 t). Qed.
Print Assumptions C22_toc_round_trip.
Theorem C22_toc_normal_form split t0 t : splits split -> toc_is_valid t = true -> toc_carried t -> toc_clean t ->
  exists t', round_trips (save_toc t) (load_toc split t0) t' /\ toc_equal t' t = true.
Proof.
  intros Sp V K C. exists (toc_back split t). split; [now apply toc_round|].
  assert (Sz : toc_sizes t). { destruct K as (_ & _ & _ & _ & _ & _ & S1 & S2 & S3). split; [exact S3|split; [exact S1|exact S2]]. }
  apply toc_decides; [|exact Sz|now apply toc_back_norm].
  assert (B : forall A (f : A -> A) l, match back_opt f l with Some (Some x) => x | _ => [] end = map f l) by (intros A f l; destruct l; reflexivity).
  destruct Sz as (S1 & S2 & S3). unfold toc_sizes.
  change (reels_of (toc_back split t)) with (match back_opt reel_back (reels_of t) with Some (Some x) => x | _ => [] end).
  change (msources_of (toc_back split t)) with (match back_opt (msource_back split) (msources_of t) with Some (Some x) => x | _ => [] end).
  change (layouts_of (toc_back split t)) with (match back_opt layout_back (layouts_of t) with Some (Some x) => x | _ => [] end).
  rewrite (B reel), (B msource), (B layout_def). unfold small in *. rewrite !map_length. auto.
Qed.
Print Assumptions C22_toc_normal_form.
Theorem C22_reels_normal_form l : l <> [] -> Forall (fun r => reel_is_valid r = true) l -> reels_carried l -> short l -> Forall reel_clean l ->
  exists l', round_trips (save_reels (Some (Some l))) load_reels (Some l') /\ reels_equal (Some l') (Some l) = true.
Proof.
  intros N V K Sh C. exists (map reel_back l). split; [rewrite <- (back_list_ok reel_back l N); now apply reels_round|].
  apply (vec_decides _ _ reel_decides). cbn [option_map]. rewrite map_map. f_equal. apply map_same. destruct K as (K & _). apply Forall_forall. intros r I.
  rewrite Forall_forall in V, K, C. apply reel_back_norm; auto.
Qed.
Print Assumptions C22_reels_normal_form.
Definition ex_reel : reel := mkReel (Some (s2z "reel-7")) (Some (Some [ex_file; ex_file])).
Lemma ex_reel_carried : reel_carried ex_reel.
Proof. split; [atext|]. split; [apply C18_witness|unfold short; cbn; lia]. Qed.
Definition ex_toc : toc_data :=
  mkToc (Some (s2z "1.0.0")) (Some (s2z "reel")) (Some (s2z "job 1")) (Some (s2z "reel-7")) (Some (Some [ex_reel; ex_reel]))
        (Some (Some [ex_msource])) (Some (Some ex_layouts)).
Example C22_witness : splits split_parts /\ toc_is_valid ex_toc = true /\ toc_carried ex_toc /\ toc_clean ex_toc.
Proof.
  split; [apply split_parts_ok|]. split; [reflexivity|]. split.
  - split; [atext|]. split; [atext|]. split; [atext|]. split; [constructor; [apply ex_msource_carried|constructor]|]. split; [apply ex_layouts_carried|].
    split; [|repeat split; unfold short; cbn; lia]. split; [repeat (constructor; [apply ex_reel_carried|]); constructor|].
    constructor; [|constructor; [|constructor]]; intros x E; injection E as <-; discriminate.
  - split; [aclean|]. split; [aclean|]. split; [constructor; [apply ex_msource_clean|constructor]|]. split; [apply ex_layouts_clean|].
    assert (R : reel_clean ex_reel) by (split; [aclean|]; split; [apply C18_witness|discriminate]). repeat (constructor; [exact R|]). constructor.
Qed.

(** * C40: the older form of the data fields *)
(** Everything but the checksum survives. *)
Theorem C40_v1_round_trip f : file_is_valid f = true -> file_carried f -> round_trips (save_file true f) load_file (file_back_v1 f).
Proof. exact (file_round true f). Qed.
Print Assumptions C40_v1_round_trip.
Theorem C40_v1_normal_form_partial f : file_is_valid f = true -> file_carried f -> file_clean f -> (digital f -> f_checksum f = Some []) ->
  exists g, round_trips (save_file true f) load_file g /\ file_equal g f = true.
Proof. intros V K C E. exists (file_back_v1 f). split; [now apply C40_v1_round_trip|]. apply file_decides. now apply file_back_v1_norm. Qed.
Print Assumptions C40_v1_normal_form_partial.
(** The full claim is false: the checksum of any digital entry in normal form is lost. *)
Theorem C40_checksum_lost_refuted f c k : file_is_valid f = true -> file_carried f -> digital f -> f_checksum f = Some (c :: k) ->
  exists g, round_trips (save_file true f) load_file g /\ f_checksum g = Some [] /\ file_equal g f = false.
Proof.
  intros V K D E. exists (file_back_v1 f). split; [now apply C40_v1_round_trip|]. split; [reflexivity|].
  destruct (file_equal (file_back_v1 f) f) eqn:Q; [|reflexivity]. apply file_decides in Q. apply (f_equal f_checksum) in Q. cbn [norm_file f_checksum] in Q. rewrite E in Q. discriminate.
Qed.
Print Assumptions C40_checksum_lost_refuted.
Definition ex_file_v1 : toc_file :=
  mkFile ex_name (Some (s2z "2024-02-29T10:00:00")) (Some []) 5000000000 7 20 100 25 4095 (Some (s2z "urn:1")) (-2) 1
         None (Some (s2z "PDF/A")) None.
Example C40_witness : file_is_valid ex_file_v1 = true /\ file_carried ex_file_v1 /\ file_clean ex_file_v1 /\ digital ex_file_v1 /\ f_checksum ex_file_v1 = Some [].
Proof.
  split; [reflexivity|]. split; [|split; [|split; reflexivity]].
  - unfold file_carried, ex_file_v1; cbn [f_name f_date f_checksum f_size f_id f_start_frame f_start_byte f_end_frame f_end_byte f_unique_id f_parent_id f_types f_preview f_file_format f_metadata fsources_of].
    split; [apply ex_name_text|]. do 4 (split; [atext|]). repeat (split; [unfold is_i32, is_i64; lia|]). split; [intros p E; discriminate E|]. split; [constructor|unfold short; cbn; lia].
  - unfold file_clean. do 4 (split; [aclean|]). split; [discriminate|]. split; [cbn; lia|]. split; [intro N; exfalso; apply N; reflexivity|].
    split; [reflexivity|]. split; [intros p E; discriminate E|]. split; [constructor|now left].
Qed.

(** * C41: tags *)
(** The buffer that is allocated for the tag string is large enough, and the string is the tags with
    semicolons between them. *)
Theorem C41_tags_buffer l : tags_length l + 1 < 2^64 -> get_tags_buffer (Some l) = Ok (Some (tags_string l)).
Proof. exact (get_tags_buffer_ok l). Qed.
Print Assumptions C41_tags_buffer.
(** Setting the tags from the string of a tag list and reading them back. *)
Theorem C41_tags_survive split s l : splits split -> l <> [] -> Forall (fun x => x <> [] /\ ~ In 59 x) l -> tags_length l + 1 < 2^64 ->
  let s' := set_tags split s (Some (tags_string l)) in
  ms_tags s' = Some l /\ get_tags_buffer (ms_tags s') = Ok (Some (tags_string l)).
Proof.
  intros Sp N F L s'. assert (E : ms_tags s' = Some l).
  { unfold s', set_tags. destruct (tags_string l) as [|c k] eqn:T.
    - exfalso. destruct l as [|x [|y m]]; [congruence| |].
      + cbn [tags_string] in T. subst. inversion F as [|? ? (Hx & _) ?]. congruence.
      + cbn [tags_string] in T. apply (f_equal (@List.length Z)) in T. rewrite !app_length in T. cbn in T. lia.
    - rewrite <- T. cbn [ms_tags]. f_equal. now apply Sp. }
  split; [exact E|]. rewrite E. now apply get_tags_buffer_ok.
Qed.
Print Assumptions C41_tags_survive.
Example C41_witness : splits split_parts /\ [s2z "music"; s2z "old times"] <> [] /\ Forall (fun x => x <> [] /\ ~ In 59 x) [s2z "music"; s2z "old times"] /\
  tags_length [s2z "music"; s2z "old times"] + 1 < 2^64.
Proof. split; [apply split_parts_ok|]. split; [discriminate|]. split; [|reflexivity]. repeat constructor; try discriminate; cbn; lia. Qed.

(** * C25: an invalid object is not written. *)
Theorem C25_invalid_not_saved :
  (forall s, section_is_valid s = false -> not_saved (save_section s)) /\
  (forall v, sections_is_valid v = false -> not_saved (save_sections v)) /\
  (forall d, layout_def_is_valid d = false -> not_saved (save_layout_def d)) /\
  (forall v, layout_defs_is_valid v = false -> not_saved (save_layout_defs v)) /\
  (forall p, preview_is_valid p = false -> not_saved (save_preview p)) /\
  (forall s, fsource_is_valid s = false -> not_saved (save_fsource s)) /\
  (forall m, fmetadata_is_valid m = false -> not_saved (save_fmetadata m)) /\
  (forall s, msource_is_valid s = false -> not_saved (save_msource s)) /\
  (forall m, metadata_is_valid m = false -> not_saved (save_metadata m)) /\
  (forall v1 f, file_is_valid f = false -> not_saved (save_file v1 f)) /\
  (forall v, files_is_valid v = false -> not_saved (save_files v)) /\
  (forall r, reel_is_valid r = false -> not_saved (save_reel r)) /\
  (forall v, reels_is_valid v = false -> not_saved (save_reels v)) /\
  (forall t, toc_is_valid t = false -> not_saved (save_toc t)).
Proof.
  repeat split; intros; unfold save_object, save_section, save_sections, save_layout_def, save_layout_defs, save_fsource, save_fmetadata, save_msource, save_metadata,
    save_file, save_files, save_reel, save_reels, save_toc, save_preview; try (rewrite H; reflexivity); destruct p; try reflexivity; rewrite H; reflexivity.
Qed.
Print Assumptions C25_invalid_not_saved.
(** Except pages: the page functions do not look at validity. *)
Theorem C25_invalid_page_saved_refuted p : page_is_valid p = false -> forall ws nl, exists s, save_object true (save_page p) ws nl = Some s.
Proof. intros _ ws nl. eexists. reflexivity. Qed.
Print Assumptions C25_invalid_page_saved_refuted.
Example C25_invalid_witness : page_is_valid (mkPage None 0 0 0 0 0 0 0) = false /\ file_is_valid (mkFile None None None 0 0 0 0 0 0 None 0 0 None None None) = false /\
  toc_is_valid (mkToc None None None None None None None) = false.
Proof. repeat split. Qed.
