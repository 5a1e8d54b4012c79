(** C54: saves interrupted at any point, and what the remaining file loads as. *)
From Verif Require Import CBase CBaseProofs XmlEntity XmlModel SpecXml XmlRound XmlRoots TocModel SpecToc ValidProofs TocXmlModel SpecTocXml TocXmlBase TocXmlProofs TocXmlProofs2 TocXmlProofs3 TocXmlProofs5 TagsModel PropTocXml
  ControlModel SpecControl ControlProofs2 PropControl WsModel SpecWs WsProofs PropWs FileModel SpecFile FileProofs PropFile SpecCut CutProofs CutProofs2 CutProofs3 CutProofs4.

(** Every beginning of a text that loads: it is refused, or read as the document with some of the last
    top level elements missing and possibly an empty one in their place. Never as a part of a top level
    element, whatever the text and the point. *)
Theorem C54_cut_document s D p : is_text s -> load_bytes s = Ret (Some D) -> beginning p s ->
  load_bytes p = Fail \/ exists n, load_bytes p = Ret n /\ torn D n.
Proof. exact (load_cut s D p). Qed.
Print Assumptions C54_cut_document.

Ltac looks := split; [let d := fresh in let H := fresh in intros d H|let d := fresh in let d' := fresh in let H := fresh in intros d d' H]; 
  match goal with H : look _ _ _ = _ |- _ => unfold look in H; cbv beta; unfold load_toc, load_section, load_sections, load_layout_def, load_layout_defs, load_page, load_preview, load_fsource, load_fmetadata, load_msource, load_metadata, load_file, load_reel, load_admin, load_tech; rewrite H; reflexivity end.
Lemma look_section : by_look true (s2z "section") load_section. Proof. looks. Qed.
Lemma look_sections : by_look true (s2z "sections") load_sections. Proof. looks. Qed.
Lemma look_layout : by_look true (s2z "previewLayout") load_layout_def. Proof. looks. Qed.
Lemma look_layouts : by_look true (s2z "layoutDefinitions") load_layout_defs. Proof. looks. Qed.
Lemma look_page : by_look true (s2z "pages") load_page. Proof. looks. Qed.
Lemma look_preview : by_look true (s2z "preview") load_preview. Proof. looks. Qed.
Lemma look_fsource : by_look true (s2z "source") load_fsource. Proof. looks. Qed.
Lemma look_fmetadata : by_look true (s2z "metadata") load_fmetadata. Proof. looks. Qed.
Lemma look_msource split : by_look true (s2z "source") (load_msource split). Proof. looks. Qed.
Lemma look_metadata split : by_look true (s2z "metadata") (load_metadata split). Proof. looks. Qed.
Lemma look_file : by_look true (s2z "file") load_file. Proof. looks. Qed.
Lemma look_reel : by_look true (s2z "reel") load_reel. Proof. looks. Qed.
Lemma look_toc split t0 : by_look true (s2z "Index") (load_toc split t0). Proof. looks. Qed.
Lemma look_admin : by_look false (s2z "AdministrativeMetadata") (fun d => succeeded (load_admin d)). Proof. looks. Qed.
Lemma look_tech : by_look false (s2z "TechnicalMetadata") (fun d => succeeded (load_tech d)). Proof. looks. Qed.

Ltac refused := let y := fresh in let H := fresh in intros y H; vm_compute in H; discriminate H.
Ltac is_empty := let y := fresh in let H := fresh in intros y H; vm_compute in H; injection H as <-; reflexivity.
Ltac crash self n L := apply (crash_guarded _ _ _ _ _ _ self n); [intros ? ? ?; apply rules_blank| |exact L|discriminate|].
(** The entries an element without attributes and content loads as. *)
Definition empty_page : page := mkPage None 0 0 0 0 0 0 0.
Definition empty_preview : preview := mkPreview None (-1).
Definition empty_file : toc_file := mkFile None None (Some []) 0 (-1) (-1) (-1) (-1) (-1) None (-2) 0 None (Some (s2z "undefined")) None.
Definition empty_toc (t0 : toc_data) : toc_data := mkToc None (t_index_type t0) (t_job_id t0) (t_reel_id t0) None None None.
Definition empty_admin : admin := mkAdmin None None None None None None.

(** These kinds of files are whole or refused, at whatever byte the save was interrupted. *)
Theorem C54_whole_or_refused split :
  (forall s, section_is_valid s = true -> section_range s -> crash_leaves (section_to_file s) load_section s nothing) /\
  (forall d, layout_def_is_valid d = true -> layout_carried d -> crash_leaves (layout_to_file d) load_layout_def (layout_back d) nothing) /\
  (forall s, fsource_is_valid s = true -> fsource_carried s -> crash_leaves (fsource_to_file s) load_fsource (fsource_back s) nothing) /\
  (forall s, msource_is_valid s = true -> msource_carried s -> crash_leaves (msource_to_file s) (load_msource split) (msource_back split s) nothing) /\
  (forall r, reel_is_valid r = true -> reel_carried r -> crash_leaves (reel_to_file r) load_reel (reel_back r) nothing) /\
  (forall t, tech_carried t -> te_tocs t <> None -> crash_leaves (tech_to_file t) (fun d => succeeded (load_tech d)) (tech_back t) nothing).
Proof.
  repeat match goal with |- _ /\ _ => split end.
  - intros s V K. crash true (s2z "section") look_section; [|refused]. now apply round_document, TocXmlRound.section_round.
  - intros d V K. crash true (s2z "previewLayout") look_layout; [|refused]. now apply round_document, C20_definition_round_trip.
  - intros s V K. crash true (s2z "source") look_fsource; [|refused]. apply round_document, (C21_file_metadata_round_trip [s]); auto; [unfold short; cbn; lia|now left].
  - intros s V K. crash true (s2z "source") (look_msource split); [|refused]. now apply round_document, TocXmlRound.msource_round.
  - intros r V K. crash true (s2z "reel") look_reel; [|refused]. now apply round_document, C22_reel_round_trip.
  - intros t T N. crash false (s2z "TechnicalMetadata") look_tech; [|refused]. now apply C23_technical_round_trip.
Qed.
Print Assumptions C54_whole_or_refused.
Lemma single_tree {A} saved (load : node -> option A) x : document_round_trips saved load x -> indented_round_trips true saved (guarded no_ws) load x.
Proof. apply indented_guarded_document, no_ws_indenting. Qed.
(** These are whole, refused or empty. A list never comes back with only some of its entries. *)
Theorem C54_whole_refused_or_empty split :
  (forall l, sections_is_valid (Some (Some l)) = true -> sections_carried l -> crash_leaves (sections_to_file (Some l)) load_sections (Some l) (eq None)) /\
  (forall l, layout_defs_is_valid (Some (Some l)) = true -> layouts_carried l -> crash_leaves (layouts_to_file (Some l)) load_layout_defs (back_list layout_back l) (eq None)) /\
  (forall p, page_carried p -> crash_leaves (page_to_file p) load_page (page_back p) (eq empty_page)) /\
  (forall p, preview_is_valid (Some p) = true -> preview_carried p -> crash_leaves (preview_to_file p) load_preview (preview_back p) (eq empty_preview)) /\
  (forall l, Forall (fun s => fsource_is_valid s = true) l -> Forall fsource_carried l -> short l ->
     crash_leaves (fmetadata_to_file (Some l)) load_fmetadata (back_list fsource_back l) (eq None)) /\
  (forall l, metadata_is_valid (Some (Some l)) = true -> Forall msource_carried l -> crash_leaves (metadata_to_file (Some l)) (load_metadata split) (back_list (msource_back split) l) (eq None)) /\
  (forall l, Forall (fun r => reel_is_valid r = true) l -> reels_carried l -> short l -> crash_leaves (reels_to_file (Some l)) load_reels (back_list reel_back l) (eq None)) /\
  (forall t0 t, toc_is_valid t = true -> toc_carried t -> crash_leaves (toc_to_file t) (load_toc split t0) (toc_back split t) (eq (empty_toc t0))) /\
  (forall a, admin_carried a -> crash_leaves (admin_to_file a) (fun d => succeeded (load_admin d)) (admin_back a) (eq empty_admin)) /\
  (forall f, file_is_valid f = true -> file_carried f ->
     compact_crash_leaves (file_to_file false f) load_file (file_back f) (eq empty_file) /\ compact_crash_leaves (file_to_file true f) load_file (file_back_v1 f) (eq empty_file)) /\
  (forall l, Forall (fun f => file_is_valid f = true) l -> files_carried l -> compact_crash_leaves (files_to_file (Some l)) load_files (back_list file_back l) (eq None)).
Proof.
  repeat match goal with |- _ /\ _ => split end.
  - intros l V K. crash true (s2z "sections") look_sections; [|is_empty]. now apply round_document, C20_sections_round_trip.
  - intros l V K. crash true (s2z "layoutDefinitions") look_layouts; [|is_empty]. apply round_document, C20_collection_round_trip; [|exact K].
    apply Forall_forall. cbn in V. rewrite forallb_forall in V. exact V.
  - intros p K. crash true (s2z "pages") look_page; [|is_empty]. now apply round_document, C19_page_round_trip.
  - intros p V K. crash true (s2z "preview") look_preview; [|is_empty]. now apply round_document, C19_preview_round_trip.
  - intros l V K Sh. crash true (s2z "metadata") look_fmetadata; [|is_empty]. now apply round_document, C21_file_metadata_round_trip.
  - intros l V K. crash true (s2z "metadata") (look_metadata split); [|is_empty]. now apply round_document, C21_toc_metadata_round_trip.
  - intros l V K Sh compact nl d name d' d'' St I.
    assert (R : document_round_trips (save_reels (Some (Some l))) load_reels (back_list reel_back l)) by now apply round_document, C22_reels_round_trip.
    assert (Sv : save_reels (Some (Some l)) = ([tree_reels l], true)).
    { apply save_reels_ok; [|exact Sh|apply K]. unfold reels_is_valid. destruct (reels_count _ =? 0); [reflexivity|]. cbn [vec_list]. rewrite forallb_forall. rewrite Forall_forall in V. exact V. }
    assert (Rt : document_round_trips (save_reels (Some (Some l))) tops [Some (s2z "reels")]) by (apply (tops_document _ [tree_reels l] Sv); [discriminate|constructor; [apply wf_reels, K|constructor]]).
    assert (Iw : indenting ws_reels) by (intros ? ? ?; apply rules_blank).
    unfold reels_to_file in St. edestruct (crash_list BuildFirst true (save_reels (Some (Some l))) (guarded ws_reels) load_reels (back_list reel_back l) (s2z "reels")) with (compact := compact) as (r & E1 & E2); try exact St; try exact I.
    + discriminate. + exact load_reels_elems. + exact load_reels_snoc.
    + intro m. unfold load_reels, reel_nodes. now destruct (named _ _). + intros m _. right. apply leaf_reels.
    + destruct compact; apply indented_guarded_document; auto using no_ws_indenting.
    + destruct compact; apply indented_guarded_document; auto using no_ws_indenting.
    + destruct compact; apply guarded_first; auto using no_ws_indenting.
    + exists r. split; [exact E1|]. intros y E. destruct (E2 y E); auto.
  - intros t0 t V K. crash true (s2z "Index") (look_toc split t0); [|is_empty]. now apply round_document, C22_toc_round_trip.
  - intros a A. crash false (s2z "AdministrativeMetadata") look_admin; [|is_empty]. now apply C23_admin_round_trip.
  - intros f V K. assert (G : forall v1 x, round_trips (save_file v1 f) load_file x -> compact_crash_leaves (file_to_file v1 f) load_file x (eq empty_file)).
    { intros v1 x R nl d name d' d'' St I. edestruct (crash_by OpenFirst true (save_file v1 f) ws_file load_file x true (s2z "file") look_file) with (compact := true) as (r & E1 & E2); try exact St; try exact I.
      - discriminate. - apply single_tree, round_document, R. - apply guarded_first, no_ws_indenting.
      - exists r. split; [exact E1|]. intros y E. destruct (E2 y E) as [H|H]; [now left|]. right. vm_compute in H. injection H as <-. reflexivity. }
    split; apply G; [now apply C17_file_round_trip|now apply C40_v1_round_trip].
  - intros l V K nl d name d' d'' St I.
    assert (R : document_round_trips (save_files (Some (Some l))) load_files (back_list file_back l)) by now apply round_document, C18_files_round_trip.
    assert (Sv : save_files (Some (Some l)) = ([tree_files l], true)).
    { apply save_files_ok; [|now apply files_short]. cbn [files_is_valid vec_list]. rewrite forallb_forall. rewrite Forall_forall in V. exact V. }
    assert (Rt : document_round_trips (save_files (Some (Some l))) tops [Some (s2z "files")]) by (apply (tops_document _ [tree_files l] Sv); [discriminate|constructor; [apply wf_files, K|constructor]]).
    unfold files_to_file in St. edestruct (crash_list BuildFirst true (save_files (Some (Some l))) ws_files load_files (back_list file_back l) (s2z "files")) with (compact := true) as (r & E1 & E2); try exact St; try exact I.
    + discriminate. + intro ks. apply load_files_elems. + intro ks. apply load_files_snoc.
    + reflexivity. + exact leaf_files.
    + now apply single_tree. + now apply single_tree.
    + apply guarded_first, no_ws_indenting.
    + exists r. split; [exact E1|]. intros y E. destruct (E2 y E); auto.
Qed.
Print Assumptions C54_whole_refused_or_empty.
Lemma control_indented {A} (load : node -> option A) x a t :
  document_round_trips (save_control (mkControl (Some a) (Some t))) load x -> indented_round_trips true (save_control (mkControl (Some a) (Some t))) ws_control load x.
Proof.
  intro R. apply (indented_document _ _ (unchecked ws_control)).
  - apply unchecked_indenting; [exact control_total|]. intros y p w. unfold ws_control. cbn [nth_error iso].
    destruct p; cbn [oor oif obind]; try discriminate.
    + assert (X : oif (UB <||> UB) (Ok (line 4)) (oif (UB <||> Ok (is "work" (node_name_or y))) (Ok (line 8))
           (oif (Ok (is "class" (node_name_or y)) <||> UB) (Ok (line 12)) (oif (Ok (is "property" (node_name_or y)) <||> UB <||> UB) (Ok (line 16)) (Ok (line 0))))) = Ok w -> blank w) by discriminate.
      destruct (node_name_or y) as [|z l]; [exact X|]. destruct z; try exact X. repeat (destruct p; try exact X). intro E. injection E as <-. constructor.
    + destruct (negb (text_child y)); [|discriminate]. intro E. injection E as <-. constructor.
    + intro E. injection E as <-. constructor.
  - intros y _. apply (below_total _ control_total). discriminate.
  - assert (S0 : text_child (new_xml (fst (save_control (mkControl (Some a) (Some t))))) = false).
    { unfold save_control. cbn [cd_admin cd_tech]. destruct (save_admin (Some a)) as (k1, b1) eqn:E1. unfold save_admin in E1. injection E1 as <- <-.
      cbn [negb]. destruct (save_tech (Some t)). reflexivity. }
    intros p [-> | ->]; unfold unchecked, ws_control; [reflexivity|now rewrite S0].
  - exact R.
Qed.
(** Control data: whole, refused, or with the administrative part whole and the technical part empty. *)
Theorem C54_control a t : admin_carried a -> tech_carried t ->
  crash_leaves (control_to_file (mkControl (Some a) (Some t))) load_control (mkControl (Some (admin_back a)) (Some (tech_back t)))
    (eq (mkControl (Some (admin_back a)) (Some tech_create))).
Proof.
  intros Ca Ct compact nl d name d' d'' St I. pose proof Ct as ((f & Ef & Cf) & _).
  assert (R1 := C23_control_round_trip a t Ca Ct). assert (R2 := parts_document a f t Ca Ef Cf Ct).
  destruct (crash_control a t Ca Ct BuildFirst true compact) with (nl := nl) (d := d) (name := name) (d' := d') (d'' := d'') as (r & E1 & E2); auto.
  - destruct compact; [now apply single_tree|now apply control_indented].
  - destruct compact; [now apply single_tree|now apply control_indented].
  - exists r. split; [exact E1|]. intros y E. destruct (E2 y E); auto.
Qed.
Print Assumptions C54_control.

(** * Not atomic *)
(** At some points the file that remains loads without an error as the empty object: a table of
    contents, for instance, without any of its files. Control data loses its technical part. *)
Ltac opened := split; [apply ascii_by; reflexivity|intro; reflexivity].
Theorem C54_silently_empty_refuted split :
  (forall l, sections_is_valid (Some (Some l)) = true -> sections_carried l -> crash_may_leave (sections_to_file (Some l)) load_sections None) /\
  (forall l, layout_defs_is_valid (Some (Some l)) = true -> layouts_carried l -> crash_may_leave (layouts_to_file (Some l)) load_layout_defs None) /\
  (forall p, crash_may_leave (page_to_file p) load_page empty_page) /\
  (forall p, preview_is_valid (Some p) = true -> preview_carried p -> crash_may_leave (preview_to_file p) load_preview empty_preview) /\
  (forall l, Forall (fun s => fsource_is_valid s = true) l -> short l -> crash_may_leave (fmetadata_to_file (Some l)) load_fmetadata None) /\
  (forall l, metadata_is_valid (Some (Some l)) = true -> crash_may_leave (metadata_to_file (Some l)) (load_metadata split) None) /\
  (forall l, Forall (fun r => reel_is_valid r = true) l -> reels_carried l -> short l -> crash_may_leave (reels_to_file (Some l)) load_reels None) /\
  (forall t0 t, toc_is_valid t = true -> toc_carried t -> crash_may_leave (toc_to_file t) (load_toc split t0) (empty_toc t0)) /\
  (forall a, crash_may_leave (admin_to_file a) (fun d => succeeded (load_admin d)) empty_admin) /\
  (forall v1 f, file_is_valid f = true -> crash_may_leave (file_to_file v1 f) load_file empty_file) /\
  (forall l, Forall (fun f => file_is_valid f = true) l -> files_carried l -> crash_may_leave (files_to_file (Some l)) load_files None).
Proof.
  repeat match goal with |- _ /\ _ => split end.
  - intros l V K. unfold sections_to_file. rewrite V. eapply crash_point; [apply save_sections_ok; exact V|reflexivity|reflexivity|opened|exact look_sections|discriminate|reflexivity].
  - intros l V K. unfold layouts_to_file. rewrite V. eapply crash_point; [apply save_layouts_ok; exact V|reflexivity|reflexivity|opened|exact look_layouts|discriminate|reflexivity].
  - intros p. eapply crash_point; [reflexivity|reflexivity|reflexivity|opened|exact look_page|discriminate|reflexivity].
  - intros p V K. eapply crash_point; [apply save_preview_ok; exact V|reflexivity|reflexivity|opened|exact look_preview|discriminate|reflexivity].
  - intros l V Sh. eapply crash_point; [apply save_fmetadata_ok; [cbn [fmetadata_is_valid vec_list]; rewrite forallb_forall; rewrite Forall_forall in V; exact V|exact Sh]|reflexivity|reflexivity|opened|exact look_fmetadata|discriminate|reflexivity].
  - intros l V. eapply crash_point; [apply save_metadata_ok; exact V|reflexivity|reflexivity|opened|exact (look_metadata split)|discriminate|reflexivity].
  - intros l V K Sh. assert (Sv : save_reels (Some (Some l)) = ([tree_reels l], true)).
    { apply save_reels_ok; [|exact Sh|apply K]. unfold reels_is_valid. destruct (reels_count _ =? 0); [reflexivity|]. cbn [vec_list]. rewrite forallb_forall. rewrite Forall_forall in V. exact V. }
    apply (crash_after_decl _ _ _ _ (s2z "reels") [] (node_kids (tree_reels l)) [] None Sv); reflexivity.
  - intros t0 t V K. unfold toc_to_file. rewrite V. eapply crash_point; [apply save_toc_ok; [exact K|exact V]|reflexivity|reflexivity|opened|exact (look_toc split t0)|discriminate|reflexivity].
  - intros a. eapply crash_point; [reflexivity|reflexivity|reflexivity|opened|exact look_admin|discriminate|reflexivity].
  - intros v1 f V. destruct (save_file v1 f) as (k, ok) eqn:Es. unfold save_file in Es. rewrite V in Es. cbn [negb] in Es. injection Es as <- <-.
    intros nl d name. unfold file_to_file. unfold save_file. rewrite V. cbn [negb].
    revert nl d name. eapply (crash_point _ _ _ _ (s2z "file") _ _ [] empty_file true eq_refl); [reflexivity|reflexivity|opened|exact look_file|discriminate|reflexivity].
  - intros l V K. assert (Sv : save_files (Some (Some l)) = ([tree_files l], true)).
    { apply save_files_ok; [|now apply files_short]. cbn [files_is_valid vec_list]. rewrite forallb_forall. rewrite Forall_forall in V. exact V. }
    apply (crash_after_decl _ _ _ _ (s2z "files") [] (node_kids (tree_files l)) [] None Sv); reflexivity.
Qed.
Print Assumptions C54_silently_empty_refuted.
Theorem C54_control_loses_technical_refuted a t : admin_carried a -> tech_carried t ->
  crash_may_leave (control_to_file (mkControl (Some a) (Some t))) load_control (mkControl (Some (admin_back a)) (Some tech_create)).
Proof. exact (control_point a t). Qed.
Print Assumptions C54_control_loses_technical_refuted.
(** And there is always a point at which neither the old nor the new content can be loaded. *)
Theorem C54_old_content_lost_refuted {A} o g saved cb (load : node -> option A) compact nl d name d' : store o g saved cb compact nl true d name = Ok (d', true) ->
  exists d'', interrupted d' d'' name /\ fetch load true d'' name = Ok None.
Proof. exact (crash_loses o g saved cb load compact nl d name d'). Qed.
Print Assumptions C54_old_content_lost_refuted.

(** * Witness: the table of contents example, cut in the middle, after the name of its root, and whole. *)
Definition cut_disk (d : disk) (name : cstr) (k : nat) : disk := match d name with Some s => write_file d name (firstn k s) | None => d end.
Definition after_cut (k : nat) : outcome (option toc_data) :=
  match toc_to_file ex_toc true true true ex_disk (s2z "toc.xml") with
  | Ok (d', true) => fetch (load_toc split_parts ex_toc) true (cut_disk d' (s2z "toc.xml") k) (s2z "toc.xml")
  | _ => UB
  end.
Example C54_witness : toc_is_valid ex_toc = true /\ toc_carried ex_toc /\
  match after_cut 100 with Ok None => true | _ => false end = true /\
  match after_cut 44 with Ok (Some t) => toc_equal t (empty_toc ex_toc) | _ => false end = true /\
  match after_cut 5000 with Ok (Some t) => toc_equal t ex_toc | _ => false end = true.
Proof. split; [apply C22_witness|]. split; [apply C22_witness|]. split; [|split]; vm_compute; reflexivity. Qed.
