(** C48: indented (non-compact) saving. *)
From Verif Require Import CBase CBaseProofs XmlEntity XmlModel SpecXml XmlRound XmlRoots TocModel SpecToc TocXmlModel SpecTocXml PropTocXml
  ControlModel SpecControl ControlProofs2 PropControl WsModel SpecWs WsProofs.

Ltac lifted := apply indented_guarded; [intros ? ? ?; apply rules_blank|].
Ltac lifted_document := apply indented_guarded_document; [intros ? ? ?; apply rules_blank|].
(** Table-of-contents objects: with each library callback that looks at ancestors, every object that
    round trips compactly is saved without a crash and loads back as the same object, with or
    without the XML declaration. *)
Theorem C48_indented_toc : forall decl split,
  (forall l, sections_is_valid (Some (Some l)) = true -> sections_carried l ->
     indented_round_trips decl (save_sections (Some (Some l))) (guarded ws_sections) load_sections (Some l)) /\
  (forall s, section_is_valid s = true -> section_range s ->
     indented_round_trips decl (save_section s) (guarded ws_section) load_section s) /\
  (forall d, layout_def_is_valid d = true -> layout_carried d ->
     indented_round_trips decl (save_layout_def d) (guarded ws_layout) load_layout_def (layout_back d)) /\
  (forall l, Forall (fun d => layout_def_is_valid d = true) l -> layouts_carried l ->
     indented_round_trips decl (save_layout_defs (Some (Some l))) (guarded ws_layouts) load_layout_defs (back_list layout_back l)) /\
  (forall p, page_carried p -> indented_round_trips decl (save_page p) (guarded ws_page) load_page (page_back p)) /\
  (forall p, preview_is_valid (Some p) = true -> preview_carried p ->
     indented_round_trips decl (save_preview (Some p)) (guarded ws_preview) load_preview (preview_back p)) /\
  (forall s, fsource_is_valid s = true -> fsource_carried s ->
     indented_round_trips decl (save_fsource s) (guarded ws_fsource) load_fsource (fsource_back s)) /\
  (forall l, Forall (fun s => fsource_is_valid s = true) l -> Forall fsource_carried l -> short l ->
     indented_round_trips decl (save_fmetadata (Some (Some l))) (guarded ws_fmetadata) load_fmetadata (back_list fsource_back l)) /\
  (forall s, msource_is_valid s = true -> msource_carried s ->
     indented_round_trips decl (save_msource s) (guarded ws_msource) (load_msource split) (msource_back split s)) /\
  (forall l, metadata_is_valid (Some (Some l)) = true -> Forall msource_carried l ->
     indented_round_trips decl (save_metadata (Some (Some l))) (guarded ws_metadata) (load_metadata split) (back_list (msource_back split) l)) /\
  (forall r, reel_is_valid r = true -> reel_carried r ->
     indented_round_trips decl (save_reel r) (guarded ws_reel) load_reel (reel_back r)) /\
  (forall l, Forall (fun r => reel_is_valid r = true) l -> reels_carried l -> short l ->
     indented_round_trips decl (save_reels (Some (Some l))) (guarded ws_reels) load_reels (back_list reel_back l)) /\
  (forall t0 t, toc_is_valid t = true -> toc_carried t ->
     indented_round_trips decl (save_toc t) (guarded ws_toc_data) (load_toc split t0) (toc_back split t)).
Proof.
  intros decl split. repeat match goal with |- _ /\ _ => split end.
  - intros l V K. lifted. now apply C20_sections_round_trip.
  - intros s V K. lifted. now apply TocXmlRound.section_round.
  - intros d V K. lifted. now apply C20_definition_round_trip.
  - intros l V K. lifted. now apply C20_collection_round_trip.
  - intros p K. lifted. now apply C19_page_round_trip.
  - intros p V K. lifted. now apply C19_preview_round_trip.
  - intros s V K. lifted. apply (C21_file_metadata_round_trip [s]); auto; [unfold short; cbn; lia|now left].
  - intros l V K Sh. lifted. now apply C21_file_metadata_round_trip.
  - intros s V K. lifted. now apply TocXmlRound.msource_round.
  - intros l V K. lifted. now apply C21_toc_metadata_round_trip.
  - intros r V K. lifted. now apply C22_reel_round_trip.
  - intros l V K Sh. lifted. now apply C22_reels_round_trip.
  - intros t0 t V K. lifted. now apply C22_toc_round_trip.
Qed.
Print Assumptions C48_indented_toc.
(** Control data, and each of its parts. *)
Theorem C48_indented_control : 
  (forall a t, admin_carried a -> tech_carried t ->
     indented_round_trips true (save_control_string (mkControl (Some a) (Some t))) ws_control load_control (mkControl (Some (admin_back a)) (Some (tech_back t)))) /\
  (forall a, admin_carried a ->
     indented_round_trips true (save_admin (Some a)) (guarded ws_administrative) (fun d => succeeded (load_admin d)) (admin_back a)) /\
  (forall t, tech_carried t -> te_tocs t <> None ->
     indented_round_trips true (save_tech_string (Some t)) (guarded ws_technical) (fun d => succeeded (load_tech d)) (tech_back t)) /\
  (forall f, format_carried f -> indented_round_trips true (save_format (Some f)) (guarded ws_format) load_format (format_back f)).
Proof.
  split; [|split; [|split]].
  - intros a t A T. apply (indented_document _ _ (unchecked ws_control)).
    + apply unchecked_indenting; [exact control_total|]. intros x p w. unfold ws_control. cbn [nth_error iso].
      destruct p; cbn [oor oif obind]; try discriminate.
      * assert (X : oif (UB <||> UB) (Ok (line 4)) (oif (UB <||> Ok (is "work" (node_name_or x))) (Ok (line 8))
           (oif (Ok (is "class" (node_name_or x)) <||> UB) (Ok (line 12)) (oif (Ok (is "property" (node_name_or x)) <||> UB <||> UB) (Ok (line 16)) (Ok (line 0))))) = Ok w -> blank w) by discriminate.
        destruct (node_name_or x) as [|z l]; [exact X|]. destruct z; try exact X. repeat (destruct p; try exact X). intro E. injection E as <-. constructor.
      * destruct (negb (text_child x)); [|discriminate]. intro E. injection E as <-. constructor.
      * intro E. injection E as <-. constructor.
    + intros x _. apply (below_total _ control_total). discriminate.
    + assert (S : text_child (new_xml (fst (save_control_string (mkControl (Some a) (Some t))))) = false).
      { unfold save_control_string, save_control. cbn [cd_admin cd_tech]. destruct (save_admin (Some a)) as (k1, b1) eqn:E1. unfold save_admin in E1. injection E1 as <- <-.
        cbn [negb]. destruct (save_tech (Some t)). reflexivity. }
      intros p [-> | ->]; unfold unchecked, ws_control.
      * reflexivity.
      * now rewrite S.
    + now apply C23_control_round_trip.
  - intros a A. lifted_document. now apply C23_admin_round_trip.
  - intros t T N. lifted_document. replace (save_tech_string (Some t)) with (save_tech (Some t)); [now apply C23_technical_round_trip|].
    destruct T as ((f & E & _) & _). destruct t as [fo tc ap]. cbn in E, N. subst fo. destruct tc; [reflexivity|congruence].
  - intros f F. lifted_document. now apply C23_format_round_trip.
Qed.
Print Assumptions C48_indented_control.
(** One file saved to a string (both versions of the data fields). *)
Theorem C48_indented_file_string f : file_is_valid f = true -> file_carried f ->
  indented_round_trips false (save_file false f) ws_file load_file (file_back f) /\
  indented_round_trips false (save_file true f) ws_file load_file (file_back_v1 f).
Proof.
  intros V K.
  assert (I : indenting (unchecked ws_file)).
  { apply unchecked_indenting; [exact file_total|]. intros x p w. unfold ws_file. cbn [nth_error iso]. cbn [checked_rules obind oand].
    destruct (is "file" (node_name_or x)); cbn [obind]; [|discriminate]. destruct (existsb (place_eqb p) around); cbn [obind]; [|discriminate].
    intro E. injection E as <-. apply line_blank. }
  split; apply (indented_element _ _ (unchecked ws_file)); auto; try (intros t _; apply (below_total _ file_total); discriminate).
  - now apply C17_file_round_trip.
  - now apply C40_v1_round_trip.
Qed.
Print Assumptions C48_indented_file_string.
(** A file saved to a file on disk, and a list of files saved either way, compare the missing parent
    name of the document with a literal: every object that can be saved compactly crashes. *)
Theorem C48_file_to_disk_refuted f v1 nl s : save_object true (save_file v1 f) no_ws nl = Some s -> save_indented true (save_file v1 f) ws_file nl = UB.
Proof. unfold save_object, save_indented. destruct (snd (save_file v1 f)); [reflexivity|discriminate]. Qed.
Print Assumptions C48_file_to_disk_refuted.
Theorem C48_files_refuted v nl s : save_object true (save_files v) no_ws nl = Some s -> save_indented true (save_files v) ws_files nl = UB.
Proof. unfold save_object, save_indented. destruct (snd (save_files v)); [reflexivity|discriminate]. Qed.
Print Assumptions C48_files_refuted.

(** * Witnesses *)
Example C48_witness_toc : toc_is_valid ex_toc = true /\ toc_carried ex_toc.
Proof. split; apply C22_witness. Qed.
Example C48_witness_text : exists s, save_indented true (save_sections (Some (Some [mkSection 1 0 0 10 10 0]))) (guarded ws_sections) false = Ok (Some s) /\ In 10 s.
Proof. eexists. split; [vm_compute; reflexivity|]. vm_compute. tauto. Qed.
Example C48_witness_crash : file_is_valid ex_file = true /\ (exists s, save_object true (save_file false ex_file) no_ws true = Some s) /\
  exists s, save_object true (save_files (Some (Some [ex_file; ex_file]))) no_ws true = Some s.
Proof. split; [reflexivity|]. split; eexists; vm_compute; reflexivity. Qed.
