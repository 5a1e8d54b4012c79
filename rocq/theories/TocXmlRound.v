(** The round-trip lemmas of all the table-of-contents objects. *)
From Verif Require Import CBase CBaseProofs XmlEntity XmlModel SpecXml EntityProofs Utf8Proofs TrimProofs XmlProofs XmlRound SimProofs
  TocModel SpecToc ValidProofs EqualProofs TocXmlModel TocXmlBase SpecTocXml TocXmlProofs TocXmlProofs2 TocXmlProofs3 TocXmlProofs4 TocXmlProofs5 TocXmlNorm.

Ltac body := let d := fresh in intro d; unfold load_section, load_sections, load_layout_def, load_layout_defs, load_page, load_preview, load_fsource,
  load_fmetadata, load_msource, load_metadata, load_file, load_reel, load_toc; match goal with |- context [at_or_below ?n d] => idtac end; reflexivity.
Lemma section_round s : section_range s -> section_is_valid s = true -> round_trips (save_section s) load_section s.
Proof.
  intros R V ws nl decl I. eapply round_by; [exact I|now apply save_section_ok|reflexivity|now apply wf_section|eapply at_self_load; body|].
  intros t S. now apply load_section_sim.
Qed.
Lemma sections_round l : sections_is_valid (Some (Some l)) = true -> sections_carried l -> round_trips (save_sections (Some (Some l))) load_sections (Some l).
Proof.
  intros V C ws nl decl I. eapply round_by; [exact I|now apply save_sections_ok|reflexivity|apply wf_sections, C|eapply at_self_load; body|].
  intros t S. now apply load_sections_self.
Qed.
Lemma layout_round d : layout_def_is_valid d = true -> layout_carried d -> round_trips (save_layout_def d) load_layout_def (layout_back d).
Proof.
  intros V C ws nl decl I. eapply round_by; [exact I|now apply save_layout_ok|reflexivity|now apply wf_layout|eapply at_self_load; body|].
  intros t S. now apply load_layout_self.
Qed.
Lemma layouts_round l : Forall (fun d => layout_def_is_valid d = true) l -> layouts_carried l ->
  round_trips (save_layout_defs (Some (Some l))) load_layout_defs (back_list layout_back l).
Proof.
  intros V C ws nl decl I. eapply round_by; [exact I|apply save_layouts_ok|reflexivity|apply wf_layouts, C|eapply at_self_load; body|].
  - cbn [layout_defs_is_valid vec_list]. rewrite forallb_forall. rewrite Forall_forall in V. exact V.
  - intros t S. now apply load_layouts_self.
Qed.
Lemma page_round p : page_carried p -> round_trips (save_page p) load_page (page_back p).
Proof.
  intros C ws nl decl I. eapply round_by; [exact I|apply save_page_ok|reflexivity|now apply wf_page|eapply at_self_load; body|].
  intros t S. now apply load_page_self.
Qed.
Lemma preview_round p : preview_is_valid (Some p) = true -> preview_carried p -> round_trips (save_preview (Some p)) load_preview (preview_back p).
Proof.
  intros V C ws nl decl I. eapply round_by; [exact I|now apply save_preview_ok|reflexivity|now apply wf_preview|eapply at_self_load; body|].
  intros t S. now apply load_preview_self.
Qed.
Lemma fsource_round s : fsource_is_valid s = true -> fsource_carried s -> round_trips (save_fsource s) load_fsource (fsource_back s).
Proof.
  intros V C ws nl decl I. eapply round_by; [exact I|now apply save_fsource_ok|reflexivity|now apply wf_fsource|eapply at_self_load; body|].
  intros t S. now apply load_fsource_self.
Qed.
Lemma fmetadata_round l : Forall (fun s => fsource_is_valid s = true) l -> Forall fsource_carried l -> short l ->
  round_trips (save_fmetadata (Some (Some l))) load_fmetadata (back_list fsource_back l).
Proof.
  intros V C Sh ws nl decl I. eapply round_by; [exact I|apply save_fmetadata_ok|reflexivity|now apply wf_fmetadata|eapply at_self_load; body|].
  - cbn [fmetadata_is_valid vec_list]. rewrite forallb_forall. rewrite Forall_forall in V. exact V.
  - exact Sh.
  - intros t S. now apply load_fmetadata_self.
Qed.
Lemma msource_round split s : msource_is_valid s = true -> msource_carried s -> round_trips (save_msource s) (load_msource split) (msource_back split s).
Proof.
  intros V C ws nl decl I. eapply round_by; [exact I|now apply save_msource_ok|reflexivity|now apply wf_msource|eapply at_self_load; body|].
  intros t S. now apply load_msource_self.
Qed.
Lemma metadata_round split l : metadata_is_valid (Some (Some l)) = true -> Forall msource_carried l ->
  round_trips (save_metadata (Some (Some l))) (load_metadata split) (back_list (msource_back split) l).
Proof.
  intros V C ws nl decl I. eapply round_by; [exact I|apply save_metadata_ok|reflexivity|now apply wf_metadata|eapply at_self_load; body|].
  - exact V.
  - intros t S. apply load_metadata_self; auto. destruct l as [|x l]; [constructor|]. cbn [metadata_is_valid] in V. rewrite forallb_forall in V. now apply Forall_forall.
Qed.
Lemma file_round v1 f : file_is_valid f = true -> file_carried f -> round_trips (save_file v1 f) load_file (if v1 then file_back_v1 f else file_back f).
Proof.
  intros V C ws nl decl I. eapply round_by; [exact I|apply save_file_ok; [apply C|exact V]|reflexivity|now apply wf_file|eapply at_self_load; body|].
  intros t S. now apply load_file_self.
Qed.
Lemma reel_round r : reel_is_valid r = true -> reel_carried r -> round_trips (save_reel r) load_reel (reel_back r).
Proof.
  intros V C ws nl decl I. eapply round_by; [exact I|now apply save_reel_ok|reflexivity|now apply wf_reel|eapply at_self_load; body|].
  intros t S. now apply load_reel_self.
Qed.
Lemma toc_round split t0 t : toc_is_valid t = true -> toc_carried t -> round_trips (save_toc t) (load_toc split t0) (toc_back split t).
Proof.
  intros V C ws nl decl I. eapply round_by; [exact I|now apply save_toc_ok|reflexivity|now apply wf_toc|eapply at_self_load; body|].
  intros u S. now apply load_toc_self.
Qed.
(** Lists loaded from the whole document. *)
Lemma round_list {A} (load : node -> option A) saved t x : saved = ([t], true) -> wf t ->
  (forall d, sim t d -> load d = Some x) -> (forall d, sim (new_xml [t]) d -> load d = Some x) -> round_trips saved load x.
Proof.
  intros E W H1 H2 ws nl decl I. subst. unfold save_object. cbn [fst snd]. exists (save_text ws nl (if decl then new_xml [t] else t)).
  split; [destruct decl; reflexivity|]. apply object_round; auto. intros d S. destruct decl; auto.
Qed.
Lemma files_round l : Forall (fun f => file_is_valid f = true) l -> files_carried l ->
  round_trips (save_files (Some (Some l))) load_files (back_list file_back l).
Proof.
  intros V C. apply (round_list _ _ (tree_files l)); [|now apply wf_files| |].
  - apply save_files_ok; [|now apply files_short]. cbn [files_is_valid vec_list]. rewrite forallb_forall. rewrite Forall_forall in V. exact V.
  - intros d S. now apply load_files_self.
  - intros d S. now apply load_files_doc.
Qed.
Lemma reels_round l : Forall (fun r => reel_is_valid r = true) l -> reels_carried l -> short l ->
  round_trips (save_reels (Some (Some l))) load_reels (back_list reel_back l).
Proof.
  intros V C Sh. apply (round_list _ _ (tree_reels l)); [|apply wf_reels, C| |].
  - apply save_reels_ok; [|exact Sh|apply C]. unfold reels_is_valid. destruct (reels_count _ =? 0); [reflexivity|]. cbn [vec_list]. rewrite forallb_forall. rewrite Forall_forall in V. exact V.
  - intros d S. now apply load_reels_self.
  - intros d S. now apply load_reels_doc.
Qed.
