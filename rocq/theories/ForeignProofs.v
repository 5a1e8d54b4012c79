(** Documents written by other tools are understood. *)
From Verif Require Import CBase CBaseProofs XmlEntity XmlModel SpecXml SpecGrammar SpecForeign EntityProofs Utf8Proofs TrimProofs XmlProofs XmlRound SimProofs GrammarProofs
  TocModel SpecToc ValidProofs EqualProofs TocXmlModel TocXmlBase SpecTocXml TocXmlProofs TocXmlProofs2 TocXmlProofs3 TocXmlProofs4 TocXmlProofs5 TocXmlNorm TocXmlRound
  ControlModel SpecControl ControlProofs ControlProofs2.

Lemma document_load {A} (load : node -> option A) s d : document s d -> load_object load s = Ok (load d).
Proof.
  intro D. pose proof (reads_document s d D) as E. unfold load_object. rewrite E. destruct s; [vm_compute in E; discriminate|reflexivity].
Qed.
Lemma shown_doc m a t ks : plain (match node_name t with Some n => n | None => [] end) -> Forall2 sim [t] (elems ks) -> sim (Elem m a [t]) (Elem m a ks).
Proof.
  intros P F. assert (E : elems [t] = [t]).
  { inversion F as [|x y ? ? S]; subst. destruct S as [n b b' k k' _ _ _]. cbn [node_name] in P. cbn [elems filter is_elem]. unfold plain in P. rewrite P. cbn [negb]. now destruct b, k. }
  constructor; [apply same_attrs_refl|now rewrite E|]. rewrite E. discriminate.
Qed.
Lemma special_named n m p a ks : is_special n = false -> m = s2z "?" ++ p \/ m = s2z "!" ++ p -> named n (Elem m a ks) = false.
Proof.
  intros B H. cbn [named]. apply str_eqb_neq. intros <-. destruct H as [-> | ->]; discriminate B.
Qed.
Lemma understood_by {A} (load : node -> option A) saved n a ks x (f : node -> option A) :
  saved = ([Elem n a ks], true) -> is_special n = false -> (forall d, load d = match at_or_below n d with None => None | Some t => f t end) ->
  (forall t, sim (Elem n a ks) t -> load t = Some x) -> understood saved load x.
Proof.
  intros -> B L H. split; [reflexivity|]. intros s d D S. rewrite (document_load load s d D). f_equal. cbn [fst] in S.
  remember [Elem n a ks] as tr eqn:Et. destruct S as [t d S|m ks' tr (p & Hm) F].
  - injection Et as ->. auto.
  - subst tr. pose proof (shown_doc m [] (Elem n a ks) ks' (special_plain n B) F) as S. pose proof (sim_find n (P := special_plain n B) _ _ S) as Q.
    rewrite find_elem_in, find_in_cons in Q. cbn [named] in Q. rewrite str_eqb_refl in Q. rewrite L. unfold at_or_below. rewrite (special_named n m p) by assumption.
    destruct (find_elem n (Elem m [] ks')) as [t|]; [|destruct Q]. cbn [sim_opt] in Q. pose proof (H t Q) as E. rewrite L in E.
    now rewrite (sim_self _ _ _ _ Q) in E.
Qed.
Lemma understood_list {A} (load : node -> option A) saved n a ks x :
  saved = ([Elem n a ks], true) -> is_special n = false -> (forall d, sim (Elem n a ks) d -> load d = Some x) -> (forall d, sim (new_xml [Elem n a ks]) d -> load d = Some x) ->
  (forall p l, load (Elem (s2z "?" ++ p) [] l) = load (Elem XML_DECL [] l) /\ load (Elem (s2z "!" ++ p) [] l) = load (Elem XML_DECL [] l)) -> understood saved load x.
Proof.
  intros -> B H1 H2 Bl. split; [reflexivity|]. intros s d D S. rewrite (document_load load s d D). f_equal. cbn [fst] in S.
  remember [Elem n a ks] as tr eqn:Et. destruct S as [t d S|m ks' tr (p & Hm) F].
  - injection Et as ->. auto.
  - subst tr. pose proof (shown_doc XML_DECL [] (Elem n a ks) ks' (special_plain n B) F) as S. apply H2 in S. rewrite <- S.
    destruct (Bl p ks') as (B1 & B2). destruct Hm as [-> | ->]; assumption.
Qed.
Lemma understood_by_roots {A} (load : node -> option A) saved ks x : saved = (ks, true) -> ks <> [] -> Forall wf ks ->
  (forall d, sim (new_xml ks) d -> load d = Some x) -> (forall p l, load (Elem (s2z "?" ++ p) [] l) = load (Elem XML_DECL [] l)) -> understood_declared saved load x.
Proof.
  intros -> N W H Bl. split; [reflexivity|]. intros s p l D F. rewrite (document_load load s _ D). f_equal. cbn [fst] in F. rewrite Bl. apply H.
  assert (E : elems ks = ks). { clear -W. induction W as [|k ks W F IH]; [reflexivity|]. cbn. rewrite (wf_is_elem _ W). now f_equal. }
  constructor; [apply same_attrs_refl|now rewrite E|]. rewrite E. congruence.
Qed.
Ltac body1 := let d := fresh in intro d; unfold load_section, load_sections, load_layout_def, load_layout_defs, load_page, load_preview, load_fsource,
  load_fmetadata, load_msource, load_metadata, load_file, load_reel, load_toc; match goal with |- context [at_or_below ?n d] => idtac end; reflexivity.
Lemma section_understood s : section_range s -> section_is_valid s = true -> understood (save_section s) load_section s.
Proof.
  intros R V. eapply understood_by; [now apply save_section_ok|reflexivity|body1|].
  intros t S. now apply load_section_sim.
Qed.
Lemma sections_understood l : sections_is_valid (Some (Some l)) = true -> sections_carried l -> understood (save_sections (Some (Some l))) load_sections (Some l).
Proof.
  intros V C. eapply understood_by; [now apply save_sections_ok|reflexivity|body1|].
  intros t S. now apply load_sections_self.
Qed.
Lemma layout_understood d : layout_def_is_valid d = true -> layout_carried d -> understood (save_layout_def d) load_layout_def (layout_back d).
Proof.
  intros V C. eapply understood_by; [now apply save_layout_ok|reflexivity|body1|].
  intros t S. now apply load_layout_self.
Qed.
Lemma layouts_understood l : Forall (fun d => layout_def_is_valid d = true) l -> layouts_carried l ->
  understood (save_layout_defs (Some (Some l))) load_layout_defs (back_list layout_back l).
Proof.
  intros V C. eapply understood_by; [apply save_layouts_ok|reflexivity|body1|].
  - cbn [layout_defs_is_valid vec_list]. rewrite forallb_forall. rewrite Forall_forall in V. exact V.
  - intros t S. now apply load_layouts_self.
Qed.
Lemma page_understood p : page_carried p -> understood (save_page p) load_page (page_back p).
Proof.
  intros C. eapply understood_by; [apply save_page_ok|reflexivity|body1|].
  intros t S. now apply load_page_self.
Qed.
Lemma preview_understood p : preview_is_valid (Some p) = true -> preview_carried p -> understood (save_preview (Some p)) load_preview (preview_back p).
Proof.
  intros V C. eapply understood_by; [now apply save_preview_ok|reflexivity|body1|].
  intros t S. now apply load_preview_self.
Qed.
Lemma fsource_understood s : fsource_is_valid s = true -> fsource_carried s -> understood (save_fsource s) load_fsource (fsource_back s).
Proof.
  intros V C. eapply understood_by; [now apply save_fsource_ok|reflexivity|body1|].
  intros t S. now apply load_fsource_self.
Qed.
Lemma fmetadata_understood l : Forall (fun s => fsource_is_valid s = true) l -> Forall fsource_carried l -> short l ->
  understood (save_fmetadata (Some (Some l))) load_fmetadata (back_list fsource_back l).
Proof.
  intros V C Sh. eapply understood_by; [apply save_fmetadata_ok|reflexivity|body1|].
  - cbn [fmetadata_is_valid vec_list]. rewrite forallb_forall. rewrite Forall_forall in V. exact V.
  - exact Sh.
  - intros t S. now apply load_fmetadata_self.
Qed.
Lemma msource_understood split s : msource_is_valid s = true -> msource_carried s -> understood (save_msource s) (load_msource split) (msource_back split s).
Proof.
  intros V C. eapply understood_by; [now apply save_msource_ok|reflexivity|body1|].
  intros t S. now apply load_msource_self.
Qed.
Lemma metadata_understood split l : metadata_is_valid (Some (Some l)) = true -> Forall msource_carried l ->
  understood (save_metadata (Some (Some l))) (load_metadata split) (back_list (msource_back split) l).
Proof.
  intros V C. eapply understood_by; [apply save_metadata_ok|reflexivity|body1|].
  - exact V.
  - intros t S. apply load_metadata_self; auto. destruct l as [|x l]; [constructor|]. cbn [metadata_is_valid] in V. rewrite forallb_forall in V. now apply Forall_forall.
Qed.
Lemma file_understood v1 f : file_is_valid f = true -> file_carried f -> understood (save_file v1 f) load_file (if v1 then file_back_v1 f else file_back f).
Proof.
  intros V C. eapply understood_by; [apply save_file_ok; [apply C|exact V]|reflexivity|body1|].
  intros t S. now apply load_file_self.
Qed.
Lemma reel_understood r : reel_is_valid r = true -> reel_carried r -> understood (save_reel r) load_reel (reel_back r).
Proof.
  intros V C. eapply understood_by; [now apply save_reel_ok|reflexivity|body1|].
  intros t S. now apply load_reel_self.
Qed.
Lemma toc_understood split t0 t : toc_is_valid t = true -> toc_carried t -> understood (save_toc t) (load_toc split t0) (toc_back split t).
Proof.
  intros V C. eapply understood_by; [now apply save_toc_ok|reflexivity|body1|].
  intros u S. now apply load_toc_self.
Qed.
Lemma files_understood l : Forall (fun f => file_is_valid f = true) l -> files_carried l ->
  understood (save_files (Some (Some l))) load_files (back_list file_back l).
Proof.
  intros V C. eapply (understood_list load_files); [apply save_files_ok; [|now apply files_short]|reflexivity| | |split; reflexivity].
  - cbn [files_is_valid vec_list]. rewrite forallb_forall. rewrite Forall_forall in V. exact V.
  - intros d S. now apply load_files_self.
  - intros d S. now apply load_files_doc.
Qed.
Lemma reels_understood l : Forall (fun r => reel_is_valid r = true) l -> reels_carried l -> short l ->
  understood (save_reels (Some (Some l))) load_reels (back_list reel_back l).
Proof.
  intros V C Sh. eapply (understood_list load_reels); [apply save_reels_ok; [|exact Sh|apply C]|reflexivity| | |split; reflexivity].
  - unfold reels_is_valid. destruct (reels_count _ =? 0); [reflexivity|]. cbn [vec_list]. rewrite forallb_forall. rewrite Forall_forall in V. exact V.
  - intros d S. now apply load_reels_self.
  - intros d S. now apply load_reels_doc.
Qed.
Lemma admin_understood a : admin_carried a -> understood_declared (save_admin (Some a)) (fun d => succeeded (load_admin d)) (admin_back a).
Proof.
  intro C. apply (understood_by_roots _ _ [tree_admin a]); [reflexivity|discriminate|(constructor; [now apply wf_admin|constructor])| |reflexivity].
  intros d S. destruct (doc_find _ _ _ _ S eq_refl) as (x & E & Sx). unfold load_admin. rewrite E. unfold succeeded. cbn [fst snd]. f_equal. now apply load_admin_fields.
Qed.
Lemma format_understood f : format_carried f -> understood_declared (save_format (Some f)) load_format (format_back f).
Proof.
  intro C. apply (understood_by_roots _ _ [tree_format f]); [reflexivity|discriminate|(constructor; [now apply wf_format|constructor])| |reflexivity].
  intros d S. apply load_format_sim; [exact C|]. exists XML_DECL, []. exact S.
Qed.
Lemma tech_understood t : tech_carried t -> understood_declared (save_tech (Some t)) (fun d => succeeded (load_tech d)) (tech_back t).
Proof.
  intros ((f & E & Cf) & C1 & C2). apply (understood_by_roots _ _ [tree_tech f t]); [now apply save_tech_ok|discriminate|(constructor; [now apply wf_tech|constructor])| |reflexivity].
  intros d S. destruct (doc_find _ _ _ _ S eq_refl) as (x & Ex & Sx). rewrite (load_tech_sim t f d x E Cf C1 C2 Ex Sx). reflexivity.
Qed.
Lemma control_understood a t : admin_carried a -> tech_carried t ->
  understood_declared (save_control_string (mkControl (Some a) (Some t))) load_control (mkControl (Some (admin_back a)) (Some (tech_back t))).
Proof.
  intros Ca ((f & E & Cf) & C1 & C2). apply (understood_by_roots _ _ [tree_admin a; tree_tech f t]).
  - unfold save_control_string, save_control. cbn [cd_admin cd_tech save_admin]. rewrite (save_tech_ok t f) by assumption. reflexivity.
  - discriminate.
  - constructor; [now apply wf_admin|]. constructor; [now apply wf_tech|constructor].
  - intros d S. pose proof (sim_find (s2z "AdministrativeMetadata") _ _ S) as F1. pose proof (sim_find (s2z "TechnicalMetadata") _ _ S) as F2.
    unfold new_xml in F1, F2. rewrite find_elem_in, !find_in_cons in F1, F2.
    rewrite (within_find _ (s2z "TechnicalMetadata") _ (within_admin a)) in F2 by reflexivity.
    change (named (s2z "AdministrativeMetadata") (tree_admin a)) with true in F1. change (named (s2z "TechnicalMetadata") (tree_admin a)) with false in F2.
    change (named (s2z "TechnicalMetadata") (tree_tech f t)) with true in F2. cbv iota in F1, F2.
    unfold load_control. destruct (find_elem (s2z "AdministrativeMetadata") d) as [x|] eqn:Ex; [|destruct F1].
    destruct (find_elem (s2z "TechnicalMetadata") d) as [y|] eqn:Ey; [|destruct F2]. cbn [sim_opt] in F1, F2.
    rewrite (load_tech_sim t f d y E Cf C1 C2 Ey F2). unfold load_admin. rewrite Ex. cbn [fst]. now rewrite (load_admin_fields a x F1).
  - reflexivity.
Qed.
