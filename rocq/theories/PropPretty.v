(** C74: the indented form. *)
From Verif Require Import CBase CBaseProofs XmlModel SpecXml TrimProofs XmlProofs XmlRound TocModel SpecToc ValidProofs EqualProofs TocXmlModel TocXmlBase SpecTocXml TocXmlProofs TocXmlProofs2 TocXmlProofs3 TocXmlProofs4 TocXmlProofs5 TocXmlNorm TocXmlRound
  ControlModel SpecControl ControlProofs ControlProofs2 WsModel WsProofs WriterModel SpecWriter WriterProofs WriterProofs2 WriterProofs3 WrittenProofs WrittenProofs2 PropTocXml PropControl SpecPretty PrettyProofs PrettyProofs2 PrettyProofs3.
Import SpecXml.

Ltac checked := first [exact Logic.I | (eexists _, _, _; reflexivity) | (eexists _, _; reflexivity) | (intros x q [-> | ->]; reflexivity) | (vm_compute; reflexivity)].
Ltac laid p E w F N := eapply (laid_guarded p _ _ _ _ _ E); [checked|exact w|(eexists _, _, _; split; [reflexivity|split; [reflexivity|discriminate]])|checked|exact N|apply F; intros; exact Logic.I|vm_compute; reflexivity].
(** The house style: sections, layouts, previews, metadata, reels, administrative and technical
    metadata, content formats. *)
Theorem C74_house :
  (forall s, section_is_valid s = true -> section_range s -> indented_as house true (section_to_string s) (fst (save_section s))) /\
  (forall d, layout_def_is_valid d = true -> layout_carried d -> indented_as house true (layout_to_string d) (fst (save_layout_def d))) /\
  (forall l, layout_defs_is_valid (Some (Some l)) = true -> layouts_carried l -> indented_as house false (layouts_to_string (Some l)) (fst (save_layout_defs (Some (Some l))))) /\
  (forall p, preview_is_valid (Some p) = true -> preview_carried p -> indented_as house true (preview_to_string p) (fst (save_preview (Some p)))) /\
  (forall s, fsource_is_valid s = true -> fsource_carried s -> indented_as (with_payload house) true (fsource_to_string s) (fst (save_fsource s))) /\
  (forall l, Forall (fun s => fsource_is_valid s = true) l -> Forall fsource_carried l -> short l -> indented_as (with_payload house) false (fmetadata_to_string (Some l)) (fst (save_fmetadata (Some (Some l))))) /\
  (forall s, msource_is_valid s = true -> msource_carried s -> indented_as (with_payload house) true (msource_to_string s) (fst (save_msource s))) /\
  (forall l, metadata_is_valid (Some (Some l)) = true -> Forall msource_carried l -> indented_as (with_payload house) false (metadata_to_string (Some l)) (fst (save_metadata (Some (Some l))))) /\
  (forall r, reel_is_valid r = true -> reel_carried r -> indented_as house true (reel_to_string r) (fst (save_reel r))) /\
  (forall l, Forall (fun r => reel_is_valid r = true) l -> reels_carried l -> short l -> indented_as house true (reels_to_string (Some l)) (fst (save_reels (Some (Some l))))) /\
  (forall a, admin_carried a -> indented_as house true (admin_to_string a) (fst (save_admin (Some a)))) /\
  (forall f, format_carried f -> indented_as house true (format_to_string f) (fst (save_format (Some f)))) /\
  (forall t, tech_carried t -> te_tocs t <> None -> indented_as house true (tech_to_string t) (fst (save_tech (Some t)))).
Proof.
  split; [intros s V R; pose proof (save_section_ok s V) as E; laid Whole E (wf_section s R) fits_section named_section|].
  split; [intros s V R; pose proof (save_layout_ok s V) as E; laid Whole E (wf_layout s R) fits_layout named_layout|].
  split; [intros s V R; pose proof (save_layouts_ok (Some s) V) as E; laid FirstChild E (wf_layouts s (proj1 R)) fits_layouts named_layouts|].
  split; [intros s V R; pose proof (save_preview_ok s V) as E; laid Whole E (wf_preview s R) fits_preview named_preview|].
  split; [intros s V R; pose proof (save_fsource_ok s V) as E; laid Whole E (wf_fsource s R) fits_fsource named_fsource|].
  split. { intros s V R Sh. assert (V' : fmetadata_is_valid (Some (Some s)) = true) by (cbn [fmetadata_is_valid vec_list]; rewrite forallb_forall; now rewrite Forall_forall in V).
    pose proof (save_fmetadata_ok (Some s) V' Sh) as E. laid Named E (wf_fmetadata s R) fits_fmetadata named_fmetadata. }
  split; [intros s V R; pose proof (save_msource_ok s V) as E; laid Whole E (wf_msource s R) fits_msource named_msource|].
  split; [intros s V R; pose proof (save_metadata_ok s V) as E; laid Named E (wf_metadata s R) fits_metadata named_metadata|].
  split; [intros s V R; pose proof (save_reel_ok s R V) as E; laid Whole E (wf_reel s R) fits_reel named_reel|].
  split. { intros l V C Sh. assert (V' : reels_is_valid (Some (Some l)) = true) by (unfold reels_is_valid; destruct (reels_count _ =? 0); [reflexivity|]; cbn [vec_list]; rewrite forallb_forall; now rewrite Forall_forall in V).
    pose proof (save_reels_ok (Some l) V' Sh (proj1 C)) as E. laid Whole E (wf_reels l (proj1 C)) fits_reels named_reels. }
  split; [intros a C; assert (E : save_admin (Some a) = ([tree_admin a], true)) by reflexivity; laid Whole E (wf_admin a C) fits_admin named_admin|].
  split.
  - intros f C. assert (E : save_format (Some f) = ([tree_format f], true)) by reflexivity. pose proof (fits_format (fun _ => True) (fun _ _ _ _ => Logic.I) f) as F. pose proof (wf_format f C) as W.
    unfold format_to_string. unfold tree_format in *. destruct (bf_config f) as [c|]; (eapply (laid_guarded Whole _ _ _ _ _ E); [checked|exact W|(eexists _, _, _; split; [reflexivity|split; [reflexivity|discriminate]])|checked|exact named_format|exact F|vm_compute; reflexivity]).
  - intros t ((f & Ef & Cf) & C1 & C2) N. pose proof (save_tech_ok t f Ef C1 C2) as E. unfold tech_to_string.
    replace (match te_tocs t, te_format t with Some _, Some _ => true | _, _ => false end) with true by (rewrite Ef; destruct (te_tocs t); [reflexivity|congruence]).
    laid Whole E (wf_tech t f Cf C1 C2) fits_tech named_tech.
Qed.
Print Assumptions C74_house.
(** A table of contents: the data of every digital file stand on the line of the element before. *)
Theorem C74_toc_exact t : toc_is_valid t = true -> toc_carried t -> indented_as toc_style true (toc_to_string t) (fst (save_toc t)).
Proof. intros V R; pose proof (save_toc_ok t R V) as E; laid Whole E (wf_toc t R V) fits_toc named_toc. Qed.
(** A file entry, in both forms: no declaration, and the resolution of a preview stands on the line of the
    preview. The rule for the checksum looks at its text, which is assumed to be more than blanks. *)
Theorem C74_file_exact v1 f : file_is_valid f = true -> file_carried f -> (forall c, f_checksum f = Some c -> ~ blank c) ->
  indented_as file_style false (file_to_string v1 f) (fst (save_file v1 f)).
Proof.
  intros V C K. pose proof (save_file_ok v1 f ltac:(apply C) V) as E. unfold file_to_string.
  assert (F : shaped filled (sh_file v1) (tree_file v1 f)).
  { apply fits_file; [intros n a ks N Q; exfalso; injection Q as ->; now rewrite str_eqb_refl in N|]. intros c Ec _. specialize (K c Ec).
    assert (Nt : string_trim c <> []).
    { intro Z. destruct (string_trim_spec c) as (p & q & Bp & Bq & Es & _). rewrite Z in Es. cbn [app] in Es. apply K. rewrite Es. apply Forall_app. split; [exact Bp|exact Bq]. }
    destruct c as [|x c]; [exfalso; apply K; constructor|]. unfold has_text. cbn [text_kids node_text]. destruct (string_trim (x :: c)); [congruence|reflexivity]. }
  assert (A : agrees (unchecked ws_file) file_style false 0 [XML_DECL] [] (sh_file v1) = true) by (destruct v1; vm_compute; reflexivity).
  unfold tree_file in *. refine (laid_string filled FirstChild _ _ _ _ ws_file (unchecked ws_file) file_style (sh_file v1) E _ _ _ _ _ _ named_file F _ A).
  - eexists _, _, _. reflexivity.
  - exact (wf_file v1 f C).
  - reflexivity.
  - intros [|q path] t p N; [congruence|]. unfold unchecked. destruct (file_total q path t p) as (w & -> & _). reflexivity.
  - discriminate.
  - intros path x N. apply (below_total _ file_total). exact N.
  - discriminate.
Qed.
Print Assumptions C74_toc_exact.
Print Assumptions C74_file_exact.
(** * Where the house style is not kept *)
(** The wanted form of several elements below the declaration. *)
Definition wanted (sh : sheet) (declared : bool) (ts : list node) : cstr := (if declared then declaration_line else []) ++ flat_map (pretty sh false 0 []) ts ++ [10].
Definition off_style (declared : bool) (to_string : bool -> outcome (option cstr)) (saved : list node) : Prop :=
  exists s, to_string false = Ok (Some s) /\ s <> wanted (with_payload house) declared saved.
Theorem C74_refuted :
  (exists t, toc_is_valid t = true /\ toc_carried t /\ off_style true (toc_to_string t) (fst (save_toc t))) /\
  (exists f, file_is_valid f = true /\ file_carried f /\ off_style false (file_to_string false f) (fst (save_file false f))) /\
  (exists a t, admin_carried a /\ tech_carried t /\ off_style true (control_to_string (mkControl (Some a) (Some t))) (fst (save_control (mkControl (Some a) (Some t))))) /\
  (exists l, sections_is_valid (Some (Some l)) = true /\ sections_carried l /\ off_style true (sections_to_string (Some l)) (fst (save_sections (Some (Some l))))) /\
  (exists p, page_carried p /\ off_style true (page_to_string p) (fst (save_page p))).
Proof.
  assert (F : forall b s x, str_eqb s x = b -> b = false -> s <> x) by (intros b s x E -> ->; rewrite str_eqb_refl in E; discriminate).
  split; [exists ex_toc; split; [apply C22_witness|split; [apply C22_witness|]]|].
  { eexists. split; [vm_compute; reflexivity|]. eapply F; [vm_compute; reflexivity|reflexivity]. }
  split; [exists ex_file; split; [reflexivity|split; [apply C17_witness|]]|].
  { eexists. split; [vm_compute; reflexivity|]. eapply F; [vm_compute; reflexivity|reflexivity]. }
  split; [exists ex_admin, ex_tech; split; [apply C23_witness|split; [apply C23_witness|]]|].
  { eexists. split; [vm_compute; reflexivity|]. eapply F; [vm_compute; reflexivity|reflexivity]. }
  split; [exists [mkSection 1 0 0 10 10 0]; split; [reflexivity|split]|].
  { split; [|constructor; [intros []|constructor]]. constructor; [|constructor]. vm_compute. intuition congruence. }
  { eexists. split; [vm_compute; reflexivity|]. eapply F; [vm_compute; reflexivity|reflexivity]. }
  exists ex_page. split; [exact ex_page_carried|].
  eexists. split; [vm_compute; reflexivity|]. eapply F; [vm_compute; reflexivity|reflexivity].
Qed.
Print Assumptions C74_refuted.
(** * Witnesses *)
Example C74_witness : toc_is_valid ex_toc = true /\ toc_carried ex_toc /\ reel_is_valid ex_reel = true /\ reel_carried ex_reel /\ file_is_valid ex_file = true /\ file_carried ex_file /\
  (forall c, f_checksum ex_file = Some c -> ~ blank c) /\ admin_carried ex_admin /\ tech_carried ex_tech /\ te_tocs ex_tech <> None.
Proof.
  split; [apply C22_witness|]. split; [apply C22_witness|]. split; [vm_compute; reflexivity|]. split; [exact ex_reel_carried|]. split; [reflexivity|]. split; [apply C17_witness|].
  split; [|split; [apply C23_witness|split; [apply C23_witness|discriminate]]].
  intros c E B. cbn [f_checksum ex_file] in E. injection E as <-. inversion B. intuition discriminate.
Qed.
(** The house style in letters. *)
Example C74_letters : laid_out house true (Elem (s2z "AdministrativeMetadata") [] [Elem (s2z "Title") [] [Opaque (s2z "A & B")]; Elem (s2z "Creator") [] []])
  (declaration_line ++ 10 :: s2z "<AdministrativeMetadata>" ++ 10 :: s2z "    <Title>" ++ 10 :: s2z "        A &amp; B" ++ 10 :: s2z "    </Title>" ++
   10 :: s2z "    <Creator />" ++ 10 :: s2z "        " ++ 10 :: s2z "</AdministrativeMetadata>" ++ [10]).
Proof. vm_compute. reflexivity. Qed.
