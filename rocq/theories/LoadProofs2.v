(** Documents saved by the library, loaded into an object in use. *)
From Verif Require Import CBase CBaseProofs XmlEntity XmlModel SpecXml TrimProofs XmlRound SimProofs TocModel SpecToc ValidProofs
  TocXmlModel TocXmlBase SpecTocXml TocXmlProofs TocXmlProofs2 TocXmlProofs3 TocXmlProofs4 TocXmlProofs5 TocXmlNorm TocXmlRound
  ControlModel SpecControl ControlProofs ControlProofs2 LoadModel SpecLoad LoadProofs.

Lemma over_some {A} (into : A -> node -> A * bool) a t r : into a t = (r, true) -> over into a t = Some r.
Proof. intro E. unfold over. now rewrite E. Qed.
Lemma over_at {A} (into : A -> node -> A * bool) a n (body : node -> A * bool) :
  (forall d, into a d = match at_or_below n d with None => (a, false) | Some t => body t end) ->
  forall d t, at_or_below n d = Some t -> at_or_below n t = Some t -> over into a d = over into a t.
Proof. intros H d t E F. unfold over. now rewrite !H, E, F. Qed.
Ltac ibody := let d := fresh in intro d; unfold into_section, into_sections, into_layout_def, into_page, into_preview, into_fsource,
  into_fmetadata, into_msource, into_metadata, into_file, into_reel, into_toc; match goal with |- context [at_or_below ?n d] => idtac end; reflexivity.
Lemma replaces_over {A} (into : A -> node -> A * bool) (load : node -> option A) fresh a t x :
  replaces into -> as_new into fresh load -> load t = Some x -> over into a t = Some x.
Proof. intros R N E. apply over_some. specialize (N t). rewrite E in N. rewrite <- N. apply R. now rewrite N. Qed.

(** * Objects that are replaced *)
Lemma section_over a s : section_range s -> section_is_valid s = true -> round_trips (save_section s) (over into_section a) s.
Proof.
  intros R V ws nl decl I. eapply round_by; [exact I|now apply save_section_ok|reflexivity|now apply wf_section|eapply over_at; ibody|].
  intros t S. apply (replaces_over into_section load_section a); [apply section_replaces|apply section_as_new|now apply load_section_sim].
Qed.
Lemma layout_over a d : layout_def_is_valid d = true -> layout_carried d -> round_trips (save_layout_def d) (over into_layout_def a) (layout_back d).
Proof.
  intros V C ws nl decl I. eapply round_by; [exact I|now apply save_layout_ok|reflexivity|now apply wf_layout|eapply over_at; ibody|].
  intros t S. apply (replaces_over into_layout_def load_layout_def a); [apply layout_replaces|apply layout_as_new|now apply load_layout_self].
Qed.
Lemma keep_u t n d z : is_u32 z -> node_attr t n = Some (print_nonneg z) -> keep_uattr d n t = z.
Proof. intros R E. unfold keep_uattr. now rewrite (uattr_get t z n). Qed.
Lemma page_over a p : page_carried p -> round_trips (save_page p) (over into_page a) (page_back p).
Proof.
  intros C ws nl decl I. eapply round_by; [exact I|apply save_page_ok|reflexivity|now apply wf_page|eapply over_at; ibody|].
  intros t S. apply over_some. destruct C as (C & R1 & R2 & R3 & R4 & R5 & R6 & R7). unfold into_page. rewrite (sim_self _ _ _ _ S).
  unfold tree_page in S. rewrite <- (app_nil_r (xy_attr "overlap" _ _)) in S.
  assert (E1 : node_attr t (s2z "dimension") = xy_value (pg_dimension_x p) (pg_dimension_y p)).
  { attr S. cbn [get_attr]. apply some_or_none. }
  assert (E2 : node_attr t (s2z "overlap") = xy_value (pg_overlap_x p) (pg_overlap_y p)).
  { attr S. cbn [get_attr]. apply some_or_none. }
  assert (E3 : node_attr t (s2z "layoutId") = pg_layout_id p). { attr S. cbn [get_attr]. apply some_or_none. }
  rewrite (keep_u t (s2z "frame") _ (pg_start_frame p)), (keep_u t (s2z "section") _ (pg_start_section p)), (keep_u t (s2z "count") _ (pg_section_count p));
    auto; try (attr S; reflexivity).
  rewrite E1, E2, E3. cbv zeta.
  pose proof (xy_as_new (pg_dimension_x a) (pg_dimension_y a) (xy_value (pg_dimension_x p) (pg_dimension_y p))) as D.
  pose proof (xy_as_new (pg_overlap_x a) (pg_overlap_y a) (xy_value (pg_overlap_x p) (pg_overlap_y p))) as O.
  rewrite extract_value in D, O by assumption. unfold page_back.
  destruct (pair_back (pg_dimension_x p) (pg_dimension_y p)) as [dx dy]. destruct (pair_back (pg_overlap_x p) (pg_overlap_y p)) as [ox oy].
  now rewrite D, O.
Qed.
Lemma toc_over split a x : toc_is_valid x = true -> toc_carried x -> round_trips (save_toc x) (over (into_toc split) a) (toc_back split x).
Proof.
  intros V C ws nl decl I. eapply round_by; [exact I|now apply save_toc_ok|reflexivity|now apply wf_toc|eapply over_at; ibody|].
  intros t S. apply over_some. pose proof (toc_as_new split a t) as H. now rewrite (load_toc_self split a x t V C S) in H.
Qed.
Lemma admin_over a b : admin_carried b -> document_round_trips (save_admin (Some b)) (over into_admin a) (admin_back b).
Proof.
  intro C. apply (document_by _ _ [tree_admin b]); [reflexivity|discriminate|(constructor; [now apply wf_admin|constructor])|].
  intros d S. destruct (doc_find _ _ _ _ S eq_refl) as (x & E & Sx). apply over_some. unfold into_admin. rewrite E. f_equal. now apply load_admin_fields.
Qed.
Lemma format_over a f : format_carried f -> document_round_trips (save_format (Some f)) (over into_format a) (format_back f).
Proof.
  intro C. apply (document_by _ _ [tree_format f]); [reflexivity|discriminate|(constructor; [now apply wf_format|constructor])|].
  intros d S. apply over_some. unfold into_format. rewrite (load_format_sim f d C); [reflexivity|]. exists XML_DECL, []. exact S.
Qed.
Lemma control_over c a t : admin_carried a -> tech_carried t ->
  document_round_trips (save_control_string (mkControl (Some a) (Some t))) (over into_control c) (mkControl (Some (admin_back a)) (Some (tech_back t))).
Proof.
  intros Ca Ct ws nl I. destruct (control_round a t Ca Ct ws nl I) as (s & E1 & E2 & E3). exists s. split; [exact E1|]. split; [|exact E3].
  unfold load_object in *. destruct s as [|z s]; [discriminate|]. destruct (load_string (z :: s)) as [[d|]| | |]; try discriminate. f_equal.
  injection E2 as E2. rewrite <- E2. unfold over. pose proof (control_as_new c d) as N. rewrite E2 in *. now rewrite N.
Qed.

(** * Objects that keep something *)
Lemma into_data_sim a p d t : sim (Elem (s2z "data") a [new_cdata p]) t -> into_data d t = Some p.
Proof. intro S. unfold into_data. pose proof (sim_kids _ _ S) as F. cbn [node_kids elems filter is_elem new_cdata] in F. now rewrite (first_cdata_sim p). Qed.
Lemma get_iattr_d t z n d : is_i32 z -> node_attr t n = Some (print_dec z) -> get_iattr d n t = z.
Proof. intros R E. unfold get_iattr. now rewrite (iattr_get t z n). Qed.
Lemma fsource_over_round a s : fsource_is_valid s = true -> fsource_carried s -> round_trips (save_fsource s) (over into_fsource a) (fsource_over a s).
Proof.
  intros V C ws nl decl I. eapply round_by; [exact I|now apply save_fsource_ok|reflexivity|now apply wf_fsource|eapply over_at; ibody|].
  intros t S. apply over_some. destruct C as (P & C & R1 & R2). unfold into_fsource. rewrite (sim_self _ _ _ _ S). unfold tree_fsource in S.
  rewrite (iattr_get t (fs_file_id s)), (get_iattr_d t (fs_source_id s)); auto; try (attr S; reflexivity).
  pose proof (sim_find (s2z "data") _ _ S) as F. rewrite find_elem_in in F. unfold fsource_over, or_else.
  destruct (fs_data s) as [d|] eqn:E.
  - rewrite find_in_cons in F. cbn [named] in F. change (str_eqb (s2z "data") (s2z "data")) with true in F. cbv iota in F.
    destruct (find_elem (s2z "data") t) as [u|]; [|destruct F]. cbn [sim_opt] in F. rewrite (into_data_sim _ _ _ _ F).
    assert (Q : node_attr u (s2z "formatId") = fs_format_id s).
    { rewrite <- (sim_attrs _ _ _ F). cbn [node_attr]. rewrite <- (app_nil_r (opt_attr _ _)), get_opt_attr. lits. destruct (fs_format_id s); reflexivity. }
    rewrite Q. cbv zeta. f_equal. unfold fsource_is_valid in *. cbn [fs_data fs_file_id]. now rewrite E in V.
  - rewrite find_in_nil in F. destruct (find_elem (s2z "data") t) as [u|]; [destruct F|]. cbv zeta. f_equal.
    unfold fsource_is_valid in *. cbn [fs_data fs_file_id]. rewrite E in V. cbn [null_or_empty negb orb] in V. rewrite V. apply orb_true_r.
Qed.
Lemma msource_valid_data f i j d d2 t t2 : msource_is_valid (mkMsource f i j d t) = true -> (d = None -> j <> -1) -> (d <> None -> d2 = d) -> msource_is_valid (mkMsource f i j d2 t2) = true.
Proof.
  intros V N D. destruct d as [x|]; [rewrite D by discriminate; exact V|]. specialize (N eq_refl). unfold msource_is_valid in *.
  cbn [ms_format ms_file_id ms_data] in *. unfold FILE_ID_UNDEFINED in *. assert (E : j =? -1 = false) by lia. rewrite E in *. cbn [andb] in *. exact V.
Qed.
Lemma msource_over_round split a s : msource_is_valid s = true -> msource_carried s -> round_trips (save_msource s) (over (into_msource split) a) (msource_over split a s).
Proof.
  intros V C ws nl decl I. eapply round_by; [exact I|now apply save_msource_ok|reflexivity|now apply wf_msource|eapply over_at; ibody|].
  intros t S. apply over_some. destruct C as (C & P & R1 & R2 & T). unfold into_msource. rewrite (sim_self _ _ _ _ S). unfold tree_msource in S.
  rewrite (iattr_get t (ms_id s)), (iattr_get t (ms_file_id s)); auto; try (attr S; reflexivity).
  assert (Ef : node_attr t (s2z "formatId") = ms_format s).
  { attr S. cbn [get_attr]. destruct (ms_format s); reflexivity. }
  rewrite Ef.
  assert (Ed : match find_elem (s2z "data") t with Some x => into_data (ms_data a) x | None => ms_data a end = or_else (ms_data s) (ms_data a)).
  { pose proof (sim_find (s2z "data") _ _ S) as F. rewrite find_elem_in, find_in_app in F. destruct (ms_data s) as [d|].
    - rewrite find_in_cons in F. cbn [named] in F. change (str_eqb (s2z "data") (s2z "data")) with true in F. cbv iota in F.
      destruct (find_elem (s2z "data") t) as [u|]; [|destruct F]. now apply (into_data_sim [] d).
    - rewrite find_in_nil, find_in_text in F by reflexivity. change (str_eqb (s2z "tags") (s2z "data")) with false in F. cbv iota in F.
      destruct (find_elem (s2z "data") t); [destruct F|reflexivity]. }
  rewrite Ed. cbv zeta. set (s0 := mkMsource (ms_format s) (ms_id s) (ms_file_id s) (or_else (ms_data s) (ms_data a)) (ms_tags a)).
  assert (Et : match find_elem (s2z "tags") t with Some x => set_tags split s0 (node_text x) | None => s0 end = msource_over split a s).
  { pose proof (sim_find (s2z "tags") _ _ S) as F. rewrite find_elem_in, find_in_app in F.
    assert (Q : find_in (s2z "tags") (match ms_data s with Some d => [Elem (s2z "data") [] [new_cdata d]] | None => [] end) = None)
      by (destruct (ms_data s); reflexivity).
    rewrite Q, find_text_same in F by reflexivity. unfold msource_over, tags_back. destruct (ms_tags s) as [l|]; cbn [option_map] in F.
    - destruct (find_elem (s2z "tags") t) as [u|]; [|destruct F]. cbn [sim_opt] in F.
      rewrite <- (sim_text _ _ F), read_back_text by apply text_node_only. destruct (tags_string l) as [|c j] eqn:Ej; [reflexivity|].
      cbn [read_back]. unfold set_tags. destruct (strip (c :: j)); reflexivity.
    - destruct (find_elem (s2z "tags") t); [destruct F|reflexivity]. }
  rewrite Et. f_equal. unfold msource_over. destruct s as [f i j d tg]. cbn [ms_format ms_id ms_file_id ms_data ms_tags] in *.
  eapply msource_valid_data; [exact V| |].
  - intros ->. intro Hj. unfold msource_is_valid in V. cbn [ms_format ms_file_id ms_data null_or_empty] in V. rewrite Hj in V. cbn in V. now rewrite orb_true_r in V.
  - intro N. unfold or_else. destruct d; congruence.
Qed.
Lemma load_list_from {A} (load : node -> option A) (add : vec A -> A -> vec A * bool) (tree : A -> node) (P : A -> Prop) (can : A -> A) l v :
  (forall x t, P x -> sim (tree x) t -> load t = Some (can x)) ->
  (forall v x, P x -> add v (can x) = (vec_append v (can x), true)) ->
  Forall P l -> forall ts, Forall2 sim (map tree l) ts -> load_into load add v ts = (vec_over v (map can l), true).
Proof.
  intros HL HA HP ts F. pose proof (load_into_list load add ts v) as G.
  rewrite (load_list_ok load add tree P can (fun v x => vec_append v (can x)) l HL (fun _ l => Forall P l)) in G; auto.
  - rewrite G. f_equal. rewrite fold_vec_append. destruct l; reflexivity.
  - intros s x l' H. inversion H; subst. auto.
Qed.
Lemma fmetadata_over v l : Forall (fun s => fsource_is_valid s = true) l -> Forall fsource_carried l -> short l ->
  round_trips (save_fmetadata (Some (Some l))) (over into_fmetadata v) (vec_over v (map fsource_back l)).
Proof.
  intros V C Sh ws nl decl I. eapply round_by; [exact I|apply save_fmetadata_ok|reflexivity|now apply wf_fmetadata|eapply over_at; ibody|].
  - cbn [fmetadata_is_valid vec_list]. rewrite forallb_forall. rewrite Forall_forall in V. exact V.
  - exact Sh.
  - intros t S. apply over_some. unfold into_fmetadata. rewrite (sim_self _ _ _ _ S).
    pose proof (sim_find_all (s2z "source") _ _ S) as F. unfold tree_fmetadata in F. rewrite find_all_in in F. cbn [fmetadata_list] in F.
    rewrite (all_in_same (s2z "source") tree_fsource NSRC) in F; try reflexivity; try (intro; apply within_fsource_kids).
    apply (load_list_from load_fsource fmetadata_add_source tree_fsource (fun s => fsource_is_valid s = true /\ fsource_carried s) fsource_back); auto.
    + intros x u (Vx & Cx) Sx. now apply load_fsource_self.
    + intros w x (Vx & _). unfold fmetadata_add_source. now rewrite fsource_back_valid.
    + apply Forall_forall. intros x J. rewrite Forall_forall in V, C. auto.
Qed.
Lemma metadata_over split v l : metadata_is_valid (Some (Some l)) = true -> Forall msource_carried l ->
  round_trips (save_metadata (Some (Some l))) (over (into_metadata split) v) (vec_over v (map (msource_back split) l)).
Proof.
  intros V C ws nl decl I. eapply round_by; [exact I|apply save_metadata_ok; exact V|reflexivity|now apply wf_metadata|eapply over_at; ibody|].
  assert (Vl : Forall (fun s => msource_is_valid s = true) l).
  { destruct l as [|x l]; [constructor|]. cbn [metadata_is_valid] in V. rewrite forallb_forall in V. now apply Forall_forall. }
  intros t S. apply over_some. unfold into_metadata. rewrite (sim_self _ _ _ _ S).
  pose proof (sim_find_all (s2z "source") _ _ S) as F. unfold tree_metadata in F. rewrite find_all_in in F.
  rewrite (all_in_same (s2z "source") tree_msource [s2z "data"; s2z "tags"]) in F; try reflexivity.
  2:{ intro x. unfold tree_msource. cbn [node_kids]. rewrite forallb_app, within_text_node by reflexivity. rewrite andb_true_r. destruct (ms_data x); reflexivity. }
  apply (load_list_from (load_msource split) metadata_add_source tree_msource (fun s => msource_is_valid s = true /\ msource_carried s) (msource_back split)); auto.
  - intros x u (Vx & Cx) Sx. now apply load_msource_self.
  - intros w x (Vx & _). unfold metadata_add_source. unfold msource_back. rewrite (msource_valid_tags _ _ _ _ _ (ms_tags x)). destruct x as [xf xi xj xd xt]. cbn [ms_format ms_id ms_file_id ms_data ms_tags]. now rewrite Vx.
  - apply Forall_forall. intros x J. rewrite Forall_forall in Vl, C. auto.
Qed.
Lemma into_file_nodes v l ts : Forall (fun f => file_is_valid f = true) l -> files_carried l -> Forall2 sim (map (tree_file false) l) ts ->
  load_into load_file files_add_toc v ts = (vec_over v (map file_back l), true).
Proof.
  intros V (C & So) F.
  apply (load_list_from load_file files_add_toc (tree_file false) (fun f => file_is_valid f = true /\ file_carried f /\ file_solid f) file_back); auto.
  - intros x u (Vx & Cx & _) Sx. now apply (load_file_self false).
  - intros w x (Vx & Cx & Sx). unfold files_add_toc. now rewrite file_back_valid.
  - apply Forall_forall. intros x I. rewrite Forall_forall in V, C, So. auto.
Qed.
Lemma files_over v l : Forall (fun f => file_is_valid f = true) l -> files_carried l ->
  round_trips (save_files (Some (Some l))) (over into_files v) (vec_over v (map file_back l)).
Proof.
  intros V C. apply (round_list _ _ (tree_files l)); [|now apply wf_files| |].
  - apply save_files_ok; [|now apply files_short]. cbn [files_is_valid vec_list]. rewrite forallb_forall. rewrite Forall_forall in V. exact V.
  - intros d S. apply over_some. apply into_file_nodes; auto.
    pose proof (sim_find_all (s2z "file") _ _ S) as F. unfold tree_files in F. rewrite find_all_in, all_files_in in F. exact F.
  - intros d S. apply over_some. apply into_file_nodes; auto.
    pose proof (sim_find_all (s2z "file") _ _ S) as F. unfold new_xml, tree_files in F. rewrite find_all_in, all_in_cons, find_all_in, all_files_in in F. cbn [named] in F.
    change (str_eqb (s2z "files") (s2z "file")) with false in F. cbv iota in F. unfold all_in in F. cbn [flat_map filter app] in F. rewrite app_nil_r in F. exact F.
Qed.
Lemma preview_over_round a p : preview_is_valid (Some p) = true -> preview_carried p -> round_trips (save_preview (Some p)) (over into_preview a) (preview_over a p).
Proof.
  intros V C ws nl decl I. eapply round_by; [exact I|now apply save_preview_ok|reflexivity|now apply wf_preview|eapply over_at; ibody|].
  intros t S. apply over_some. destruct C as (C & R). unfold into_preview. rewrite (sim_self _ _ _ _ S). destruct (preview_pages p V) as (E & NE & VP).
  assert (D : get_int (pv_dpi a) (s2z "dpi") t = if pv_dpi p <? 0 then pv_dpi a else pv_dpi p).
  { unfold get_int, tree_preview in *. destruct (0 <=? pv_dpi p) eqn:Q.
    - rewrite (int_elem_sim (s2z "dpi") _ _ _ (pv_dpi p) t R S).
      + destruct (pv_dpi p <? 0) eqn:Q2; [lia|reflexivity].
      + now rewrite find_in_app, find_int_same.
    - rewrite (int_elem_none (s2z "dpi") _ _ _ t S).
      + destruct (pv_dpi p <? 0) eqn:Q2; [reflexivity|lia].
      + cbn [app]. apply (within_find_in [s2z "pages"]); try reflexivity. rewrite forallb_map. apply forallb_true. reflexivity. }
  rewrite D. pose proof (named_elems_kids (s2z "pages") _ _ S) as F. cbn [node_kids] in F. rewrite filter_app in F.
  assert (Q : filter (named (s2z "pages")) (if 0 <=? pv_dpi p then int_node (s2z "dpi") (pv_dpi p) else []) = []) by (destruct (0 <=? pv_dpi p); reflexivity).
  rewrite Q in F. cbn [app] in F.
  assert (Q2 : filter (named (s2z "pages")) (map tree_page (pages_of p)) = map tree_page (pages_of p)).
  { clear. induction (pages_of p) as [|g l IH]; [reflexivity|]. cbn [map filter]. change (named (s2z "pages") (tree_page g)) with true. cbv iota. now rewrite IH. }
  rewrite Q2 in F.
  match goal with |- load_into load_page preview_add_page ?s0 ?ts = _ => pose proof (load_into_list load_page preview_add_page ts s0) as G end.
  rewrite (load_list_ok load_page preview_add_page tree_page (fun g => page_carried g /\ page_is_valid g = true) page_back
    (fun v g => mkPreview (vec_append (pv_pages v) (page_back g)) (pv_dpi v)) (pages_of p)) with (I := fun _ l => Forall (fun g => page_carried g /\ page_is_valid g = true) l) in G; auto.
  - rewrite G. f_equal. unfold preview_over. destruct (pages_of p) as [|g l]; [congruence|]. clear.
    assert (G : forall l v, fold_left (fun v g => mkPreview (vec_append (pv_pages v) (page_back g)) (pv_dpi v)) l v =
      mkPreview (fold_left (fun v g => vec_append v (page_back g)) l (pv_pages v)) (pv_dpi v)).
    { intro l0. induction l0 as [|x l0 IH]; intros [? ?]; [reflexivity|]. cbn [fold_left]. rewrite IH. reflexivity. }
    rewrite G, fold_vec_append. reflexivity.
  - intros x u (Cx & _) Sx. now apply load_page_self.
  - intros s x l' H. inversion H as [|? ? (Cx & Vx) Hl]; subst. split; [|exact Hl]. unfold preview_add_page. now rewrite page_back_valid.
  - apply Forall_forall. intros x J. rewrite Forall_forall in VP, C. auto.
  - apply Forall_forall. intros x J. rewrite Forall_forall in VP, C. auto.
Qed.
Lemma reel_over_round a r : reel_is_valid r = true -> reel_carried r -> round_trips (save_reel r) (over into_reel a) (reel_over a r).
Proof.
  intros V C ws nl decl I. eapply round_by; [exact I|now apply save_reel_ok|reflexivity|now apply wf_reel|eapply over_at; ibody|].
  intros t S. apply over_some. pose proof (reel_files_valid r C V) as Vf. pose proof (proj1 (reel_valid_iff r (reel_small_of r C)) V) as ((c & l & Ei) & _).
  unfold into_reel. rewrite (sim_self _ _ _ _ S). unfold tree_reel in S.
  pose proof (sim_find (s2z "id") _ _ S) as F. rewrite find_elem_in, find_in_app, find_text_same, Ei in F by reflexivity. cbn [option_map] in F.
  destruct (find_elem (s2z "id") t) as [i|]; [|destruct F]. cbn [sim_opt] in F. rewrite <- (sim_text _ _ F (text_node_only _ _ _)), read_back_text.
  pose proof (sim_find (s2z "files") _ _ S) as G. rewrite find_elem_in, find_in_app, find_in_text in G by reflexivity.
  change (str_eqb (s2z "id") (s2z "files")) with false in G. cbv iota in G. unfold reel_over. rewrite Ei. unfold tail_files in G.
  destruct C as (_ & Cf & _). destruct (r_files r) as [v|] eqn:Er.
  - rewrite find_in_cons in G. change (named (s2z "files") (tree_files (files_of r))) with true in G. cbv iota in G.
    destruct (find_elem (s2z "files") t) as [u|]; [|destruct G]. cbn [sim_opt] in G.
    pose proof (files_as_new u) as N. rewrite (load_files_self (files_of r) u) in N by auto. now rewrite N.
  - rewrite find_in_nil in G. destruct (find_elem (s2z "files") t); [destruct G|]. reflexivity.
Qed.
Lemma tech_over_round a t : tech_carried t -> document_round_trips (save_tech (Some t)) (over into_tech a) (tech_over a t).
Proof.
  intros ((f & E & Cf) & C1 & C2). apply (document_by _ _ [tree_tech f t]); [now apply save_tech_ok|discriminate|(constructor; [now apply wf_tech|constructor])|].
  intros d S. destruct (doc_find _ _ _ _ S eq_refl) as (x & Ex & Sx). apply over_some. change (sim (tree_tech f t) x) in Sx. unfold into_tech. rewrite Ex. destruct (tech_parts f t) as (P1 & P2 & P3).
  pose proof (sim_find (s2z "BoxerFormat") _ _ Sx) as F1. pose proof (sim_find (s2z "Tocs") _ _ Sx) as F2. pose proof (sim_find (s2z "Applications") _ _ Sx) as F3.
  rewrite P1 in F1. rewrite P2 in F2. rewrite P3 in F3.
  destruct (find_elem (s2z "BoxerFormat") x) as [b|]; [|destruct F1]. cbn [sim_opt] in F1.
  rewrite (load_format_sim f b Cf (ex_intro _ _ (ex_intro _ _ F1))).
  assert (O : opt_load load_files (find_elem (s2z "Tocs") x) = Some (named_files_back (te_tocs t))).
  { destruct (te_tocs t) as [v|] eqn:Q; destruct (find_elem (s2z "Tocs") x) as [y|]; try (exfalso; exact F2); [|reflexivity].
    cbn [opt_load]. rewrite (load_named_files (s2z "Tocs") (Some v)); [reflexivity|exact C1|exact F2]. }
  rewrite O. unfold tech_over, tech_back. rewrite E. cbn [option_map te_format te_tocs te_applications]. cbv zeta.
  destruct (te_applications t) as [v|] eqn:Q; destruct (find_elem (s2z "Applications") x) as [y|]; try (exfalso; exact F3).
  - rewrite (load_named_files (s2z "Applications") (Some v)); [reflexivity|exact C2|exact F3].
  - reflexivity.
Qed.

(** * Reels *)
Lemma reels_over_nodes v l ts : Forall (fun r => reel_is_valid r = true) l -> reels_carried l -> Forall2 sim (map tree_reel l) ts ->
  load_into load_reel reels_add_reel v ts = (vec_over v (map reel_back l), true).
Proof.
  intros V (C & So) F.
  apply (load_list_from load_reel reels_add_reel tree_reel (fun r => reel_is_valid r = true /\ reel_carried r /\ solid (r_id r)) reel_back); auto.
  - intros x u (Vx & Cx & _) Sx. now apply load_reel_self.
  - intros w x (Vx & Cx & Sx). unfold reels_add_reel. now rewrite reel_back_valid.
  - apply Forall_forall. intros x I. rewrite Forall_forall in V, C, So. auto.
Qed.
Lemma reel_nodes_self l t : sim (tree_reels l) t -> Forall2 sim (map tree_reel l) (reel_nodes t).
Proof.
  intro S. unfold reel_nodes. rewrite <- (sim_named _ _ _ S). change (named (s2z "reels") (tree_reels l)) with true. cbv iota.
  pose proof (sim_find_all (s2z "reel") _ _ S) as F. unfold tree_reels in F. rewrite find_all_in, all_reels_in in F. exact F.
Qed.
Lemma reel_nodes_doc l d : sim (new_xml [tree_reels l]) d -> Forall2 sim (map tree_reel l) (reel_nodes d).
Proof.
  intro S. unfold reel_nodes. rewrite <- (sim_named _ _ _ S). change (named (s2z "reels") (new_xml [tree_reels l])) with false. cbv iota.
  pose proof (sim_find (s2z "reels") _ _ S) as F. unfold new_xml in F. rewrite find_elem_in, find_in_cons in F. change (named (s2z "reels") (tree_reels l)) with true in F. cbv iota in F.
  destruct (find_elem (s2z "reels") d) as [r|]; [|destruct F]. cbn [sim_opt] in F.
  pose proof (sim_find_all (s2z "reel") _ _ F) as G. unfold tree_reels in G at 1. rewrite find_all_in, all_reels_in in G.
  destruct (find_all (s2z "reel") r) as [|x m] eqn:E.
  - exact G.
  - pose proof (sim_descendants _ _ S) as D. apply (after_first_sim (s2z "reels")) in D. unfold elem_descendants in D.
    rewrite (after_first_elems (s2z "reels")).
    assert (Q : map tree_reel l = filter (named (s2z "reel")) (after_first (s2z "reels") (elems (descendants (new_xml [tree_reels l]))))).
    { rewrite <- (after_first_elems (s2z "reels")). unfold new_xml. cbn [descendants flat_map]. rewrite app_nil_r. cbn [after_first]. change (named (s2z "reels") (tree_reels l)) with true. cbv iota.
      change (filter (named (s2z "reel")) (descendants (tree_reels l))) with (find_all (s2z "reel") (tree_reels l)). unfold tree_reels. now rewrite find_all_in, all_reels_in. }
    rewrite Q. apply forall2_filter; [apply sim_named|exact D].
Qed.
Lemma reels_over v l : Forall (fun r => reel_is_valid r = true) l -> reels_carried l -> short l ->
  round_trips (save_reels (Some (Some l))) (over into_reels v) (vec_over v (map reel_back l)).
Proof.
  intros V C Sh. apply (round_list _ _ (tree_reels l)); [|apply wf_reels, C| |].
  - apply save_reels_ok; [|exact Sh|apply C]. unfold reels_is_valid. destruct (reels_count _ =? 0); [reflexivity|]. cbn [vec_list]. rewrite forallb_forall. rewrite Forall_forall in V. exact V.
  - intros d S. apply over_some. apply reels_over_nodes; auto. now apply reel_nodes_self.
  - intros d S. apply over_some. apply reels_over_nodes; auto. now apply reel_nodes_doc.
Qed.

(** * Files *)
Lemma keep_text_sim n {P : plain n} m a ks s t d : sim (Elem m a ks) t -> find_in n ks = option_map (fun x => Elem n [] (text_kids x)) s ->
  keep_text t n d = match s with Some x => read_back (Some x) | None => d end.
Proof.
  intros S E. unfold keep_text. pose proof (sim_find n _ _ S) as F. rewrite find_elem_in, E in F. destruct s as [s|]; cbn [option_map] in F.
  - destruct (find_elem n t) as [u|]; [|destruct F]. cbn [sim_opt] in F. rewrite <- (sim_text _ _ F (text_node_only _ _ _)). apply read_back_text.
  - destruct (find_elem n t); [destruct F|reflexivity].
Qed.
Lemma keep_name v1 f t d : sim (tree_file v1 f) t -> keep_text t (s2z "name") d = match f_name f with Some x => read_back (Some x) | None => d end.
Proof.
  intro S. apply (keep_text_sim _ _ _ _ _ _ _ S). rewrite !find_in_app, find_text_same by reflexivity. rewrite find_in_int, !find_in_text by reflexivity. lits. parts.
  destruct (f_name f); reflexivity.
Qed.
Lemma keep_date v1 f t d : sim (tree_file v1 f) t -> keep_text t (s2z "date") d = match f_date f with Some x => read_back (Some x) | None => d end.
Proof.
  intro S. apply (keep_text_sim _ _ _ _ _ _ _ S). rewrite !find_in_app, find_text_same by reflexivity. rewrite find_in_int, !find_in_text by reflexivity. lits. parts.
  destruct (f_date f); reflexivity.
Qed.
Lemma keep_uid v1 f t d : sim (tree_file v1 f) t -> keep_text t (s2z "uniqueId") d = match f_unique_id f with Some x => read_back (Some x) | None => d end.
Proof.
  intro S. apply (keep_text_sim _ _ _ _ _ _ _ S). rewrite !find_in_app, find_text_same by reflexivity. rewrite find_in_int, !find_in_text by reflexivity. lits. parts.
  destruct (f_unique_id f); reflexivity.
Qed.
Lemma keep_id v1 f t d : file_carried f -> sim (tree_file v1 f) t -> get_int d (s2z "id") t = f_id f.
Proof.
  intros C S. unfold get_int. destruct C as (_ & _ & _ & _ & _ & R & _). rewrite (int_elem_sim (s2z "id") _ _ _ (f_id f) t R S); [reflexivity|].
  now rewrite find_in_app, find_int_same.
Qed.
Lemma keep_parts f d : load_data_v2 d = data_of f (text_back (f_checksum f)) -> forall g,
  (exists x, find_elem (s2z "size") d = Some x) ->
  (exists x, find_elem (s2z "start") d = Some x /\ node_attr x (s2z "frame") <> None /\ node_attr x (s2z "byte") <> None) ->
  (exists x, find_elem (s2z "end") d = Some x /\ node_attr x (s2z "frame") <> None /\ node_attr x (s2z "byte") <> None) ->
  into_data_part false g d = data_of f (text_back (f_checksum f)).
Proof.
  intros L g (x & Ex) (y & Ey & Y1 & Y2) (z & Ez & Z1 & Z2). rewrite <- L. unfold load_data_v2, load_size, into_data_part, keep_size, keep_part.
  rewrite Ex, Ey, Ez. unfold get_iattr, int_attr.
  destruct (node_attr y (s2z "frame")); [|congruence]. destruct (node_attr y (s2z "byte")); [|congruence].
  destruct (node_attr z (s2z "frame")); [|congruence]. destruct (node_attr z (s2z "byte")); [|congruence]. reflexivity.
Qed.
Lemma part_present f n d : In n [s2z "start"; s2z "end"] -> sim (hd (Opaque []) (save_data_v2 f)) d ->
  exists x, find_elem n d = Some x /\ node_attr x (s2z "frame") <> None /\ node_attr x (s2z "byte") <> None.
Proof.
  intros I S. cbn [save_data_v2 hd] in S. assert (P : plain n) by (destruct I as [<- |[<- |[]]]; reflexivity). pose proof (sim_find n _ _ S) as F. rewrite find_elem_in in F.
  cbn [In] in I. destruct I as [<-|[<-|[]]]; rewrite !find_in_app, find_in_text, find_in_int in F by reflexivity; revert F; lits; rewrite !find_in_cons; cbn [named]; lits; intro F;
    (match type of F with sim_opt _ ?e => destruct e as [u|]; [|destruct F] end); cbn [sim_opt] in F; exists u; (split; [reflexivity|]);
    rewrite <- !(sim_attrs _ _ _ F); cbn [node_attr get_attr dattr]; lits; split; discriminate.
Qed.
Lemma size_present f d : sim (hd (Opaque []) (save_data_v2 f)) d -> exists x, find_elem (s2z "size") d = Some x.
Proof.
  intros S. cbn [save_data_v2 hd] in S. pose proof (sim_find (s2z "size") _ _ S) as F. rewrite find_elem_in, !find_in_app, find_in_text in F by reflexivity.
  revert F. lits. rewrite find_int_same by reflexivity. intro F. destruct (find_elem (s2z "size") d) as [u|]; [eauto|destruct F].
Qed.
Lemma file_over_round a b : file_is_valid b = true -> file_carried b ->
  round_trips (save_file false b) (over into_file a) (file_over_checked file_is_valid a b).
Proof.
  intros V C ws nl decl I. eapply round_by; [exact I|apply save_file_ok; [apply C|exact V]|reflexivity|now apply wf_file|eapply over_at; ibody|].
  intros t S. apply over_some. assert (Sh : short (fsources_of b)) by apply C. apply (file_valid_iff b Sh) in V as Vk.
  change (sim (tree_file false b) t) in S.
  unfold into_file. rewrite (sim_self _ _ _ _ S).
  pose proof (file_preview false b t C S Vk) as P. pose proof (file_meta false b t C S Vk) as M.
  assert (Eh : into_head a t = mkFile (read_back (f_name b)) (read_back (f_date b)) (f_checksum a) (f_size a) (f_id b) (f_start_frame a) (f_start_byte a)
     (f_end_frame a) (f_end_byte a) (match f_unique_id b with Some x => read_back (Some x) | None => f_unique_id a end) (f_parent_id b) (f_types a) (f_preview a)
     (f_file_format (file_back b)) (f_metadata a)).
  { unfold into_head. rewrite (keep_name false b t _ S), (keep_date false b t _ S), (keep_uid false b t _ S), (keep_id false b t _ C S), (file_parent false b t C S), (file_format false b t S).
    destruct Vk as (_ & (c1 & l1 & E1) & (c2 & l2 & E2) & _). rewrite E1, E2. reflexivity. }
  rewrite Eh. clear Eh.
  match goal with |- context [into_file_preview ?h t] => set (h0 := h) end.
  assert (Ep : into_file_preview h0 t = (with_preview (set_types h0 (Z.lor (f_types a) (if previewedb b then 2 else 0)))
     (if previewedb b then f_preview (file_back b) else f_preview a), true)).
  { unfold into_file_preview. destruct (find_elem (s2z "preview") t) as [x|]; cbn [opt_load] in P.
    - destruct (load_preview x) as [p|]; [|discriminate]. destruct (previewedb b) eqn:B; [|discriminate]. unfold file_back. cbv zeta. rewrite B. cbn [f_preview].
      injection P as P. rewrite <- P. reflexivity.
    - destruct (previewedb b) eqn:B.
      + exfalso. destruct Vk as (_ & _ & _ & _ & Vp & _). destruct (Vp B) as (p & Q & _). rewrite Q in P. discriminate.
      + rewrite Z.lor_0_r. reflexivity. }
  rewrite Ep. cbn [negb]. clear Ep P. match goal with |- context [into_file_metadata ?h t] => set (h1 := h) end.
  assert (Em : into_file_metadata h1 t = (with_metadata h1 (match fsources_of b with [] => f_metadata a | _ => f_metadata (file_back b) end), true)).
  { unfold into_file_metadata. destruct (find_elem (s2z "metadata") t) as [x|]; cbn [opt_load] in M.
    - destruct (load_fmetadata x) as [p|]; [|discriminate]. unfold file_back. cbv zeta. cbn [f_metadata]. destruct (fsources_of b) as [|y l]; [discriminate|].
      assert (Q : p = Some (map fsource_back (y :: l))) by congruence. rewrite Q. reflexivity.
    - destruct (fsources_of b) as [|y l]; [reflexivity|discriminate]. }
  rewrite Em. cbn [negb]. clear Em M. f_equal. unfold into_file_data. destruct (digitalb b) eqn:D.
  - pose proof (sim_find_below (s2z "file") (s2z "data") _ _ S) as F. unfold tree_file at 1 in F. rewrite find_below_in in F.
    pose proof (below_head false b) as H. unfold tree_file in H at 1. cbn [node_kids] in H. rewrite H in F. clear H.
    unfold tail_data in F. rewrite D in F. unfold save_data_v2 in F. rewrite below_cons in F. cbn [named] in F.
    change (str_eqb (s2z "data") (s2z "data") && str_eqb (s2z "file") (s2z "file")) with true in F. cbv iota in F.
    destruct (find_below (s2z "file") (s2z "data") t) as [d|]; [|destruct F]. cbn [sim_opt] in F.
    rewrite (keep_parts b d (load_data_v2_self b d C F)); [|exact (size_present b d F)|apply (part_present b _ d); [cbn; tauto|exact F]..].
    unfold file_over_checked. rewrite D. cbn [orb]. unfold file_over. rewrite D. cbv zeta. unfold h1, h0, with_metadata, with_preview, with_data, set_types, data_of.
    cbn [f_name f_date f_checksum f_size f_id f_start_frame f_start_byte f_end_frame f_end_byte f_unique_id f_parent_id f_types f_preview f_file_format f_metadata fd_checksum fd_size fd_sf fd_sb fd_ef fd_eb].
    rewrite <- Z.lor_assoc. replace (Z.lor (if previewedb b then 2 else 0) TYPE_DIGITAL) with (1 + (if previewedb b then 2 else 0)) by (destruct (previewedb b); reflexivity).
    unfold file_back. cbv zeta. rewrite D. cbn [f_name f_date f_checksum f_preview f_file_format f_metadata]. reflexivity.
  - rewrite (not_digital_data false b t S) by auto.
    assert (Z1 : forall n, In n [s2z "size"; s2z "start"; s2z "end"; s2z "checksum"] -> find_elem n t = None) by (intros n J; exact (not_digital_absent false b t S n D J)).
    unfold present. rewrite !(Z1 (s2z "size")), !(Z1 (s2z "start")), !(Z1 (s2z "end")) by (cbn; tauto). cbn [orb]. cbv zeta.
    assert (L : with_data h1 (into_data_part true h1 t) = with_data h1 (mkData (Some []) (f_size a) (f_start_frame a) (f_start_byte a) (f_end_frame a) (f_end_byte a))).
    { unfold into_data_part, keep_size, keep_part, text_safe. rewrite !(Z1 (s2z "size")), !(Z1 (s2z "start")), !(Z1 (s2z "end")), (Z1 (s2z "checksum")) by (cbn; tauto). reflexivity. }
    unfold with_metadata in *. cbn [f_size f_start_frame f_start_byte f_end_frame f_end_byte] in *.
    match goal with |- (if file_is_valid ?x then _ else _) = _ => assert (Q : x = file_over a b) end.
    { unfold file_over, file_back, into_data_part, keep_size, keep_part, text_safe. cbv zeta. rewrite !(Z1 (s2z "size")), !(Z1 (s2z "start")), !(Z1 (s2z "end")), (Z1 (s2z "checksum")) by (cbn; tauto).
      rewrite D. unfold h1, h0, with_data, with_preview, set_types. 
      cbn [f_name f_date f_checksum f_size f_id f_start_frame f_start_byte f_end_frame f_end_byte f_unique_id f_parent_id f_types f_preview f_file_format f_metadata fd_checksum fd_size fd_sf fd_sb fd_ef fd_eb].
      reflexivity. }
    rewrite Q. unfold file_over_checked. rewrite D. cbn [orb]. destruct (file_is_valid (file_over a b)); reflexivity.
Qed.
