(** Loading any document into an object in use. *)
From Verif Require Import CBase CBaseProofs XmlModel TocModel SpecToc PreviewProofs ValidProofs TocXmlModel SpecTocXml ControlModel LoadModel SpecLoad.

(** * Loops *)
Lemma load_into_list {A S} (load : node -> option A) (add : S -> A -> S * bool) l : forall s,
  match load_list load add s l with Some s' => load_into load add s l = (s', true) | None => snd (load_into load add s l) = false end.
Proof.
  induction l as [|x l IH]; intro s; [reflexivity|]. cbn. destruct (load x) as [a|]; [|reflexivity].
  destruct (add s a) as [s' [|]]; [apply IH|reflexivity].
Qed.
Lemma load_into_appends {A S} (load : node -> option A) (add : S -> A -> S * bool) (items : S -> list A) (acc : list A -> A -> Prop) (I : list A -> Prop) (Q : A -> Prop) l :
  (forall s x, I (items s) -> Q x ->
     (acc (items s) x /\ items (fst (add s x)) = items s ++ [x] /\ snd (add s x) = true /\ I (items s ++ [x])) \/ (~ acc (items s) x /\ add s x = (s, false))) ->
  Forall (fun t => forall x, load t = Some x -> Q x) l ->
  forall s, I (items s) ->
  loads_list acc (items s) (map load l) (items (fst (load_into load add s l))) (snd (load_into load add s l)).
Proof.
  intro H. induction l as [|t l IH]; intros F s Is; [constructor|]. inversion F as [|? ? F1 F2]; subst. cbn [map load_into].
  destruct (load t) as [a|] eqn:E; [|constructor]. destruct (H s a Is (F1 a eq_refl)) as [(Ha & Hi & Hb & HI)|(Ha & ->)].
  - destruct (add s a) as [s' b]. cbn [fst snd] in *. subst b. apply ll_added; [exact Ha|]. rewrite <- Hi in *. now apply IH.
  - cbn [fst snd]. now apply ll_refused.
Qed.
(** Lists that check only the new element. *)
Lemma load_into_valid {A} (load : node -> option A) (add : vec A -> A -> vec A * bool) (valid : A -> bool) l s :
  (forall v x, add v x = if negb (valid x) then (v, false) else (vec_append v x, true)) ->
  loads_list (fun _ x => valid x = true) (vec_list s) (map load l) (vec_list (fst (load_into load add s l))) (snd (load_into load add s l)).
Proof.
  intro H. apply (load_into_appends load add vec_list (fun _ x => valid x = true) (fun _ => True) (fun _ => True)); auto.
  - intros v x _ _. rewrite H. destruct (valid x); cbn [negb]; [left|right; split; [discriminate|reflexivity]]. repeat split.
  - apply Forall_forall. auto.
Qed.
Lemma loads_list_all {A} (acc : list A -> A -> Prop) (I : list A -> Prop) l r l' ok :
  (forall k x, I k -> acc k x -> I (k ++ [x])) -> loads_list acc l r l' ok -> I l -> I l'.
Proof. intro H. induction 1; auto. Qed.
Lemma loads_list_prefix {A} (acc : list A -> A -> Prop) l r l' ok : loads_list acc l r l' ok ->
  exists added rest, l' = l ++ added /\ r = map Some added ++ rest /\ (ok = true <-> rest = []).
Proof.
  induction 1 as [l|l r|l x r N|l x r l' ok Ha H (added & rest & E1 & E2 & E3)].
  - exists [], []. now rewrite app_nil_r.
  - exists [], (None :: r). rewrite app_nil_r. repeat split; discriminate.
  - exists [], (Some x :: r). rewrite app_nil_r. repeat split; discriminate.
  - exists (x :: added), rest. subst. rewrite <- app_assoc. repeat split; try apply E3.
Qed.

(** * New objects *)
Lemma section_as_new s : as_new into_section s load_section.
Proof.
  intro t. unfold load_section, into_section. destruct (at_or_below _ t) as [u|]; [|reflexivity].
  destruct (uint_attr u (s2z "id")); [|reflexivity]. destruct (uint_attr u (s2z "x")); [|reflexivity]. destruct (uint_attr u (s2z "y")); [|reflexivity].
  destruct (uint_attr u (s2z "w")); [|reflexivity]. destruct (uint_attr u (s2z "h")); [|reflexivity]. destruct (uint_attr u (s2z "rotation")); [|reflexivity].
  cbv zeta. destruct (section_is_valid _); reflexivity.
Qed.
Lemma sections_as_new : as_new into_sections None load_sections.
Proof. intro t. unfold load_sections, into_sections. destruct (at_or_below _ t); [apply load_into_list|reflexivity]. Qed.
Lemma layout_as_new d : as_new into_layout_def d load_layout_def.
Proof.
  intro t. unfold load_layout_def, into_layout_def. destruct (at_or_below _ t) as [u|]; [|reflexivity].
  pose proof (sections_as_new u) as H. destruct (load_sections u) as [v|]; [now rewrite H|]. destruct (into_sections None u). exact H.
Qed.
Lemma xy_as_new x y s : match extract_xy s with Some (a, b) => into_xy x y s = (a, b, true) | None => snd (into_xy x y s) = false end.
Proof.
  unfold extract_xy, into_xy. destruct s as [[|c s]|]; [reflexivity| |reflexivity]. destruct (scan_uint (c :: s)) as [[a r]|]; [|reflexivity].
  destruct r as [|d r]; [reflexivity|]. destruct (Z.eq_dec d 120) as [->|N].
  - cbn [snd]. destruct (scan_uint r) as [[b q]|]; reflexivity.
  - destruct d as [|p|p]; try reflexivity. do 7 (destruct p; try reflexivity). congruence.
Qed.
Lemma page_as_new : as_new into_page (mkPage None 0 0 0 0 0 0 0) load_page.
Proof.
  intro t. unfold load_page, into_page. destruct (at_or_below _ t) as [u|]; [|reflexivity]. cbn [pg_start_frame pg_start_section pg_section_count pg_dimension_x pg_dimension_y pg_overlap_x pg_overlap_y].
  pose proof (xy_as_new 0 0 (node_attr u (s2z "dimension"))) as D. pose proof (xy_as_new 0 0 (node_attr u (s2z "overlap"))) as O.
  destruct (extract_xy (node_attr u (s2z "dimension"))) as [[dx dy]|].
  - rewrite D. destruct (extract_xy (node_attr u (s2z "overlap"))) as [[ox oy]|]; [rewrite O; reflexivity|].
    destruct (into_xy 0 0 (node_attr u (s2z "overlap"))) as [[ox oy] ok]. exact O.
  - destruct (into_xy 0 0 (node_attr u (s2z "dimension"))) as [[dx dy] ok]. cbn [snd] in D. subst ok. reflexivity.
Qed.
Lemma preview_as_new : as_new into_preview (mkPreview None (-1)) load_preview.
Proof. intro t. unfold load_preview, into_preview. destruct (at_or_below _ t); [apply load_into_list|reflexivity]. Qed.
Lemma data_as_new t : into_data None t = data_text t.
Proof. reflexivity. Qed.
Lemma fsource_as_new : as_new into_fsource (mkFsource None None (-1) (-1)) load_fsource.
Proof.
  intro t. unfold load_fsource, into_fsource. destruct (at_or_below _ t) as [u|]; [|reflexivity]. destruct (int_attr u (s2z "fileId")); [|reflexivity].
  cbn [fs_data fs_format_id]. unfold get_iattr. destruct (find_elem (s2z "data") u) as [d|]; rewrite ?data_as_new; cbv zeta.
  - destruct (fsource_is_valid _) ; reflexivity.
  - destruct (fsource_is_valid _) ; reflexivity.
Qed.
Lemma fmetadata_as_new : as_new into_fmetadata None load_fmetadata.
Proof. intro t. unfold load_fmetadata, into_fmetadata. destruct (at_or_below _ t); [apply load_into_list|reflexivity]. Qed.
Lemma msource_as_new split f i j : as_new (into_msource split) (mkMsource f i j None None) (load_msource split).
Proof.
  intro t. unfold load_msource, into_msource. destruct (at_or_below _ t) as [u|]; [|reflexivity].
  destruct (int_attr u (s2z "id")); [|reflexivity]. destruct (int_attr u (s2z "fileId")); [|reflexivity].
  cbn [ms_data ms_tags]. cbv zeta.
  replace (match find_elem (s2z "data") u with Some x => into_data None x | None => None end) with
    (match find_elem (s2z "data") u with Some x => data_text x | None => None end) by (destruct (find_elem (s2z "data") u); reflexivity).
  destruct (msource_is_valid _) ; reflexivity.
Qed.
Lemma metadata_as_new split : as_new (into_metadata split) None (load_metadata split).
Proof. intro t. unfold load_metadata, into_metadata. destruct (at_or_below _ t); [apply load_into_list|reflexivity]. Qed.
(** tocfile.c 205-230 *)
Definition new_file : toc_file :=
  mkFile None None None 0 FILE_ID_UNDEFINED (-1) (-1) (-1) (-1) None FILE_NO_PARENT 0 None None None.
Lemma file_as_new : as_new into_file new_file load_file.
Proof.
  intro t. unfold load_file, into_file. destruct (at_or_below _ t) as [u|]; [|reflexivity].
  unfold into_file_preview. destruct (find_elem (s2z "preview") u) as [p|]; cbn [opt_load].
  - destruct (load_preview p) as [pv|]; [|reflexivity]. cbn [negb]. unfold into_file_metadata. destruct (find_elem (s2z "metadata") u) as [m|]; cbn [opt_load].
    + destruct (load_fmetadata m); [|reflexivity]. cbn [negb]. unfold into_file_data. destruct (find_below _ _ u) as [d|]; [reflexivity|].
      cbv zeta. destruct (present u (s2z "size") || present u (s2z "start") || present u (s2z "end")); reflexivity.
    + cbn [negb]. unfold into_file_data. destruct (find_below _ _ u) as [d|]; [reflexivity|].
      cbv zeta. destruct (present u (s2z "size") || present u (s2z "start") || present u (s2z "end")); reflexivity.
  - cbn [negb]. unfold into_file_metadata. destruct (find_elem (s2z "metadata") u) as [m|]; cbn [opt_load].
    + destruct (load_fmetadata m); [|reflexivity]. cbn [negb]. unfold into_file_data. destruct (find_below _ _ u) as [d|]; [reflexivity|].
      cbv zeta. destruct (present u (s2z "size") || present u (s2z "start") || present u (s2z "end")); reflexivity.
    + cbn [negb]. unfold into_file_data. destruct (find_below _ _ u) as [d|]; [reflexivity|].
      cbv zeta. destruct (present u (s2z "size") || present u (s2z "start") || present u (s2z "end")); reflexivity.
Qed.
Lemma files_as_new : as_new into_files None load_files.
Proof. intro t. apply load_into_list. Qed.
Lemma reel_as_new i : as_new into_reel (mkReel i None) load_reel.
Proof.
  intro t. unfold load_reel, into_reel. destruct (at_or_below _ t) as [u|]; [|reflexivity]. destruct (find_elem (s2z "id") u) as [x|]; [|reflexivity].
  destruct (find_elem (s2z "files") u) as [fs|]; cbn [opt_load]; [|reflexivity]. pose proof (files_as_new fs) as H.
  destruct (load_files fs); [now rewrite H|]. destruct (into_files None fs). exact H.
Qed.
Lemma reels_as_new : as_new into_reels None load_reels.
Proof. intro t. apply load_into_list. Qed.
(** The load of a table of contents is modelled with the old object in TocXmlModel.v already. *)
Lemma toc_as_new split t0 : as_new (into_toc split) t0 (load_toc split t0).
Proof.
  intro t. unfold load_toc, into_toc. destruct (at_or_below _ t) as [u|]; [|reflexivity].
  destruct (opt_load (load_metadata split) _); [|reflexivity]. destruct (opt_load load_layout_defs _); [|reflexivity]. destruct (opt_load load_reels _); reflexivity.
Qed.
Lemma admin_as_new : as_new into_admin admin_create (fun t => if snd (load_admin t) then Some (fst (load_admin t)) else None).
Proof. intro t. unfold load_admin, into_admin. destruct (find_elem _ t); reflexivity. Qed.
Lemma format_as_new f : as_new into_format f load_format.
Proof. intro t. unfold into_format. destruct (load_format t); reflexivity. Qed.
Lemma tech_as_new t : into_tech tech_create t = load_tech t.
Proof.
  unfold load_tech, into_tech. destruct (find_elem _ t) as [x|]; [|reflexivity]. destruct (find_elem (s2z "BoxerFormat") x); [|reflexivity].
  destruct (opt_load load_files _) as [[v|]|]; reflexivity.
Qed.
Lemma control_as_new c : as_new into_control c load_control.
Proof.
  intro t. unfold load_control, into_control. destruct (find_elem (s2z "AdministrativeMetadata") t) eqn:E; [|reflexivity].
  destruct (find_elem (s2z "TechnicalMetadata") t); [|reflexivity]. rewrite tech_as_new. unfold into_admin, load_admin. now rewrite E.
Qed.

(** * Layout definitions: the ids of the stored definitions are compared with strcmp. *)
Definition with_ids (v : layout_defs) : Prop := Forall (fun d => ld_id d <> None) (vec_list v).
Lemma find_by_str_ok {A} (key : A -> option cstr) k l : Forall (fun x => key x <> None) l -> exists r, find_by_str key k l = Ok r.
Proof.
  induction 1 as [|x l H F IH]; [cbn; eauto|]. cbn. destruct (key x) as [q|]; [|congruence]. destruct (str_eqb q k); eauto.
Qed.
Lemma valid_id d : layout_def_is_valid d = true -> ld_id d <> None.
Proof. unfold layout_def_is_valid. destruct (ld_id d); [discriminate|discriminate]. Qed.
Lemma layout_defs_add_ok v d : with_ids v -> exists v' b, layout_defs_add v d = Ok (v', b) /\ with_ids v' /\ (b = false -> v' = v).
Proof.
  intro W. unfold layout_defs_add. destruct (layout_def_is_valid d) eqn:V; cbn [negb]; [|exists v, false; auto].
  unfold layout_defs_has, layout_defs_by_id. pose proof (valid_id d V) as N. destruct (ld_id d) as [[|c k]|] eqn:E; [| |congruence].
  - unfold layout_def_is_valid in V. rewrite E in V. discriminate.
  - destruct (find_by_str_ok ld_id (c :: k) (vec_list v) W) as (r & ->). cbn [obind]. destruct r; [exists v, false; auto|].
    exists (vec_append v d), true. split; [reflexivity|]. split; [|discriminate]. unfold with_ids, vec_append. cbn [vec_list]. apply Forall_app. split; [exact W|].
    constructor; [congruence|constructor].
Qed.
Lemma defs_into_list l : forall v, with_ids v ->
  match load_list load_layout_def defs_add v l with
  | Some v' => defs_into v l = Ok (v', true)
  | None => exists v', defs_into v l = Ok (v', false)
  end.
Proof.
  induction l as [|x l IH]; intros v W; [reflexivity|]. cbn [load_list defs_into]. destruct (load_layout_def x) as [d|]; [|eauto].
  unfold defs_add at 1. destruct (layout_defs_add_ok v d W) as (v' & b & -> & W' & _). cbn [obind fst snd]. destruct b; [now apply IH|eauto].
Qed.
Lemma defs_as_new t : match load_layout_defs t with
                      | Some v => into_layout_defs None t = Ok (v, true)
                      | None => exists v, into_layout_defs None t = Ok (v, false)
                      end.
Proof.
  unfold load_layout_defs, into_layout_defs. destruct (at_or_below _ t); [|eauto]. apply defs_into_list. constructor.
Qed.
Definition defs_accept (l : list layout_def) (d : layout_def) : Prop := layout_ok d /\ ~ In (ld_id d) (map ld_id l).
Lemma defs_appends l : Forall (fun t => forall d, load_layout_def t = Some d -> layout_fits d) l -> forall v, good_defs (vec_list v) ->
  exists v' ok, defs_into v l = Ok (v', ok) /\ loads_list defs_accept (vec_list v) (map load_layout_def l) (vec_list v') ok.
Proof.
  induction 1 as [|t l Ht F IH]; intros v G; [exists v, true; split; [reflexivity|constructor]|]. cbn [defs_into map].
  destruct (load_layout_def t) as [d|]; [|exists v, false; split; [reflexivity|constructor]].
  destruct (layout_defs_add_spec v d (Ht d eq_refl) G) as [(V & N & ->)|(H & ->)]; cbn [obind fst snd].
  - destruct (IH (Some (vec_list v ++ [d]))) as (v' & ok & E & L); [now apply good_defs_snoc|]. exists v', ok. split; [exact E|].
    apply ll_added; [split; assumption|exact L].
  - exists v, false. split; [reflexivity|]. now apply ll_refused.
Qed.

(** * Replaced *)
Lemma section_replaces : replaces into_section.
Proof.
  intros a b t. unfold into_section. destruct (at_or_below _ t) as [u|]; [|discriminate].
  destruct (uint_attr u (s2z "id")); [|discriminate]. destruct (uint_attr u (s2z "x")); [|discriminate]. destruct (uint_attr u (s2z "y")); [|discriminate].
  destruct (uint_attr u (s2z "w")); [|discriminate]. destruct (uint_attr u (s2z "h")); [|discriminate]. destruct (uint_attr u (s2z "rotation")); [|discriminate]. reflexivity.
Qed.
Lemma layout_replaces : replaces into_layout_def.
Proof. intros a b t. unfold into_layout_def. destruct (at_or_below _ t) as [u|]; [reflexivity|discriminate]. Qed.
Lemma admin_replaces : replaces into_admin.
Proof. intros a b t. unfold into_admin. destruct (find_elem _ t) as [u|]; [reflexivity|discriminate]. Qed.
Lemma format_replaces : replaces into_format.
Proof. intros a b t. unfold into_format. destruct (load_format t) as [u|]; [reflexivity|discriminate]. Qed.
Lemma control_replaces : replaces into_control.
Proof. intros a b t. unfold into_control. destruct (find_elem _ t) as [u|]; [|discriminate]. destruct (find_elem _ t) as [w|]; [reflexivity|discriminate]. Qed.
Lemma toc_replaces split a b t : snd (into_toc split a t) = true ->
  (forall u, at_or_below (s2z "Index") t = Some u -> present u (s2z "indexType") = true /\ present u (s2z "jobId") = true /\ present u (s2z "reelId") = true) ->
  into_toc split b t = into_toc split a t.
Proof.
  unfold into_toc. destruct (at_or_below _ t) as [u|]; [|discriminate]. intros H P. destruct (P u eq_refl) as (P1 & P2 & P3). unfold present in P1, P2, P3. unfold keep_text in *.
  destruct (find_elem (s2z "indexType") u); [|discriminate]. destruct (find_elem (s2z "jobId") u); [|discriminate]. destruct (find_elem (s2z "reelId") u); [|discriminate].
  destruct (opt_load (load_metadata split) _); [|discriminate]. destruct (opt_load load_layout_defs _); [|discriminate]. destruct (opt_load load_reels _); [reflexivity|discriminate].
Qed.
