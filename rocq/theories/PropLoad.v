(** C55: loading a document into an object that is already in use. *)
From Verif Require Import CBase CBaseProofs XmlEntity XmlModel SpecXml SimProofs TocModel SpecToc ValidProofs PreviewProofs TocXmlModel SpecTocXml TocXmlProofs WalkProofs TagsModel PropTocXml
  ControlModel SpecControl PropControl LoadModel SpecLoad LoadProofs LoadProofs2.

(** A successful load into a new object gives the object described by the round trip properties. *)
Theorem C55_new_object split :
  (forall s, as_new into_section s load_section) /\ as_new into_sections None load_sections /\ (forall d, as_new into_layout_def d load_layout_def) /\
  (forall t, match load_layout_defs t with Some v => into_layout_defs None t = Ok (v, true) | None => exists v, into_layout_defs None t = Ok (v, false) end) /\
  as_new into_page (mkPage None 0 0 0 0 0 0 0) load_page /\ as_new into_preview (mkPreview None (-1)) load_preview /\
  as_new into_fsource (mkFsource None None (-1) (-1)) load_fsource /\ as_new into_fmetadata None load_fmetadata /\
  as_new (into_msource split) (mkMsource None (-1) (-1) None None) (load_msource split) /\ as_new (into_metadata split) None (load_metadata split) /\
  as_new into_file new_file load_file /\ as_new into_files None load_files /\ as_new into_reel (mkReel None None) load_reel /\ as_new into_reels None load_reels /\
  (forall t0, as_new (into_toc split) t0 (load_toc split t0)) /\
  as_new into_admin admin_create (fun t => if snd (load_admin t) then Some (fst (load_admin t)) else None) /\
  (forall f, as_new into_format f load_format) /\ (forall t, into_tech tech_create t = load_tech t) /\ (forall c, as_new into_control c load_control).
Proof.
  repeat match goal with |- _ /\ _ => split end.
  - apply section_as_new. - apply sections_as_new. - apply layout_as_new. - apply defs_as_new. - apply page_as_new. - apply preview_as_new.
  - apply fsource_as_new. - apply fmetadata_as_new. - apply msource_as_new. - apply metadata_as_new. - apply file_as_new. - apply files_as_new.
  - apply reel_as_new. - apply reels_as_new. - apply toc_as_new. - apply admin_as_new. - apply format_as_new. - apply tech_as_new. - apply control_as_new.
Qed.
Print Assumptions C55_new_object.

(** A document that loads contains what the load needs, and these values come from the document. *)
Lemma at_or_below_of n t u : at_or_below (s2z n) t = Some u -> element_of n t u.
Proof.
  unfold at_or_below, element_of. destruct (named (s2z n) t) eqn:E; [intro H; inversion H; subst; auto|]. unfold find_elem.
  intro H. apply find_some in H. destruct H; auto.
Qed.
Lemma find_elem_has n t u : find_elem (s2z n) t = Some u -> has_element n t.
Proof. unfold find_elem. intro H. apply find_some in H. destruct H. exists u. auto. Qed.
Lemma uint_attr_is u n z : uint_attr u (s2z n) = Some z -> unsigned_attribute u n z.
Proof. unfold uint_attr, unsigned_attribute. destruct (node_attr u (s2z n)) as [s|]; [|discriminate]. intro H. inversion H. eauto. Qed.
Lemma int_attr_is u n z : int_attr u (s2z n) = Some z -> signed_attribute u n z.
Proof. unfold int_attr, signed_attribute. destruct (node_attr u (s2z n)) as [s|]; [|discriminate]. intro H. inversion H. eauto. Qed.
Lemma set_tags_ids split s x : ms_id (set_tags split s x) = ms_id s /\ ms_file_id (set_tags split s x) = ms_file_id s /\ ms_format (set_tags split s x) = ms_format s.
Proof. unfold set_tags. destruct x as [[|c l]|]; cbn; auto. Qed.
Theorem C55_required split t :
  (forall s, load_section t = Some s -> section_ok s /\ exists u, element_of "section" t u /\
     unsigned_attribute u "id" (s_id s) /\ unsigned_attribute u "x" (s_x s) /\ unsigned_attribute u "y" (s_y s) /\
     unsigned_attribute u "w" (s_width s) /\ unsigned_attribute u "h" (s_height s) /\ unsigned_attribute u "rotation" (s_rotation s)) /\
  (forall v, load_sections t = Some v -> exists u, element_of "sections" t u) /\
  (forall d, load_layout_def t = Some d -> exists u, element_of "previewLayout" t u /\ has_element "sections" u) /\
  (forall v, load_layout_defs t = Some v -> exists u, element_of "layoutDefinitions" t u) /\
  (forall g, load_page t = Some g -> exists u, element_of "pages" t u /\ pg_layout_id g = node_attr u (s2z "layoutId")) /\
  (forall p, load_preview t = Some p -> exists u, element_of "preview" t u) /\
  (forall s, load_fsource t = Some s -> fsource_ok s /\ exists u, element_of "source" t u /\ signed_attribute u "fileId" (fs_file_id s)) /\
  (forall m, load_fmetadata t = Some m -> exists u, element_of "metadata" t u) /\
  (forall s, load_msource split t = Some s -> msource_ok s /\ exists u, element_of "source" t u /\ signed_attribute u "id" (ms_id s) /\ signed_attribute u "fileId" (ms_file_id s) /\
     ms_format s = node_attr u (s2z "formatId")) /\
  (forall m, load_metadata split t = Some m -> exists u, element_of "metadata" t u) /\
  (forall f, load_file t = Some f -> exists u, element_of "file" t u) /\
  (forall r, load_reel t = Some r -> exists u, element_of "reel" t u /\ has_element "id" u) /\
  (forall t0 x, load_toc split t0 t = Some x -> exists u, element_of "Index" t u /\ t_version x = node_attr u (s2z "version")) /\
  (snd (load_admin t) = true -> has_element "AdministrativeMetadata" t) /\
  (snd (load_tech t) = true -> exists u, named (s2z "TechnicalMetadata") u = true /\ In u (descendants t) /\ has_element "BoxerFormat" u) /\
  (forall c, load_control t = Some c -> has_element "AdministrativeMetadata" t /\ has_element "TechnicalMetadata" t).
Proof.
  repeat match goal with |- _ /\ _ => split end.
  - intro s. unfold load_section. destruct (at_or_below _ t) as [u|] eqn:E; [|discriminate].
    destruct (uint_attr u (s2z "id")) eqn:E1; [|discriminate]. destruct (uint_attr u (s2z "x")) eqn:E2; [|discriminate]. destruct (uint_attr u (s2z "y")) eqn:E3; [|discriminate].
    destruct (uint_attr u (s2z "w")) eqn:E4; [|discriminate]. destruct (uint_attr u (s2z "h")) eqn:E5; [|discriminate]. destruct (uint_attr u (s2z "rotation")) eqn:E6; [|discriminate].
    cbv zeta. match goal with |- (if ?b then _ else _) = _ -> _ => destruct b eqn:V; [|discriminate] end. intro H. inversion H; subst. apply section_valid_iff in V. split; [exact V|].
    exists u. cbn [s_id s_x s_y s_width s_height s_rotation]. split; [now apply at_or_below_of|]. repeat split; apply uint_attr_is; assumption.
  - intro v. unfold load_sections. destruct (at_or_below _ t) as [u|] eqn:E; [|discriminate]. intros _. exists u. now apply at_or_below_of.
  - intro d. unfold load_layout_def, load_sections. destruct (at_or_below (s2z "previewLayout") t) as [u|] eqn:E; [|discriminate].
    destruct (at_or_below (s2z "sections") u) as [w|] eqn:F; [|discriminate]. intros _. exists u. split; [now apply at_or_below_of|].
    apply at_or_below_of in E. unfold at_or_below in F. destruct (named (s2z "sections") u) eqn:N; [|now apply find_elem_has in F].
    exfalso. destruct E as (E & _). destruct u as [m a k|]; [|discriminate]. cbn [named] in E, N. apply str_eqb_eq in E, N. rewrite E in N. discriminate.
  - intro v. unfold load_layout_defs. destruct (at_or_below _ t) as [u|] eqn:E; [|discriminate]. intros _. exists u. now apply at_or_below_of.
  - intro g. unfold load_page. destruct (at_or_below _ t) as [u|] eqn:E; [|discriminate].
    destruct (extract_xy (node_attr u (s2z "dimension"))) as [[? ?]|]; [|discriminate]. destruct (extract_xy (node_attr u (s2z "overlap"))) as [[? ?]|]; [|discriminate].
    intro H. inversion H. exists u. split; [now apply at_or_below_of|reflexivity].
  - intro p. unfold load_preview. destruct (at_or_below _ t) as [u|] eqn:E; [|discriminate]. intros _. exists u. now apply at_or_below_of.
  - intro s. unfold load_fsource. destruct (at_or_below _ t) as [u|] eqn:E; [|discriminate]. destruct (int_attr u (s2z "fileId")) as [z|] eqn:F; [|discriminate].
    cbv zeta. match goal with |- (if ?b then _ else _) = _ -> _ => destruct b eqn:V; [|discriminate] end. intro H. inversion H; subst. apply fsource_valid_iff in V. split; [exact V|].
    exists u. split; [now apply at_or_below_of|]. apply int_attr_is. rewrite F. now destruct (find_elem (s2z "data") u).
  - intro m. unfold load_fmetadata. destruct (at_or_below _ t) as [u|] eqn:E; [|discriminate]. intros _. exists u. now apply at_or_below_of.
  - intro s. unfold load_msource. destruct (at_or_below _ t) as [u|] eqn:E; [|discriminate]. destruct (int_attr u (s2z "id")) as [z|] eqn:F; [|discriminate].
    destruct (int_attr u (s2z "fileId")) as [y|] eqn:G; [|discriminate]. cbv zeta. match goal with |- (if ?b then _ else _) = _ -> _ => destruct b eqn:V; [|discriminate] end.
    intro H. assert (H1 := H). apply (f_equal (fun o => match o with Some x => x | None => s end)) in H1. clear H. rewrite H1 in V. apply msource_valid_iff in V. split; [exact V|]. exists u. split; [now apply at_or_below_of|].
    destruct (find_elem (s2z "tags") u) as [x|].
    + match type of H1 with set_tags _ ?s0 ?x0 = _ => pose proof (set_tags_ids split s0 x0) as (T1 & T2 & T3) end. rewrite H1 in T1, T2, T3. clear H1. rewrite T1, T2, T3. cbn [ms_id ms_file_id ms_format].
      repeat split; now apply int_attr_is.
    + subst s. cbn [ms_id ms_file_id ms_format]. repeat split; now apply int_attr_is.
  - intro m. unfold load_metadata. destruct (at_or_below _ t) as [u|] eqn:E; [|discriminate]. intros _. exists u. now apply at_or_below_of.
  - intro f. unfold load_file. destruct (at_or_below _ t) as [u|] eqn:E; [|discriminate]. intros _. exists u. now apply at_or_below_of.
  - intro r. unfold load_reel. destruct (at_or_below _ t) as [u|] eqn:E; [|discriminate]. destruct (find_elem (s2z "id") u) as [i|] eqn:F; [|discriminate]. intros _.
    exists u. split; [now apply at_or_below_of|now apply find_elem_has in F].
  - intros t0 x. unfold load_toc. destruct (at_or_below _ t) as [u|] eqn:E; [|discriminate].
    destruct (opt_load (load_metadata split) _); [|discriminate]. destruct (opt_load load_layout_defs _); [|discriminate]. destruct (opt_load load_reels _); [|discriminate].
    intro H. inversion H. exists u. split; [now apply at_or_below_of|reflexivity].
  - unfold load_admin. destruct (find_elem (s2z "AdministrativeMetadata") t) eqn:E; [|discriminate]. intros _. now apply find_elem_has in E.
  - unfold load_tech. destruct (find_elem (s2z "TechnicalMetadata") t) as [u|] eqn:E; [|discriminate]. destruct (find_elem (s2z "BoxerFormat") u) eqn:F; [|discriminate]. intros _.
    unfold find_elem in E. apply find_some in E. destruct E. exists u. repeat split; auto. now apply find_elem_has in F.
  - intro c. unfold load_control. destruct (find_elem (s2z "AdministrativeMetadata") t) eqn:E; [|discriminate]. destruct (find_elem (s2z "TechnicalMetadata") t) eqn:F; [|discriminate]. intros _.
    split; [now apply find_elem_has in E|now apply find_elem_has in F].
Qed.
Print Assumptions C55_required.

(** * Objects that a successful load replaces as a whole *)
Theorem C55_replaces : replaces into_section /\ replaces into_layout_def /\ replaces into_admin /\ replaces into_format /\ replaces into_control.
Proof. exact (conj section_replaces (conj layout_replaces (conj admin_replaces (conj format_replaces control_replaces)))). Qed.
Theorem C55_toc_replaces split a b t : snd (into_toc split a t) = true ->
  (forall u, element_of "Index" t u -> has_element "indexType" u /\ has_element "jobId" u /\ has_element "reelId" u) ->
  into_toc split b t = into_toc split a t.
Proof.
  intros H P. apply toc_replaces; [exact H|]. intros u E. destruct (P u (at_or_below_of _ _ _ E)) as (P1 & P2 & P3).
  assert (Q : forall n, has_element n u -> present u (s2z n) = true).
  { intros n (x & N & I). unfold present, find_elem. destruct (find (named (s2z n)) (descendants u)) eqn:F; [reflexivity|]. apply (find_none _ _ F) in I. congruence. }
  auto.
Qed.
Print Assumptions C55_replaces.
Print Assumptions C55_toc_replaces.

(** A load that fails leaves these as they were. *)
Theorem C55_failure_unchanged : failure_unchanged into_admin /\ failure_unchanged into_format.
Proof.
  split; intros a t; [unfold into_admin; destruct (find_elem _ t)|unfold into_format; destruct (load_format t)]; cbn; congruence.
Qed.
(** And a text that is empty or that cannot be parsed leaves every object as it was; otherwise the load
    of a text is the load of its document. *)
Theorem C55_unreadable {A} (into : A -> node -> A * bool) a s :
  (s = [] \/ load_string s = Fail \/ load_string s = Ret None -> into_string into a s = Ok (a, false)) /\
  (forall t, s <> [] -> load_string s = Ret (Some t) -> into_string into a s = Ok (into a t)).
Proof.
  unfold into_string. split.
  - intros [->|[E|E]]; [reflexivity| |]; destruct s; try reflexivity; now rewrite E.
  - intros t N E. destruct s; [congruence|]. now rewrite E.
Qed.
Print Assumptions C55_failure_unchanged.
Print Assumptions C55_unreadable.

(** * Lists: the elements of the document are added one by one after those that are there *)
Definition read_all {A} (load : node -> option A) (n : string) (t : node) : list (option A) := map load (find_all (s2z n) t).
Definition below {A} (n : string) (f : node -> A) (t : node) : option A := option_map f (at_or_below (s2z n) t).
Lemma descendants_trans : forall t u x, In u (descendants t) -> In x (descendants u) -> In x (descendants t).
Proof.
  apply (node_ind3 (fun t => forall u x, In u (descendants t) -> In x (descendants u) -> In x (descendants t))).
  intros t IH u x Iu Ix. assert (E : descendants t = flat_map (fun k => k :: descendants k) (node_kids t)) by (destruct t; reflexivity). rewrite E in *. clear E.
  apply in_flat_map in Iu. destruct Iu as (k & Ik & [->|Iu]); apply in_flat_map; [exists u; split; [exact Ik|now right]|].
  exists k. split; [exact Ik|]. right. rewrite Forall_forall in IH. eapply IH; eauto.
Qed.
Lemma found_below n m t u x : at_or_below (s2z n) t = Some u -> In x (find_all (s2z m) u) -> In x (descendants t).
Proof.
  intros E I. unfold find_all in I. apply filter_In in I. destruct I as (I & _). apply at_or_below_of in E. destruct E as (_ & [->|E]); [exact I|].
  now apply (descendants_trans t u x).
Qed.
Theorem C55_sections_append v t :
  good_sections (vec_list v) -> Forall fits (vec_list v) ->
  (forall u s, In u (descendants t) -> load_section u = Some s -> fits s) ->
  match below "sections" (read_all load_section "section") t with
  | None => into_sections v t = (v, false)
  | Some l => loads_list acceptable (vec_list v) l (vec_list (fst (into_sections v t))) (snd (into_sections v t))
  end.
Proof.
  intros G F H. unfold below, into_sections. destruct (at_or_below (s2z "sections") t) as [u|] eqn:E; [|reflexivity]. cbn [option_map].
  apply (load_into_appends load_section sections_append vec_list acceptable (fun l => Forall fits l /\ Forall section_ok l) fits).
  - intros s x (F1 & F2) Fx. destruct (append_spec s x F1 Fx F2) as [(A1 & A2)|(A1 & A2)]; [left|right]; rewrite A2; auto. split; [exact A1|]. split; [reflexivity|]. split; [reflexivity|].
    split; apply Forall_app; split; auto. constructor; [apply A1|constructor].
  - apply Forall_forall. intros x I y. apply H. now apply (found_below "sections" "section" t u).
  - split; [exact F|apply G].
Qed.
Theorem C55_definitions_append v t :
  good_defs (vec_list v) -> (forall u d, In u (descendants t) -> load_layout_def u = Some d -> layout_fits d) ->
  match below "layoutDefinitions" (read_all load_layout_def "previewLayout") t with
  | None => into_layout_defs v t = Ok (v, false)
  | Some l => exists v' ok, into_layout_defs v t = Ok (v', ok) /\
      loads_list (fun l d => layout_ok d /\ ~ In (ld_id d) (map ld_id l)) (vec_list v) l (vec_list v') ok
  end.
Proof.
  intros G H. unfold below, into_layout_defs. destruct (at_or_below (s2z "layoutDefinitions") t) as [u|] eqn:E; [|reflexivity]. cbn [option_map].
  apply defs_appends; [|exact G]. apply Forall_forall. intros x I y. apply H. now apply (found_below "layoutDefinitions" "previewLayout" t u).
Qed.
Theorem C55_lists_append split :
  appends into_preview pages_of (below "preview" (fun u => map load_page (filter (named (s2z "pages")) (node_kids u)))) (fun _ g => page_ok g) /\
  appends into_fmetadata vec_list (below "metadata" (read_all load_fsource "source")) (fun _ s => fsource_ok s) /\
  appends (into_metadata split) vec_list (below "metadata" (read_all (load_msource split) "source")) (fun _ s => msource_ok s) /\
  appends into_files vec_list (fun t => Some (read_all load_file "file" t)) (fun _ f => file_is_valid f = true) /\
  appends into_reels vec_list (fun t => Some (map load_reel (reel_nodes t))) (fun _ r => reel_is_valid r = true).
Proof.
  assert (W : forall A (load : node -> option A) add valid (ok : A -> Prop) l s, (forall x, valid x = true <-> ok x) ->
    (forall v x, add v x = if negb (valid x) then (v, false) else (vec_append v x, true)) ->
    loads_list (fun _ x => ok x) (vec_list s) (map load l) (vec_list (fst (load_into load add s l))) (snd (load_into load add s l))).
  { intros A load add valid ok l s V H. apply (load_into_appends load add vec_list (fun _ x => ok x) (fun _ => True) (fun _ => True)); auto.
    - intros v x _ _. rewrite H. specialize (V x). destruct (valid x); cbn [negb fst snd vec_append vec_list]; [left|right]; repeat split; auto; [tauto|]. intro K. apply V in K. discriminate.
    - apply Forall_forall. auto. }
  repeat match goal with |- _ /\ _ => split end; intros s t.
  - unfold below, into_preview. destruct (at_or_below (s2z "preview") t) as [u|] eqn:E; [|reflexivity]. cbn [option_map].
    apply (load_into_appends load_page preview_add_page pages_of (fun _ g => page_ok g) (fun _ => True) (fun _ => True)) with (s := mkPreview (pv_pages s) _); auto.
    + intros v x _ _. unfold preview_add_page. pose proof (page_valid_iff x) as V. destruct (page_is_valid x); cbn [negb fst snd]; [left|right].
      * split; [now apply V|]. split; [|auto]. unfold pages_of. cbn [pv_pages]. destruct (pv_pages v); reflexivity.
      * split; [|reflexivity]. intro K. apply V in K. discriminate.
    + apply Forall_forall. auto.
  - unfold below, into_fmetadata. destruct (at_or_below (s2z "metadata") t) as [u|] eqn:E; [|reflexivity]. cbn [option_map].
    apply (W _ _ _ fsource_is_valid); [apply fsource_valid_iff|reflexivity].
  - unfold below, into_metadata. destruct (at_or_below (s2z "metadata") t) as [u|] eqn:E; [|reflexivity]. cbn [option_map].
    apply (W _ _ _ msource_is_valid); [apply msource_valid_iff|reflexivity].
  - apply (W _ _ _ file_is_valid); [reflexivity|reflexivity].
  - apply (W _ _ _ reel_is_valid); [reflexivity|reflexivity].
Qed.
(** What that means: nothing that was there is lost, the added elements are the first elements of the
    document in their order, and the load succeeds exactly when all elements were added. *)
Theorem C55_list_load {A} (acc : list A -> A -> Prop) l r l' ok : loads_list acc l r l' ok ->
  exists added rest, l' = l ++ added /\ r = map Some added ++ rest /\ (ok = true <-> rest = []).
Proof. exact (loads_list_prefix acc l r l' ok). Qed.
Print Assumptions C55_sections_append.
Print Assumptions C55_definitions_append.
Print Assumptions C55_lists_append.
Print Assumptions C55_list_load.

(** * Histories: any number of loads, successful or not *)
Lemma history {A T} (into : T -> node -> T * bool) (items : T -> list A) elements acc (I : list A -> Prop) :
  appends into items elements acc -> (forall k x, I k -> acc k x -> I (k ++ [x])) ->
  forall docs s, I (items s) -> I (items (load_all into s docs)) /\ exists added, items (load_all into s docs) = items s ++ added.
Proof.
  intros P H docs. induction docs as [|t docs IH]; intros s Is; cbn [load_all]; [split; [exact Is|exists []; now rewrite app_nil_r]|].
  pose proof (P s t) as Q. assert (K : I (items (fst (into s t))) /\ exists added, items (fst (into s t)) = items s ++ added).
  { clear IH. destruct (elements t) as [l|]; [|rewrite Q; cbn [fst]; split; [exact Is|exists []; now rewrite app_nil_r]].
    split; [eapply loads_list_all; [exact H|exact Q|exact Is]|]. destruct (loads_list_prefix _ _ _ _ _ Q) as (a & r & E & _). eauto. }
  destruct K as (K1 & a & K2). destruct (IH _ K1) as (J1 & b & J2). split; [exact J1|]. exists (a ++ b). now rewrite J2, K2, app_assoc.
Qed.
Theorem C55_sections_history docs v :
  good_sections (vec_list v) -> Forall fits (vec_list v) ->
  (forall t u s, In t docs -> In u (descendants t) -> load_section u = Some s -> fits s) ->
  good_sections (vec_list (load_all into_sections v docs)) /\ exists added, vec_list (load_all into_sections v docs) = vec_list v ++ added.
Proof.
  revert v. induction docs as [|t docs IH]; intros v G F H; cbn [load_all]; [split; [exact G|exists []; now rewrite app_nil_r]|].
  pose proof (C55_sections_append v t G F (fun u s => H t u s (or_introl eq_refl))) as P.
  assert (K : (good_sections (vec_list (fst (into_sections v t))) /\ Forall fits (vec_list (fst (into_sections v t)))) /\ exists added, vec_list (fst (into_sections v t)) = vec_list v ++ added).
  { unfold below in P. destruct (at_or_below (s2z "sections") t) as [u|] eqn:E; cbn [option_map] in P.
    - destruct (loads_list_prefix _ _ _ _ _ P) as (a & r & E1 & E2 & _). split; [split; [|rewrite E1; apply Forall_app; split; [exact F|]]|eauto].
      + eapply loads_list_all; [exact acceptable_good|exact P|exact G].
      + apply Forall_forall. intros x I. assert (J : In (Some x) (read_all load_section "section" u)) by (rewrite E2; apply in_or_app; left; now apply in_map).
        unfold read_all in J. apply in_map_iff in J. destruct J as (y & Ey & Iy). apply (H t y x (or_introl eq_refl)); [|exact Ey]. now apply (found_below "sections" "section" t u).
    - rewrite P. cbn [fst]. split; [now split|exists []; now rewrite app_nil_r]. }
  destruct K as ((K1 & K2) & a & K3). destruct (IH _ K1 K2) as (J1 & b & J2).
  - intros t' u s I. apply H. now right.
  - split; [exact J1|]. exists (a ++ b). now rewrite J2, K3, app_assoc.
Qed.
Fixpoint load_all_definitions (v : layout_defs) (docs : list node) : outcome layout_defs :=
  match docs with [] => Ok v | t :: docs' => obind (into_layout_defs v t) (fun p => load_all_definitions (fst p) docs') end.
Theorem C55_definitions_history docs v :
  good_defs (vec_list v) -> (forall t u d, In t docs -> In u (descendants t) -> load_layout_def u = Some d -> layout_fits d) ->
  exists v', load_all_definitions v docs = Ok v' /\ good_defs (vec_list v') /\ exists added, vec_list v' = vec_list v ++ added.
Proof.
  revert v. induction docs as [|t docs IH]; intros v G H; cbn [load_all_definitions]; [exists v; split; [reflexivity|split; [exact G|exists []; now rewrite app_nil_r]]|].
  pose proof (C55_definitions_append v t G (fun u s => H t u s (or_introl eq_refl))) as P.
  assert (Hd : forall t' u d, In t' docs -> In u (descendants t') -> load_layout_def u = Some d -> layout_fits d) by (intros t' u s I; apply H; now right).
  revert P. destruct (below "layoutDefinitions" _ t) as [l|]; intro P.
  - destruct P as (v1 & ok & E & P). rewrite E. cbn [obind fst]. destruct (loads_list_prefix _ _ _ _ _ P) as (a & r & E1 & _).
    assert (G1 : good_defs (vec_list v1)).
    { eapply loads_list_all; [|exact P|exact G]. intros k x Gk (K1 & K2). now apply good_defs_snoc. }
    destruct (IH v1 G1 Hd) as (v' & J1 & J2 & b & J3). exists v'. split; [exact J1|]. split; [exact J2|]. exists (a ++ b). now rewrite J3, E1, app_assoc.
  - rewrite P. cbn [obind fst]. now apply IH.
Qed.
Theorem C55_lists_history split docs :
  (forall p, Forall page_ok (pages_of p) -> Forall page_ok (pages_of (load_all into_preview p docs))) /\
  (forall m, Forall fsource_ok (vec_list m) -> Forall fsource_ok (vec_list (load_all into_fmetadata m docs))) /\
  (forall m, Forall msource_ok (vec_list m) -> Forall msource_ok (vec_list (load_all (into_metadata split) m docs))) /\
  (forall v, Forall (fun f => file_is_valid f = true) (vec_list v) -> Forall (fun f => file_is_valid f = true) (vec_list (load_all into_files v docs))) /\
  (forall v, Forall (fun r => reel_is_valid r = true) (vec_list v) -> Forall (fun r => reel_is_valid r = true) (vec_list (load_all into_reels v docs))).
Proof.
  destruct (C55_lists_append split) as (P1 & P2 & P3 & P4 & P5).
  assert (S : forall A (P : A -> Prop) k x, Forall P k -> P x -> Forall P (k ++ [x])) by (intros; apply Forall_app; auto).
  repeat match goal with |- _ /\ _ => split end; intros s F.
  - apply (history into_preview pages_of _ _ (Forall page_ok) P1); auto.
  - apply (history into_fmetadata vec_list _ _ (Forall fsource_ok) P2); auto.
  - apply (history (into_metadata split) vec_list _ _ (Forall msource_ok) P3); auto.
  - apply (history into_files vec_list _ _ (Forall (fun f => file_is_valid f = true)) P4); auto.
  - apply (history into_reels vec_list _ _ (Forall (fun r => reel_is_valid r = true)) P5); auto.
Qed.
Print Assumptions C55_sections_history.
Print Assumptions C55_definitions_history.
Print Assumptions C55_lists_history.

(** * Documents saved by the library, loaded into any object [a] of the same kind *)
Theorem C55_saved_replaces split :
  (forall a s, section_range s -> section_is_valid s = true -> round_trips (save_section s) (over into_section a) s) /\
  (forall a d, layout_def_is_valid d = true -> layout_carried d -> round_trips (save_layout_def d) (over into_layout_def a) (layout_back d)) /\
  (forall a p, page_carried p -> round_trips (save_page p) (over into_page a) (page_back p)) /\
  (forall a x, toc_is_valid x = true -> toc_carried x -> round_trips (save_toc x) (over (into_toc split) a) (toc_back split x)) /\
  (forall a b, admin_carried b -> document_round_trips (save_admin (Some b)) (over into_admin a) (admin_back b)) /\
  (forall a f, format_carried f -> document_round_trips (save_format (Some f)) (over into_format a) (format_back f)) /\
  (forall c a t, admin_carried a -> tech_carried t ->
     document_round_trips (save_control_string (mkControl (Some a) (Some t))) (over into_control c) (mkControl (Some (admin_back a)) (Some (tech_back t)))).
Proof.
  repeat match goal with |- _ /\ _ => split end.
  - exact section_over. - exact layout_over. - exact page_over. - exact (toc_over split). - exact admin_over. - exact format_over. - exact control_over.
Qed.
(** The other kinds keep something of the old object: SpecLoad.v says what. *)
Theorem C55_saved_keeps split :
  (forall a s, fsource_is_valid s = true -> fsource_carried s -> round_trips (save_fsource s) (over into_fsource a) (fsource_over a s)) /\
  (forall a s, msource_is_valid s = true -> msource_carried s -> round_trips (save_msource s) (over (into_msource split) a) (msource_over split a s)) /\
  (forall a p, preview_is_valid (Some p) = true -> preview_carried p -> round_trips (save_preview (Some p)) (over into_preview a) (preview_over a p)) /\
  (forall a b, file_is_valid b = true -> file_carried b -> round_trips (save_file false b) (over into_file a) (file_over_checked file_is_valid a b)) /\
  (forall a r, reel_is_valid r = true -> reel_carried r -> round_trips (save_reel r) (over into_reel a) (reel_over a r)) /\
  (forall a t, tech_carried t -> document_round_trips (save_tech (Some t)) (over into_tech a) (tech_over a t)).
Proof.
  repeat match goal with |- _ /\ _ => split end.
  - exact fsource_over_round. - exact (msource_over_round split). - exact preview_over_round. - exact file_over_round. - exact reel_over_round. - exact tech_over_round.
Qed.
Theorem C55_saved_lists split :
  (forall v l, Forall (fun s => fsource_is_valid s = true) l -> Forall fsource_carried l -> short l ->
     round_trips (save_fmetadata (Some (Some l))) (over into_fmetadata v) (vec_over v (map fsource_back l))) /\
  (forall v l, metadata_is_valid (Some (Some l)) = true -> Forall msource_carried l ->
     round_trips (save_metadata (Some (Some l))) (over (into_metadata split) v) (vec_over v (map (msource_back split) l))) /\
  (forall v l, Forall (fun f => file_is_valid f = true) l -> files_carried l ->
     round_trips (save_files (Some (Some l))) (over into_files v) (vec_over v (map file_back l))) /\
  (forall v l, Forall (fun r => reel_is_valid r = true) l -> reels_carried l -> short l ->
     round_trips (save_reels (Some (Some l))) (over into_reels v) (vec_over v (map reel_back l))).
Proof.
  repeat match goal with |- _ /\ _ => split end.
  - exact fmetadata_over. - exact (metadata_over split). - exact files_over. - exact reels_over.
Qed.
Print Assumptions C55_saved_replaces.
Print Assumptions C55_saved_keeps.
Print Assumptions C55_saved_lists.

(** * Where the code does not do this *)
Definition doc (s : string) : node := match load_string (s2z s) with Ret (Some t) => t | _ => Opaque [] end.
Definition a_section : string := "<section id=""1"" x=""0"" y=""0"" w=""1"" h=""1"" rotation=""0""/>".
Definition a_file : string := "<file><id>1</id><name>a</name><date>d</date></file>".
Definition cat := String.append.
Ltac changes a t := let H := fresh in intro H; specialize (H a t); vm_compute in H; discriminate (H eq_refl).
(** A load that fails may leave a part of the document in the object. *)
Theorem C55_failure_changes_refuted split :
  ~ failure_unchanged into_section /\ ~ failure_unchanged into_sections /\ ~ failure_unchanged into_layout_def /\
  ~ (forall v t v', into_layout_defs v t = Ok (v', false) -> v' = v) /\
  ~ failure_unchanged into_page /\ ~ failure_unchanged into_preview /\ ~ failure_unchanged into_fsource /\ ~ failure_unchanged into_fmetadata /\
  ~ failure_unchanged (into_msource split) /\ ~ failure_unchanged (into_metadata split) /\ ~ failure_unchanged into_file /\ ~ failure_unchanged into_files /\
  ~ failure_unchanged into_reel /\ ~ failure_unchanged into_reels /\ ~ failure_unchanged (into_toc split) /\ ~ failure_unchanged into_tech /\ ~ failure_unchanged into_control.
Proof.
  repeat match goal with |- _ /\ _ => split end.
  - changes (mkSection 1 2 3 4 5 90) (doc "<section id=""9""/>").
  - changes (None : sections) (doc (cat "<sections>" (cat a_section "<section/></sections>"))).
  - changes (mkLayoutDef None None None) (doc "<previewLayout><id>x</id></previewLayout>").
  - intro H. specialize (H None (doc (cat "<layoutDefinitions><previewLayout><id>l</id><name>n</name><sections>" (cat a_section "</sections></previewLayout><previewLayout/></layoutDefinitions>"))) _ eq_refl).
    vm_compute in H. discriminate H.
  - changes (mkPage None 0 0 0 0 0 0 0) (doc "<pages layoutId=""x"" dimension=""bad""/>").
  - changes (mkPreview None (-1)) (doc "<preview><dpi>9</dpi><pages/></preview>").
  - changes (mkFsource None None 5 5) (doc "<source fileId=""-1""/>").
  - changes (None : fmetadata) (doc "<metadata><source fileId=""1""/><source/></metadata>").
  - changes (mkMsource None 1 1 None None) (doc "<source formatId=""x""/>").
  - changes (None : metadata) (doc "<metadata><source id=""1"" fileId=""1"" formatId=""x""/><source/></metadata>").
  - changes new_file (doc "<file><name>x</name><preview><pages/></preview></file>").
  - changes (None : files) (doc (cat "<files>" (cat a_file "<file/></files>"))).
  - changes (mkReel None None) (doc "<reel><id>x</id><files><file/></files></reel>").
  - changes (None : reels) (doc (cat "<reels><reel><id>x</id><files>" (cat a_file "</files></reel><reel><id>y</id><files><file/></files></reel></reels>"))).
  - changes (mkToc None None None None None None None) (doc "<Index version=""2""><metadata><source/></metadata></Index>").
  - changes (mkTech None None (Some None)) (doc "<x><TechnicalMetadata><BoxerFormat/><Tocs><file/></Tocs></TechnicalMetadata></x>") || changes (mkTech None (Some None) (Some None)) (doc "<x><TechnicalMetadata><BoxerFormat/><Tocs><file/></Tocs></TechnicalMetadata></x>").
  - changes (mkControl None None) (doc "<x><AdministrativeMetadata/></x>").
Qed.
Ltac keeps a b t := let H := fresh in intro H; specialize (H a b t); vm_compute in H; discriminate (H eq_refl).
(** And a load that succeeds may leave a part of the old object. *)
Theorem C55_keeps_refuted split :
  ~ replaces into_sections /\ ~ (forall v w t p, into_layout_defs v t = Ok (p, true) -> into_layout_defs w t = Ok (p, true)) /\
  ~ replaces into_page /\ ~ replaces into_preview /\ ~ replaces into_fsource /\ ~ replaces into_fmetadata /\ ~ replaces (into_msource split) /\ ~ replaces (into_metadata split) /\
  ~ replaces into_file /\ ~ replaces into_files /\ ~ replaces into_reel /\ ~ replaces into_reels /\ ~ replaces (into_toc split) /\ ~ replaces into_tech.
Proof.
  repeat match goal with |- _ /\ _ => split end.
  - keeps (None : sections) (Some [mkSection 1 0 0 1 1 0]) (doc "<sections/>").
  - intro H. specialize (H None (Some [mkLayoutDef (Some (s2z "l")) None None]) (doc "<layoutDefinitions/>") _ eq_refl). vm_compute in H. discriminate H.
  - keeps (mkPage None 0 0 0 0 0 0 0) (mkPage None 7 0 0 0 0 0 0) (doc "<pages/>").
  - keeps (mkPreview None (-1)) (mkPreview None 300) (doc "<preview/>").
  - keeps (mkFsource None None (-1) (-1)) (mkFsource (Some (s2z "old")) None (-1) (-1)) (doc "<source fileId=""3""><data>new</data></source>").
  - keeps (None : fmetadata) (Some [mkFsource None None 1 1]) (doc "<metadata/>").
  - keeps (mkMsource None (-1) (-1) None None) (mkMsource None (-1) (-1) None (Some [s2z "old"])) (doc "<source id=""1"" fileId=""2"" formatId=""x""/>").
  - keeps (None : metadata) (Some [mkMsource None 1 1 None None]) (doc "<metadata/>").
  - keeps new_file (mkFile None None None 0 0 0 0 0 0 (Some (s2z "old")) 0 1 None None None) (doc a_file).
  - keeps (None : files) (Some [new_file]) (doc "<files/>").
  - keeps (mkReel None None) (mkReel None (Some None)) (doc "<reel><id>x</id></reel>").
  - keeps (None : reels) (Some [mkReel None None]) (doc "<reels/>").
  - keeps (mkToc None None None None None None None) (mkToc None (Some (s2z "old")) None None None None None) (doc "<Index/>").
  - keeps tech_create (mkTech None (Some None) None) (doc "<x><TechnicalMetadata><BoxerFormat/></TechnicalMetadata></x>").
Qed.
(** A file that is not digital, loaded over a digital file, is a digital file with the size, the position
    of the old one and without a checksum; both were valid and the document was saved by the library. *)
Definition old_digital : toc_file :=
  mkFile (Some (s2z "a")) (Some (s2z "d")) (Some (s2z "c")) 10 1 2 3 4 5 (Some (s2z "u")) (-2) 1 None (Some (s2z "f")) None.
Definition new_parent : toc_file :=
  mkFile (Some (s2z "b")) (Some (s2z "e")) None 0 7 (-1) (-1) (-1) (-1) None (-1) 2 (Some ex_preview) (Some (s2z "g")) None.
Theorem C55_stale_data_refuted : exists a b c, file_is_valid a = true /\ file_is_valid b = true /\ ~ digital b /\
  round_trips (save_file false b) (over into_file a) c /\ digital c /\ f_size c = f_size a /\ f_unique_id c = f_unique_id a.
Proof.
  exists old_digital, new_parent, (file_over_checked file_is_valid old_digital new_parent).
  split; [reflexivity|]. split; [reflexivity|]. split; [unfold digital; discriminate|]. split; [|split; [|split]; vm_compute; reflexivity].
  apply C55_saved_keeps; [exact split_parts|reflexivity|].
  unfold file_carried, new_parent. cbn [f_name f_date f_checksum f_size f_id f_start_frame f_start_byte f_end_frame f_end_byte f_unique_id f_parent_id f_types f_preview f_file_format f_metadata fsources_of].
  do 5 (split; [first [exact I|atext]|]). repeat (split; [unfold is_i32, is_i64; lia|]). split.
  - intros p E. injection E as <-. apply ex_preview_carried.
  - split; [constructor|unfold short; cbn; lia].
Qed.
(** Three constructors create an object from a document and ignore that the load failed. *)
Theorem C55_constructors_ignore_failure_refuted : exists t1 t2 t3,
  load_layout_def t1 = None /\ layout_def_is_valid (layout_def_create4 t1) = false /\ layout_def_create4 t1 <> mkLayoutDef None None None /\
  load_sections t2 = None /\ sections_create2 t2 = Some [mkSection 1 0 0 1 1 0] /\
  load_metadata split_parts t3 = None /\ metadata_create3 split_parts t3 = Some [mkMsource (Some (s2z "x")) 1 2 None None].
Proof.
  exists (doc "<previewLayout><id>x</id></previewLayout>"), (doc (cat "<sections>" (cat a_section "<section/></sections>"))),
    (doc "<metadata><source id=""1"" fileId=""2"" formatId=""x""/><source/></metadata>").
  repeat split; try (vm_compute; reflexivity). vm_compute. discriminate.
Qed.
Print Assumptions C55_failure_changes_refuted.
Print Assumptions C55_keeps_refuted.
Print Assumptions C55_stale_data_refuted.
Print Assumptions C55_constructors_ignore_failure_refuted.

(** The hypotheses are met. *)
Example C55_witness :
  let d := doc (cat "<?xml version=""1.0""?><sections>" (cat a_section "<section id=""2"" x=""5"" y=""5"" w=""2"" h=""2"" rotation=""90""/></sections>")) in
  into_sections (Some [mkSection 7 100 100 1 1 0]) d = (Some [mkSection 7 100 100 1 1 0; mkSection 1 0 0 1 1 0; mkSection 2 5 5 2 2 90], true) /\
  into_sections (Some [mkSection 2 100 100 1 1 0]) d = (Some [mkSection 2 100 100 1 1 0; mkSection 1 0 0 1 1 0], false) /\
  good_sections [mkSection 7 100 100 1 1 0] /\ Forall fits [mkSection 7 100 100 1 1 0] /\
  (forall u s, In u (descendants d) -> load_section u = Some s -> fits s).
Proof.
  cbv zeta. split; [vm_compute; reflexivity|]. split; [vm_compute; reflexivity|]. split; [|split].
  - split; [|split]; repeat constructor; cbn; try lia; auto.
  - repeat constructor; cbn; lia.
  - intros u s I E. vm_compute in I. repeat (destruct I as [<-|I]; [vm_compute in E; try discriminate; inversion E; subst; unfold fits, is_u32; cbn; lia|]). destruct I.
Qed.
