(** The strings that are saved against the schemas. *)
From Verif Require Import CBase CBaseProofs XmlModel SpecXml SpecGrammar SpecForeign SpecSchema SpecSchema2 SchemaProofs SchemaProofs2 SchemaProofs3 XmlTermProofs XmlProofs XmlRound GrammarProofs WrittenProofs WrittenProofs2
  TocModel SpecToc ValidProofs TocXmlModel TocXmlBase SpecTocXml TocXmlProofs TocXmlProofs2 TocXmlProofs3 TocXmlProofs4 TocXmlProofs5 WsModel WsProofs WriterModel WriterProofs WriterProofs2 WriterProofs3.
Import SpecXml SpecForeign.

(** * The saved trees are tidy *)
Definition neat (k : node) : Prop := proper k /\ tidy k.
Lemma neat_elem n a ks : is_markup_name n = false -> Forall neat ks -> neat (Elem n a ks).
Proof. intros B F. split; [exact B|]. apply tidy_elems; (eapply Forall_impl; [|exact F]); intros k (P & T); assumption. Qed.
Lemma neat_leaf n a : is_markup_name n = false -> neat (Elem n a []).
Proof. intro B. apply neat_elem; [exact B|constructor]. Qed.
Lemma neat_kids n a s : is_markup_name n = false -> neat (Elem n a (text_kids s)).
Proof. intro B. split; [exact B|apply tidy_text]. Qed.
Lemma neat_text n s : is_markup_name n = false -> Forall neat (text_node n s).
Proof. intro B. destruct s; [|constructor]. cbn [text_node]. constructor; [now apply neat_kids|constructor]. Qed.
Lemma neat_int n z : is_markup_name n = false -> Forall neat (int_node n z).
Proof. intro B. unfold int_node. constructor; [now apply neat_kids|constructor]. Qed.
Lemma neat_map {X} (f : X -> node) l : (forall x, neat (f x)) -> Forall neat (map f l).
Proof. intro H. apply Forall_forall. intros k I. apply in_map_iff in I as (x & <- & _). apply H. Qed.
Ltac nt := repeat first [apply Forall_app; split | apply neat_text; reflexivity | apply neat_int; reflexivity | apply neat_leaf; reflexivity | apply neat_kids; reflexivity
  | apply neat_elem; [reflexivity|] | apply neat_map; intro | apply Forall_nil | apply Forall_cons].
Lemma neat_section s : neat (tree_section s). Proof. unfold tree_section. nt. Qed.
Lemma neat_layout d : neat (tree_layout d).
Proof. unfold tree_layout, tree_sections. nt. Qed.
Lemma neat_preview p : neat (tree_preview p).
Proof. unfold tree_preview, tree_page. nt. destruct (0 <=? pv_dpi p); nt. Qed.
Lemma neat_data n a d : n = DATA -> neat (Elem n a [new_cdata d]).
Proof. intros ->. split; [reflexivity|apply tidy_cdata]. Qed.
Lemma neat_fsource s : neat (tree_fsource s).
Proof. unfold tree_fsource. apply neat_elem; [reflexivity|]. destruct (fs_data s); [|constructor]. constructor; [now apply neat_data|constructor]. Qed.
Lemma neat_msource s : neat (tree_msource s).
Proof. unfold tree_msource. apply neat_elem; [reflexivity|]. apply Forall_app. split; [|nt]. destruct (ms_data s); [|constructor]. constructor; [now apply neat_data|constructor]. Qed.
#[local] Opaque tree_preview tree_fsource tree_msource tree_layout.
Lemma neat_file v1 f : neat (tree_file v1 f).
Proof.
  unfold tree_file, tail_parent, tail_data, tail_preview, tail_meta. nt.
  - destruct (f_parent_id f =? FILE_NO_PARENT); nt.
  - destruct (digitalb f); [destruct v1|]; unfold save_data_v1, save_data_v2; nt.
  - destruct (previewedb f); [destruct (f_preview f)|]; nt. apply neat_preview.
  - destruct (fsources_of f); unfold tree_fmetadata; nt; apply neat_fsource.
Qed.
#[local] Opaque tree_file.
Lemma neat_toc t : neat (tree_toc t).
Proof.
  unfold tree_toc, tail_md, tail_ld, tail_rl. nt.
  - destruct (msources_of t); unfold tree_metadata; nt; apply neat_msource.
  - destruct (layouts_of t); unfold tree_layouts; nt; apply neat_layout.
  - destruct (reels_of t); unfold tree_reels; nt; unfold tree_reel, tail_files; nt; match goal with |- context [r_files ?r] => destruct (r_files r) end; unfold tree_files; nt; apply neat_file.
Qed.
#[local] Transparent tree_preview tree_fsource tree_msource tree_layout tree_file.
(** * Strings *)
Definition element_like (d t : node) : Prop := exists r, document_element d r /\ same blank t r.
Lemma object_like decl t ws (nl : bool) : indenting ws -> wf t -> proper t ->
  exists s d, save_object decl ([t], true) ws nl = Some s /\ document s d /\ element_like d t.
Proof.
  intros I F P. destruct closed_blank as (Wb & W0 & Wa). destruct t as [n a k|]; [|contradiction]. assert (Bs : is_special n = false) by exact P.
  unfold save_object. cbn [fst snd]. destruct decl.
  - destruct (written_document blank Wb W0 Wa ws I [Elem n a k] nl ltac:(constructor; [exact F|constructor]) ltac:(discriminate)) as (ks' & D & v & Wv & V).
    eexists _, _. split; [reflexivity|]. split; [exact D|]. inversion V as [|w x x' l l' W E Sx V']; subst. inversion V' as [u Wu|]; subst.
    exists x'. split; [|exact Sx]. change (children ks' = [x']). 
    assert (Px : proper x') by (eapply same_proper; eassumption).
    assert (K : children (ks' ++ pend v) = [x']).
    { match goal with H : _ = ks' ++ pend v |- _ => rewrite <- H end. rewrite children_pend. destruct x' as [m b j|]; [|contradiction]. unfold children. cbn [filter]. cbn in Px. rewrite Px. cbn [negb].
      f_equal. apply (proj1 (pend_alone u)). }
    unfold children in *. rewrite filter_app in K. replace (filter _ (pend v)) with (@nil node) in K by (destruct v; reflexivity). now rewrite app_nil_r in K.
  - destruct (written_bare blank Wb Wa ws I (Elem n a k) nl F) as (t' & D & Sm); [exists n, a, k; split; [reflexivity|eapply wf_name; eassumption]|].
    eexists _, _. split; [reflexivity|]. split; [exact D|]. exists t'. split; [|exact Sm]. assert (Pt : proper t') by (eapply same_proper; eassumption).
    destruct t' as [m b j|]; [|contradiction]. cbn in Pt. cbn [document_element]. now rewrite Pt.
Qed.
Lemma no_ws_indenting : indenting no_ws. Proof. intros ? ? ?. constructor. Qed.
Lemma string_like p saved t cb ws : saved = ([t], true) -> fits p [t] -> wf t -> proper t -> indenting ws ->
  write_checked cb [XML_DECL] t = Ok (write_node ws [XML_DECL] t) ->
  (is_whole p = true -> forall q, q = BeforeOpen \/ q = AfterOpen -> cb [] (new_xml [t]) q = Ok (ws [] (new_xml [t]) q)) ->
  forall compact, exists s d, as_string p true saved cb compact = Ok (Some s) /\ document s d /\ element_like d t.
Proof.
  intros -> Ft F P I W R compact. assert (N : [t] <> []) by discriminate. unfold as_string. cbn [negb fst snd]. destruct compact.
  - destruct (part_text_spec p (guarded no_ws) [t] Ft) as (nl & E & _).
    rewrite (indented_text (is_whole p) [t] (guarded no_ws) no_ws nl N) in E; [|intros; apply write_guarded|reflexivity].
    assert (B : (if is_whole p then no_ws else below [XML_DECL] no_ws) = no_ws) by (destruct (is_whole p); reflexivity). rewrite B in E.
    destruct (object_like (is_whole p) t no_ws nl no_ws_indenting F P) as (s & d & Es & D & X). rewrite Es in E. eauto.
  - destruct (part_text_spec p cb [t] Ft) as (nl & E & _).
    rewrite (indented_text (is_whole p) [t] cb ws nl N) in E; [|intros x [<- |[]]; exact W|exact R].
    assert (I2 : indenting (if is_whole p then ws else below [XML_DECL] ws)) by (destruct (is_whole p); [exact I|intros path x q; apply I]).
    destruct (object_like (is_whole p) t _ nl I2 F P) as (s & d & Es & D & X). rewrite Es in E. eauto.
Qed.
Lemma document_one s d d' : document s d -> document s d' -> d' = d.
Proof. intros D D'. apply reads_document in D. apply reads_document in D'. congruence. Qed.
Lemma element_one d r r' : document_element d r -> document_element d r' -> r' = r.
Proof. destruct d as [n a ks|]; [|contradiction]. cbn. destruct (is_markup_name n); congruence. Qed.
(** The string conforms iff the saved tree does. *)
Lemma like_schema s d n a ks T : document s d -> element_like d (Elem n a ks) -> tidy (Elem n a ks) -> n = s2z "Index" /\ T = IndexType \/ n = s2z "file" /\ T = FileType ->
  (schema_document s <-> conforms T (Elem n a ks)).
Proof.
  intros D (r & Er & Sm) Td Hn. destruct (tidy_alike _ Td r Sm) as (n' & a' & k1 & k2 & E1 & -> & K). injection E1 as <- <- <-.
  assert (Kn : conforms T (Elem n a ks) <-> conforms T (Elem n a k2)).
  { apply K. destruct Hn as [(-> & ->)|(-> & ->)]; [exact tolerant_index|exact tolerant_file]. }
  assert (Kv : schema_valid (Elem n a k2) <-> conforms T (Elem n a k2)).
  { unfold schema_valid. destruct Hn as [(-> & ->)|(-> & ->)]; (split; [intros [(E & C)|(E & C)]; [|]; first [exact C | discriminate E]|intro C]); [left|right]; auto. }
  rewrite Kn, <- Kv. split.
  - intros (d' & r' & D' & Er' & V). rewrite (document_one _ _ _ D D') in Er'. now rewrite (element_one _ _ _ Er Er') in V.
  - intro V. exists d, (Elem n a k2). auto.
Qed.
Lemma toc_like t : toc_is_valid t = true -> toc_carried t -> forall compact,
  exists s, toc_to_string t compact = Ok (Some s) /\ (schema_document s <-> conforms IndexType (tree_toc t)).
Proof.
  intros V C compact. pose proof (save_toc_ok t C V) as E. pose proof (neat_toc t) as (P & T).
  destruct (string_like Whole (save_toc t) (tree_toc t) (guarded ws_toc_data) ws_toc_data E Logic.I ltac:(now apply wf_toc) P) with (compact := compact) as (s & d & Es & D & L).
  - intros ? ? ?. apply rules_blank.
  - apply write_guarded.
  - reflexivity.
  - exists s. split; [exact Es|]. apply (like_schema s d _ _ _ _ D L T). left. auto.
Qed.
Lemma file_like v1 f : file_is_valid f = true -> file_carried f -> forall compact,
  exists s, file_to_string v1 f compact = Ok (Some s) /\ (schema_document s <-> conforms FileType (tree_file v1 f)).
Proof.
  intros V C compact. pose proof (save_file_ok v1 f ltac:(apply C) V) as E. pose proof (neat_file v1 f) as (P & T).
  destruct (string_like FirstChild (save_file v1 f) (tree_file v1 f) ws_file (unchecked ws_file) E) with (compact := compact) as (s & d & Es & D & L).
  - cbn [fits]. unfold tree_file. eauto.
  - now apply wf_file.
  - exact P.
  - apply unchecked_indenting; [exact file_total|]. intros x p w. unfold ws_file. cbn [nth_error iso]. cbn [checked_rules obind oand].
    destruct (is "file" (node_name_or x)); cbn [obind]; [|discriminate]. destruct (existsb (place_eqb p) around); cbn [obind]; [|discriminate].
    intro K. injection K as <-. apply line_blank.
  - apply (below_total _ file_total). discriminate.
  - discriminate.
  - exists s. split; [exact Es|]. apply (like_schema s d _ _ _ _ D L T). right. auto.
Qed.
