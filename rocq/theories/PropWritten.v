(** C72: what is saved is XML that any other tool can read. *)
From Verif Require Import CBase CBaseProofs XmlEntity XmlModel SpecXml SpecGrammar SpecForeign EntityProofs Utf8Proofs TrimProofs XmlTermProofs XmlProofs XmlRound SimProofs GrammarProofs
  WrittenProofs WrittenProofs2 TocModel SpecToc ValidProofs EqualProofs TocXmlModel TocXmlBase SpecTocXml TocXmlProofs TocXmlProofs2 TocXmlProofs3 TocXmlProofs4 TocXmlProofs5 TocXmlNorm TocXmlRound
  ControlModel SpecControl ControlProofs ControlProofs2 WsModel WsProofs WriterModel WriterProofs WriterProofs2 WriterProofs3 PropTocXml PropWs.
Import SpecXml SpecForeign.

(** The writer: every tree of the library's kind, with any indentation, below the XML declaration or
    bare, is written as a document of the grammar that shows it; without indentation as a document that
    stands for exactly this tree. *)
Theorem C72_writes ws ks (nl : bool) : indenting ws -> Forall wf ks -> ks <> [] ->
  exists d, document (save_text ws nl (new_xml ks)) d /\ shows d ks.
Proof. intros I F N. destruct (object_document true ks ws nl I F N ltac:(discriminate)) as (s & d & E & D & S). injection E as <-. eauto. Qed.
Theorem C72_writes_bare ws n a ks (nl : bool) : indenting ws -> wf (Elem n a ks) -> name_ok n ->
  exists d, document (save_text ws nl (Elem n a ks)) d /\ sim (Elem n a ks) d.
Proof.
  intros I F N. assert (B : is_special n = false) by now apply name_special.
  destruct (written_bare blank (proj1 closed_blank) (proj2 (proj2 closed_blank)) ws I (Elem n a ks) nl F ltac:(eauto)) as (d & D & S). exists d. split; [exact D|]. now apply same_sim.
Qed.
Theorem C72_writes_exactly ks (nl : bool) : Forall wf ks -> ks <> [] -> document (save_text no_ws nl (new_xml ks)) (new_xml ks).
Proof. intros F N. destruct (object_compact true ks nl F N ltac:(discriminate)) as (s & d & E & D & X). injection E as <-. cbn in X. subst d. exact D. Qed.

Ltac blanks := intros ? ? ?; apply rules_blank.
Ltac written E w := rewrite E; cbn [fst]; eapply string_document_guarded; [exact E || reflexivity|reflexivity|reflexivity|reflexivity || discriminate|w|blanks].
(** Every save_string function of the table of contents, compact and indented. *)
Theorem C72_toc_documents :
  (forall s, section_is_valid s = true -> section_range s -> is_document (section_to_string s) (fst (save_section s))) /\
  (forall l, sections_is_valid (Some (Some l)) = true -> sections_carried l -> is_document (sections_to_string (Some l)) (fst (save_sections (Some (Some l))))) /\
  (forall d, layout_def_is_valid d = true -> layout_carried d -> is_document (layout_to_string d) (fst (save_layout_def d))) /\
  (forall l, layout_defs_is_valid (Some (Some l)) = true -> layouts_carried l -> is_document (layouts_to_string (Some l)) (fst (save_layout_defs (Some (Some l))))) /\
  (forall p, page_carried p -> is_document (page_to_string p) (fst (save_page p))) /\
  (forall p, preview_is_valid (Some p) = true -> preview_carried p -> is_document (preview_to_string p) (fst (save_preview (Some p)))) /\
  (forall s, fsource_is_valid s = true -> fsource_carried s -> is_document (fsource_to_string s) (fst (save_fsource s))) /\
  (forall l, Forall (fun s => fsource_is_valid s = true) l -> Forall fsource_carried l -> short l -> is_document (fmetadata_to_string (Some l)) (fst (save_fmetadata (Some (Some l))))) /\
  (forall s, msource_is_valid s = true -> msource_carried s -> is_document (msource_to_string s) (fst (save_msource s))) /\
  (forall l, metadata_is_valid (Some (Some l)) = true -> Forall msource_carried l -> is_document (metadata_to_string (Some l)) (fst (save_metadata (Some (Some l))))) /\
  (forall r, reel_is_valid r = true -> reel_carried r -> is_document (reel_to_string r) (fst (save_reel r))) /\
  (forall l, Forall (fun r => reel_is_valid r = true) l -> reels_carried l -> short l -> is_document (reels_to_string (Some l)) (fst (save_reels (Some (Some l))))) /\
  (forall t, toc_is_valid t = true -> toc_carried t -> is_document (toc_to_string t) (fst (save_toc t))).
Proof.
  split; [intros s V R; pose proof (save_section_ok s V) as E; written E ltac:(now apply wf_section)|].
  split; [intros l V R; pose proof (save_sections_ok l V) as E; written E ltac:(apply wf_sections; apply R)|].
  split; [intros s V R; pose proof (save_layout_ok s V) as E; written E ltac:(now apply wf_layout)|].
  split; [intros s V R; pose proof (save_layouts_ok (Some s) V) as E; written E ltac:(apply wf_layouts; apply R)|].
  split; [intros s R; pose proof (save_page_ok s) as E; written E ltac:(now apply wf_page)|].
  split; [intros s V R; pose proof (save_preview_ok s V) as E; written E ltac:(now apply wf_preview)|].
  split; [intros s V R; pose proof (save_fsource_ok s V) as E; written E ltac:(now apply wf_fsource)|].
  split. { intros s V R Sh. assert (V' : fmetadata_is_valid (Some (Some s)) = true) by (cbn [fmetadata_is_valid vec_list]; rewrite forallb_forall; now rewrite Forall_forall in V).
    pose proof (save_fmetadata_ok (Some s) V' Sh) as E. written E ltac:(now apply wf_fmetadata). }
  split; [intros s V R; pose proof (save_msource_ok s V) as E; written E ltac:(now apply wf_msource)|].
  split; [intros s V R; pose proof (save_metadata_ok s V) as E; written E ltac:(now apply wf_metadata)|].
  split; [intros s V R; pose proof (save_reel_ok s R V) as E; written E ltac:(now apply wf_reel)|].
  split. { intros l V C Sh. assert (V' : reels_is_valid (Some (Some l)) = true) by (unfold reels_is_valid; destruct (reels_count _ =? 0); [reflexivity|]; cbn [vec_list]; rewrite forallb_forall; now rewrite Forall_forall in V).
    pose proof (save_reels_ok (Some l) V' Sh (proj1 C)) as E. written E ltac:(apply wf_reels; apply C). }
  intros s V R; pose proof (save_toc_ok s R V) as E; written E ltac:(now apply wf_toc).
Qed.
(** A file entry (both forms), and a list of them; the indented save of a list is a crash (C48_files_refuted). *)
Theorem C72_file_documents :
  (forall v1 f, file_is_valid f = true -> file_carried f -> is_document (file_to_string v1 f) (fst (save_file v1 f))) /\
  (forall l, Forall (fun f => file_is_valid f = true) l -> files_carried l -> is_compact_document (files_to_string (Some l)) (fst (save_files (Some (Some l))))).
Proof.
  split.
  - intros v1 f V C. pose proof (save_file_ok v1 f ltac:(apply C) V) as E. rewrite E. cbn [fst].
    unfold tree_file at 1. apply rooted; [name|]. fold (tree_file v1 f). apply (string_document FirstChild (save_file v1 f) [tree_file v1 f] ws_file (unchecked ws_file) E).
    + cbn [fits]. unfold tree_file. eauto.
    + constructor; [now apply wf_file|constructor].
    + discriminate.
    + apply unchecked_indenting; [exact file_total|]. intros x p w. unfold ws_file. cbn [nth_error iso]. cbn [checked_rules obind oand].
      destruct (is "file" (node_name_or x)); cbn [obind]; [|discriminate]. destruct (existsb (place_eqb p) around); cbn [obind]; [|discriminate].
      intro K. injection K as <-. apply line_blank.
    + intros _. unfold single, tree_file. eauto.
    + intros t _. apply (below_total _ file_total). discriminate.
    + discriminate.
  - intros l V C. assert (V' : files_is_valid (Some (Some l)) = true) by (cbn [files_is_valid vec_list]; rewrite forallb_forall; now rewrite Forall_forall in V).
    pose proof (save_files_ok (Some l) V' ltac:(now apply files_short)) as E. cbn [vlist] in E.
    unfold files_to_string. rewrite E. cbn [fst]. apply string_compact; [reflexivity|name|constructor; [now apply wf_files|constructor]].
Qed.
(** Control data and its parts. *)
Theorem C72_control_documents :
  (forall a, admin_carried a -> is_document (admin_to_string a) (fst (save_admin (Some a)))) /\
  (forall f, format_carried f -> is_document (format_to_string f) (fst (save_format (Some f)))) /\
  (forall t, tech_carried t -> te_tocs t <> None -> is_document (tech_to_string t) (fst (save_tech (Some t)))) /\
  (forall a t, admin_carried a -> tech_carried t -> is_markup (control_to_string (mkControl (Some a) (Some t))) (fst (save_control (mkControl (Some a) (Some t))))).
Proof.
  split; [|split; [|split]].
  - intros a C. assert (E : save_admin (Some a) = ([tree_admin a], true)) by reflexivity. written E ltac:(now apply wf_admin).
  - intros f C. assert (E : save_format (Some f) = ([tree_format f], true)) by reflexivity. rewrite E. cbn [fst].
    pose proof (wf_format f C) as W. assert (Nf : exists n a k, tree_format f = Elem n a k /\ name_ok n) by (unfold tree_format; destruct (bf_config f); eexists _, _, _; (split; [reflexivity|name])).
    destruct Nf as (n & a & k & En & Nf). rewrite En in *. apply rooted; [exact Nf|]. rewrite <- En in *. apply (string_document Whole _ [tree_format f] (guarded ws_format) ws_format E); [exact Logic.I|constructor; [exact W|constructor]|discriminate|blanks|discriminate|intros; apply write_guarded|reflexivity].
  - intros t ((f & Ef & Cf) & C1 & C2) N. pose proof (save_tech_ok t f Ef C1 C2) as E. unfold tech_to_string.
    replace (match te_tocs t, te_format t with Some _, Some _ => true | _, _ => false end) with true by (rewrite Ef; destruct (te_tocs t); [reflexivity|congruence]).
    written E ltac:(now apply wf_tech).
  - intros a t Ca ((f & Ef & Cf) & C1 & C2).
    assert (E : save_control (mkControl (Some a) (Some t)) = ([tree_admin a; tree_tech f t], true)).
    { unfold save_control. cbn [cd_admin cd_tech save_admin]. rewrite (save_tech_ok t f) by assumption. reflexivity. }
    unfold control_to_string. cbn [cd_admin cd_tech]. rewrite E. cbn [fst].
    apply (string_document Whole _ [tree_admin a; tree_tech f t] ws_control (unchecked ws_control) eq_refl); [exact Logic.I| |discriminate| |discriminate| |].
    + constructor; [now apply wf_admin|]. constructor; [now apply wf_tech|constructor].
    + apply unchecked_indenting; [exact control_total|]. intros x p w. unfold ws_control. cbn [nth_error iso].
      destruct p; cbn [oor oif obind]; try discriminate.
      * assert (X : oif (UB <||> UB) (Ok (line 4)) (oif (UB <||> Ok (is "work" (node_name_or x))) (Ok (line 8))
           (oif (Ok (is "class" (node_name_or x)) <||> UB) (Ok (line 12)) (oif (Ok (is "property" (node_name_or x)) <||> UB <||> UB) (Ok (line 16)) (Ok (line 0))))) = Ok w -> blank w) by discriminate.
        destruct (node_name_or x) as [|z l]; [exact X|]. destruct z; try exact X. repeat (destruct p; try exact X). intro K. injection K as <-. constructor.
      * destruct (negb (text_child x)); [|discriminate]. intro K. injection K as <-. constructor.
      * intro K. injection K as <-. constructor.
    + intros x _. apply (below_total _ control_total). discriminate.
    + intros _ p [-> | ->]; reflexivity.
Qed.
(** Control data has two elements behind the declaration: what is saved is never an XML document, compact or indented. *)
Theorem C72_two_roots_refuted a t : admin_carried a -> tech_carried t -> forall compact,
  exists s, control_to_string (mkControl (Some a) (Some t)) compact = Ok (Some s) /\ forall d, document s d -> ~ one_root d.
Proof.
  intros Ca Ct compact. destruct (proj2 (proj2 (proj2 C72_control_documents)) a t Ca Ct compact) as (s & d & E & D & S & _). exists s. split; [exact E|].
  intros d' D' R. apply reads_document in D. apply reads_document in D'. assert (d' = d) as -> by congruence.
  destruct Ct as ((f & Ef & Cf) & C1 & C2).
  assert (Es : fst (save_control (mkControl (Some a) (Some t))) = [tree_admin a; tree_tech f t]).
  { unfold save_control. cbn [cd_admin cd_tech save_admin]. rewrite (save_tech_ok t f) by assumption. reflexivity. }
  rewrite Es in S. inversion S as [|m ks' ks (q & P) F]; subst. assert (Fl : List.length [tree_admin a; tree_tech f t] = List.length (elems ks')) by (clear -F; induction F; cbn; congruence). cbn in Fl.
  destruct P as [-> | ->]; destruct R as (n & b & l & K & _); rewrite K in Fl; discriminate.
Qed.
Print Assumptions C72_two_roots_refuted.
Print Assumptions C72_writes.
Print Assumptions C72_writes_bare.
Print Assumptions C72_writes_exactly.
Print Assumptions C72_toc_documents.
Print Assumptions C72_file_documents.
Print Assumptions C72_control_documents.
(** * Strings that XML cannot carry *)
Definition visible (s : cstr) : Prop := Forall (fun c => 9 <= c) s.
Lemma visible_app a b : visible a -> visible b -> visible (a ++ b). Proof. intros A B. apply Forall_app. now split. Qed.
Lemma visible_rfc c : good_cp c -> visible (rfc_utf8 c).
Proof.
  intro G. unfold visible, rfc_utf8. unfold good_cp in G. assert (0 <= c) by lia.
  pose proof (Z.mod_pos_bound c 64). pose proof (Z.mod_pos_bound (c / 64) 64). pose proof (Z.mod_pos_bound (c / 4096) 64).
  pose proof (Z.div_pos c 64). pose proof (Z.div_pos c 4096). pose proof (Z.div_pos c 262144).
  destruct (c <? 128); [constructor; [lia|constructor]|]. destruct (c <? 2048); [|destruct (c <? 65536)]; repeat (constructor; [lia|]); constructor.
Qed.
Lemma visible_text s : is_text s -> visible s.
Proof. intro T. induction T as [|c s G T IH] using text_ind_cps; [constructor|]. apply visible_app; [now apply visible_rfc|exact IH]. Qed.
Lemma visible_spaces w : spaces w -> visible w.
Proof. intro H. eapply Forall_impl; [|exact H]. unfold space. cbn. lia. Qed.
Lemma visible_more n : (exists c cs, name_more c /\ Forall name_more cs /\ n = flat_map rfc_utf8 (c :: cs)) -> visible n.
Proof.
  intros (c & cs & H & F & ->). apply visible_text. exists (c :: cs). split; [|reflexivity]. constructor; [now apply more_good|]. eapply Forall_impl; [|exact F]. exact more_good.
Qed.
Lemma visible_tag n : tag_name n -> visible n.
Proof. intros (c & cs & H & F & E). apply visible_more. exists c, cs. split; [now left|auto]. Qed.
Lemma visible_attr n : attr_name n -> visible n.
Proof. intros (c & cs & H & F & E). apply visible_more. exists c, cs. split; [left; now left|auto]. Qed.
Lemma visible_refers r c : refers r c -> visible r.
Proof.
  intro H. destruct (refers_walk r c H) as (_ & s & -> & F & _). constructor; [lia|]. apply visible_app; [|constructor; [lia|constructor]].
  eapply Forall_impl; [|exact F]. intros x X. cbn. apply ent_char_ascii in X. lia.
Qed.
Lemma visible_spells ok s v : spells ok s v -> visible s.
Proof. induction 1; [constructor|apply visible_app; [now apply visible_rfc|assumption]|apply visible_app; [eapply visible_refers; eassumption|assumption]]. Qed.
Ltac vis := repeat first [apply visible_app | apply Forall_cons; [lia|] | assumption | apply visible_spaces; assumption | apply Forall_nil].
Lemma visible_attributes a l : attributes a l -> visible a.
Proof.
  induction 1 as [|w n w1 w2 q s v rest l W0 W N W1 W2 Q V A IH D]; [constructor|]. pose proof (visible_attr n N). pose proof (visible_spells _ _ _ V).
  assert (9 <= q) by lia. vis.
Qed.
Lemma visible_lit s : forallb (fun c => 9 <=? c) s = true -> visible s.
Proof. intro H. apply Forall_forall. intros c I. rewrite forallb_forall in H. specialize (H c I). lia. Qed.
Lemma visible_items : (forall x t, item x t -> visible x) /\ (forall s ks, content s ks -> visible s).
Proof.
  apply item_content_ind.
  - intros n a l w N A W. pose proof (visible_tag n N). pose proof (visible_attributes a l A). pose proof (visible_lit (s2z "/>") eq_refl). vis.
  - intros n a l w s ks w' N A W C V W'. pose proof (visible_tag n N). pose proof (visible_attributes a l A). pose proof (visible_lit (s2z "</") eq_refl). pose proof (visible_lit (s2z ">") eq_refl). vis.
  - intros p (T & _). pose proof (visible_text p T). pose proof (visible_lit (s2z "<!--") eq_refl). pose proof (visible_lit (s2z "-->") eq_refl). vis.
  - intros p (T & _). pose proof (visible_text p T). pose proof (visible_lit (s2z "<?") eq_refl). pose proof (visible_lit (s2z "?>") eq_refl). vis.
  - intros p (n & w & q & _ & L & W & _ & T & _ & _ & ->). pose proof (visible_text q T). pose proof (visible_lit (s2z "<!") eq_refl). pose proof (visible_lit (s2z ">") eq_refl).
    assert (visible n) by (eapply Forall_impl; [|exact L]; unfold letter; cbn; lia). vis.
  - intros p (T & _). pose proof (visible_text p T). pose proof (visible_lit (s2z "<![CDATA[") eq_refl). pose proof (visible_lit (s2z "]]>") eq_refl). vis.
  - intros s v V. eapply visible_spells; exact V.
  - intros s v x n rest ks V I Vx C Vr. pose proof (visible_spells _ _ _ V). vis.
Qed.
Lemma visible_document s d : document s d -> visible s.
Proof.
  assert (B : forall s ks, body s ks -> visible s).
  { induction 1 as [w W|w x n rest ks W I B IH]; [now apply visible_spaces|]. pose proof (proj1 visible_items x n I). vis. }
  assert (M : forall m, m = [] \/ m = BOM -> visible m) by (intros m [-> | ->]; [constructor|now apply visible_lit]).
  intros [m w p c ks Hm W (T & _) Hc|m w p c ks Hm W (n & v & q & _ & L & V & _ & T & _ & _ & ->) Hc|m w x n a ks w' Hm W Hx Hn W']; pose proof (M m Hm).
  - pose proof (visible_text p T). pose proof (visible_lit (s2z "<?") eq_refl). pose proof (visible_lit (s2z "?>") eq_refl). pose proof (B c ks Hc). vis.
  - pose proof (visible_text q T). pose proof (visible_lit (s2z "<!") eq_refl). pose proof (visible_lit (s2z ">") eq_refl). pose proof (B c ks Hc).
    assert (visible n) by (eapply Forall_impl; [|exact L]; unfold letter; cbn; lia). vis.
  - pose proof (proj1 visible_items x _ Hx). vis.
Qed.
(** A title with a control character is saved without complaint, but as something that is no XML
    document, indented or not. *)
Theorem C72_control_character_refuted t1 c t2 : 1 <= c <= 8 ->
  exists s, admin_to_string (mkAdmin None None (Some (t1 ++ c :: t2)) None None None) true = Ok (Some s) /\ forall d, ~ document s d.
Proof.
  intro R. set (a := mkAdmin None None (Some (t1 ++ c :: t2)) None None None).
  destruct (part_text_spec Whole (guarded no_ws) [tree_admin a] Logic.I) as (nl & E & _).
  change (is_whole Whole) with true in E.
  rewrite (indented_text true [tree_admin a] (guarded no_ws) no_ws nl) in E; [|discriminate|intros; apply write_guarded|reflexivity].
  exists (save_text no_ws nl (new_xml [tree_admin a])). split; [exact E|].
  intros d D. apply visible_document in D. unfold visible in D. rewrite Forall_forall in D.
  assert (K : 9 <= c); [|lia]. apply D. unfold save_text. apply in_or_app. left.
  assert (Ek : exists k ks, text_kids (t1 ++ c :: t2) = k :: ks) by (destruct t1; cbn; eauto).
  assert (Ie : In c (escape (t1 ++ c :: t2))).
  { rewrite escape_app. apply in_or_app. right. cbn [escape flat_map]. apply in_or_app. left. unfold escape_char, entity_name.
    replace (c =? 38) with false by lia. replace (c =? 60) with false by lia. replace (c =? 62) with false by lia. replace (c =? 34) with false by lia. now left. }
  assert (It : In c (write_node no_ws [s2z "AdministrativeMetadata"; XML_DECL] (Elem (s2z "Title") [] (text_kids (t1 ++ c :: t2))))).
  { cbn [write_node no_ws app]. right. apply in_or_app. right. cbn [flat_map app]. replace (text_kids (t1 ++ c :: t2)) with [Opaque (t1 ++ c :: t2)] by (destruct t1; reflexivity).
    right. cbn [app flat_map write_node]. apply in_or_app. left. rewrite app_nil_r. exact Ie. }
  assert (Ia : In c (write_node no_ws [XML_DECL] (tree_admin a))).
  { change (tree_admin a) with (Elem (s2z "AdministrativeMetadata") [] [Elem (s2z "Title") [] (text_kids (t1 ++ c :: t2))]).
    cbn [write_node no_ws app]. right. apply in_or_app. right. cbn [flat_map app]. right. apply in_or_app. left. rewrite app_nil_r. exact It. }
  unfold new_xml. cbn [write_node no_ws app]. right. apply in_or_app. right. cbn [flat_map app]. right. apply in_or_app. left. rewrite app_nil_r. exact Ia.
Qed.
Print Assumptions C72_control_character_refuted.
(** Witnesses: the objects of the examples of C22 and C23 meet the hypotheses. *)
Example C72_witness : toc_is_valid ex_toc = true /\ toc_carried ex_toc /\ exists s d, toc_to_string ex_toc false = Ok (Some s) /\ document s d.
Proof.
  destruct C22_witness as (_ & V & C & _). split; [exact V|]. split; [exact C|].
  destruct (proj2 (proj2 (proj2 (proj2 (proj2 (proj2 (proj2 (proj2 (proj2 (proj2 (proj2 (proj2 C72_toc_documents))))))))))) ex_toc V C false) as (s & d & E & D & _). eauto.
Qed.
