(** C67, C68, C69: saving to strings, strings against files, and the writer over linked nodes. *)
From Verif Require Import CBase CBaseProofs XmlEntity XmlModel SpecXml XmlRound XmlRoots TocModel SpecToc ValidProofs TocXmlModel SpecTocXml TocXmlProofs TocXmlProofs2 TocXmlProofs3 TocXmlProofs5 TagsModel PropTocXml
  ControlModel SpecControl ControlProofs2 PropControl WsModel SpecWs WsProofs PropWs FileModel SpecFile FileProofs PropFile
  NodeModel SpecNode NodeBuild NodeProofs NodeProofs5 WriterModel SpecWriter WriterProofs WriterProofs2 WriterProofs3.

Lemma as_guarded {A} p saved ws (load : node -> option A) x : fits p (fst saved) -> indenting ws -> round_trips saved load x -> string_round_trips (as_string p true saved (guarded ws)) load x.
Proof. intros F I R. apply string_round; [exact F|apply indented_guarded; auto; exact no_ws_indenting|apply indented_guarded; auto]. Qed.
Lemma as_document {A} saved ws (load : node -> option A) x : indenting ws -> document_round_trips saved load x -> string_round_trips (as_string Whole true saved (guarded ws)) load x.
Proof. intros I R. apply string_round; [exact Logic.I|apply indented_guarded_document; auto; exact no_ws_indenting|apply indented_guarded_document; auto]. Qed.
Ltac stringed := apply as_guarded; [exact Logic.I|intros ? ? ?; apply rules_blank|].
Ltac stringed_doc := apply as_document; [intros ? ? ?; apply rules_blank|].

(** * C67: every save_string function, compact and indented, and loading the string it returns *)
Theorem C67_toc_strings split :
  (forall l, sections_is_valid (Some (Some l)) = true -> sections_carried l -> string_round_trips (sections_to_string (Some l)) load_sections (Some l)) /\
  (forall s, section_is_valid s = true -> section_range s -> string_round_trips (section_to_string s) load_section s) /\
  (forall d, layout_def_is_valid d = true -> layout_carried d -> string_round_trips (layout_to_string d) load_layout_def (layout_back d)) /\
  (forall l, layout_defs_is_valid (Some (Some l)) = true -> layouts_carried l -> string_round_trips (layouts_to_string (Some l)) load_layout_defs (back_list layout_back l)) /\
  (forall p, page_carried p -> string_round_trips (page_to_string p) load_page (page_back p)) /\
  (forall p, preview_is_valid (Some p) = true -> preview_carried p -> string_round_trips (preview_to_string p) load_preview (preview_back p)) /\
  (forall s, fsource_is_valid s = true -> fsource_carried s -> string_round_trips (fsource_to_string s) load_fsource (fsource_back s)) /\
  (forall l, Forall (fun s => fsource_is_valid s = true) l -> Forall fsource_carried l -> short l ->
     string_round_trips (fmetadata_to_string (Some l)) load_fmetadata (back_list fsource_back l)) /\
  (forall s, msource_is_valid s = true -> msource_carried s -> string_round_trips (msource_to_string s) (load_msource split) (msource_back split s)) /\
  (forall l, metadata_is_valid (Some (Some l)) = true -> Forall msource_carried l -> string_round_trips (metadata_to_string (Some l)) (load_metadata split) (back_list (msource_back split) l)) /\
  (forall r, reel_is_valid r = true -> reel_carried r -> string_round_trips (reel_to_string r) load_reel (reel_back r)) /\
  (forall l, Forall (fun r => reel_is_valid r = true) l -> reels_carried l -> short l -> string_round_trips (reels_to_string (Some l)) load_reels (back_list reel_back l)) /\
  (forall t0 t, toc_is_valid t = true -> toc_carried t -> string_round_trips (toc_to_string t) (load_toc split t0) (toc_back split t)).
Proof.
  repeat match goal with |- _ /\ _ => split end.
  - intros l V K. stringed. now apply C20_sections_round_trip.
  - intros s V K. stringed. now apply TocXmlRound.section_round.
  - intros d V K. stringed. now apply C20_definition_round_trip.
  - intros l V K. apply as_guarded; [|intros ? ? ?; apply rules_blank|].
    + unfold save_layout_defs. rewrite V. cbn [negb]. destruct (save_list _ _). cbn. eauto.
    + apply C20_collection_round_trip; [|exact K]. apply Forall_forall. cbn in V. rewrite forallb_forall in V. exact V.
  - intros p K. stringed. now apply C19_page_round_trip.
  - intros p V K. stringed. now apply C19_preview_round_trip.
  - intros s V K. stringed. apply (C21_file_metadata_round_trip [s]); auto; [unfold short; cbn; lia|now left].
  - intros l V K Sh. pose proof (C21_file_metadata_round_trip l V K Sh) as (R & _). apply as_guarded; [|intros ? ? ?; apply rules_blank|exact R].
    destruct (R no_ws true true no_ws_indenting) as (s & E & _). revert E. unfold save_object, save_fmetadata.
    destruct (negb (fmetadata_is_valid _)); [discriminate|]. intros _. destruct (_ =? 0); [cbn; eauto|]. destruct (save_list _ _). cbn. eauto.
  - intros s V K. stringed. now apply TocXmlRound.msource_round.
  - intros l V K. apply as_guarded; [|intros ? ? ?; apply rules_blank|].
    + unfold save_metadata. rewrite V. cbn [negb]. destruct (save_list _ _). cbn. eauto.
    + now apply C21_toc_metadata_round_trip.
  - intros r V K. stringed. now apply C22_reel_round_trip.
  - intros l V K Sh. stringed. now apply C22_reels_round_trip.
  - intros t0 t V K. stringed. now apply C22_toc_round_trip.
Qed.
Print Assumptions C67_toc_strings.
Theorem C67_control_strings :
  (forall a t, admin_carried a -> tech_carried t ->
     string_round_trips (control_to_string (mkControl (Some a) (Some t))) load_control (mkControl (Some (admin_back a)) (Some (tech_back t)))) /\
  (forall a, admin_carried a -> string_round_trips (admin_to_string a) (fun d => succeeded (load_admin d)) (admin_back a)) /\
  (forall t, tech_carried t -> te_tocs t <> None -> string_round_trips (tech_to_string t) (fun d => succeeded (load_tech d)) (tech_back t)) /\
  (forall f, format_carried f -> string_round_trips (format_to_string f) load_format (format_back f)).
Proof.
  split; [|split; [|split]].
  - intros a t A T. apply (string_round Whole (save_control (mkControl (Some a) (Some t))) ws_control); [exact Logic.I| |].
    + apply indented_guarded_document; [exact no_ws_indenting|]. now apply (C23_control_round_trip a t).
    + now apply (proj1 C48_indented_control a t).
  - intros a A. stringed_doc. now apply C23_admin_round_trip.
  - intros t T N. unfold tech_to_string. replace (match te_tocs t, te_format t with Some _, Some _ => true | _, _ => false end) with true.
    + stringed_doc. now apply C23_technical_round_trip.
    + destruct T as ((f & -> & _) & _). destruct (te_tocs t); congruence.
  - intros f F. stringed_doc. now apply C23_format_round_trip.
Qed.
Print Assumptions C67_control_strings.
(** A file entry in both data forms; lists of files compactly only (C48_files_refuted). *)
Theorem C67_file_strings :
  (forall f, file_is_valid f = true -> file_carried f ->
     string_round_trips (file_to_string false f) load_file (file_back f) /\ string_round_trips (file_to_string true f) load_file (file_back_v1 f)) /\
  (forall l, Forall (fun f => file_is_valid f = true) l -> files_carried l -> compact_string_round_trips (files_to_string (Some l)) load_files (back_list file_back l)).
Proof.
  split.
  - intros f V K. assert (S : forall v1, fits FirstChild (fst (save_file v1 f))) by (intro v1; unfold save_file; rewrite V; cbn [negb]; cbn; repeat match goal with |- context [let (_, _) := ?x in _] => destruct x end; cbn; eauto).
    destruct (C48_indented_file_string f V K) as (I1 & I2). split; (apply string_round; [apply S| |assumption]); (apply indented_guarded; [exact no_ws_indenting|]).
    + now apply C17_file_round_trip.
    + now apply C40_v1_round_trip.
  - intros l V K. apply string_round_compact; [exact Logic.I|]. apply indented_guarded; [exact no_ws_indenting|]. now apply C18_files_round_trip.
Qed.
Print Assumptions C67_file_strings.

Lemma unsaved p g saved cb compact : not_saved saved -> as_string p g saved cb compact = Ok None.
Proof.
  intro N. destruct (N no_ws true true) as (E & _). unfold as_string, save_object in *. destruct (snd saved); [discriminate|]. destruct g; reflexivity.
Qed.
(** An invalid object gives no string (pages are not checked, see C25). *)
Theorem C67_refused compact :
  (forall s, section_is_valid s = false -> section_to_string s compact = Ok None) /\
  (forall v, sections_is_valid (Some v) = false -> sections_to_string v compact = Ok None) /\
  (forall d, layout_def_is_valid d = false -> layout_to_string d compact = Ok None) /\
  (forall v, layout_defs_is_valid (Some v) = false -> layouts_to_string v compact = Ok None) /\
  (forall p, preview_is_valid (Some p) = false -> preview_to_string p compact = Ok None) /\
  (forall s, fsource_is_valid s = false -> fsource_to_string s compact = Ok None) /\
  (forall m, fmetadata_is_valid (Some m) = false -> fmetadata_to_string m compact = Ok None) /\
  (forall s, msource_is_valid s = false -> msource_to_string s compact = Ok None) /\
  (forall m, metadata_is_valid (Some m) = false -> metadata_to_string m compact = Ok None) /\
  (forall v1 f, file_is_valid f = false -> file_to_string v1 f compact = Ok None) /\
  (forall v, files_is_valid (Some v) = false -> files_to_string v compact = Ok None) /\
  (forall r, reel_is_valid r = false -> reel_to_string r compact = Ok None) /\
  (forall v, reels_is_valid (Some v) = false -> reels_to_string v compact = Ok None) /\
  (forall t, toc_is_valid t = false -> toc_to_string t compact = Ok None).
Proof.
  destruct C25_invalid_not_saved as (H1 & H2 & H3 & H4 & H5 & H6 & H7 & H8 & H9 & H10 & H11 & H12 & H13 & H14).
  repeat match goal with |- _ /\ _ => split end; intros; apply unsaved; auto.
Qed.
Print Assumptions C67_refused.

(** * C68 *)
Ltac whole := apply same_whole; intros K; split; [reflexivity|].
Ltac valid K := revert K; match goal with |- snd (?f _) = true -> _ => unfold f | |- snd (?f _ _) = true -> _ => unfold f end.
Theorem C68_same_document compact :
  (forall x, same_document (section_to_string x) (exactly (save_section x) (guarded ws_section) (section_to_file x)) no_declaration compact) /\
  (forall x, same_document (sections_to_string x) (exactly (save_sections (Some x)) (guarded ws_sections) (sections_to_file x)) no_declaration compact) /\
  (forall x, same_document (layout_to_string x) (exactly (save_layout_def x) (guarded ws_layout) (layout_to_file x)) no_declaration compact) /\
  (forall x, same_document (layouts_to_string x) (exactly (save_layout_defs (Some x)) (guarded ws_layouts) (layouts_to_file x)) declaration compact) /\
  (forall x, same_document (page_to_string x) (exactly (save_page x) (guarded ws_page) (page_to_file x)) no_declaration compact) /\
  (forall x, same_document (preview_to_string x) (exactly (save_preview (Some x)) (guarded ws_preview) (preview_to_file x)) no_declaration compact) /\
  (forall x, same_document (fsource_to_string x) (exactly (save_fsource x) (guarded ws_fsource) (fsource_to_file x)) no_declaration compact) /\
  (forall x, same_document (fmetadata_to_string x) (exactly (save_fmetadata (Some x)) (guarded ws_fmetadata) (fmetadata_to_file x)) declaration compact) /\
  (forall x, same_document (msource_to_string x) (exactly (save_msource x) (guarded ws_msource) (msource_to_file x)) no_declaration compact) /\
  (forall x, same_document (metadata_to_string x) (exactly (save_metadata (Some x)) (guarded ws_metadata) (metadata_to_file x)) declaration compact) /\
  (forall x, same_document (files_to_string x) (exactly (save_files (Some x)) ws_files (files_to_file x)) no_declaration compact) /\
  (forall x, same_document (reel_to_string x) (exactly (save_reel x) (guarded ws_reel) (reel_to_file x)) no_declaration compact) /\
  (forall x, same_document (reels_to_string x) (exactly (save_reels (Some x)) (guarded ws_reels) (reels_to_file x)) no_declaration compact) /\
  (forall x, same_document (toc_to_string x) (exactly (save_toc x) (guarded ws_toc_data) (toc_to_file x)) no_declaration compact) /\
  (forall x, same_document (admin_to_string x) (exactly (save_admin (Some x)) (guarded ws_administrative) (admin_to_file x)) no_declaration compact).
Proof.
  repeat match goal with |- _ /\ _ => split end; intro x.
  - whole. valid K. destruct (section_is_valid x); [reflexivity|discriminate].
  - whole. valid K. destruct (sections_is_valid (Some x)); [reflexivity|discriminate].
  - whole. reflexivity.
  - apply same_element; [reflexivity| | |].
    + unfold save_layout_defs. destruct (layout_defs_is_valid (Some x)); [left|right; reflexivity]. cbn [negb]. destruct (save_list _ _). cbn. eauto.
    + intro K. valid K. destruct (layout_defs_is_valid (Some x)); [reflexivity|discriminate].
    + intros _ doc ->. split; [reflexivity|]. eexists. split; [|reflexivity]. apply rules_blank.
  - whole. reflexivity.
  - whole. reflexivity.
  - whole. valid K. destruct (fsource_is_valid x); [reflexivity|discriminate].
  - apply same_element; [reflexivity| |reflexivity|].
    + unfold save_fmetadata. destruct (fmetadata_is_valid (Some x)); [left|right; reflexivity]. cbn [negb]. destruct (_ =? 0); [cbn; eauto|]. destruct (save_list _ _). cbn. eauto.
    + intros _ doc ->. split; [reflexivity|]. eexists. split; [|reflexivity]. apply rules_blank.
  - whole. valid K. destruct (msource_is_valid x); [reflexivity|discriminate].
  - apply same_element; [reflexivity| |reflexivity|].
    + unfold save_metadata. destruct (metadata_is_valid (Some x)); [left|right; reflexivity]. cbn [negb]. destruct (save_list _ _). cbn. eauto.
    + intros _ doc ->. split; [reflexivity|]. eexists. split; [|reflexivity]. apply rules_blank.
  - whole. reflexivity.
  - whole. valid K. destruct (reel_is_valid x); [reflexivity|discriminate].
  - whole. reflexivity.
  - whole. valid K. destruct (toc_is_valid x); [reflexivity|discriminate].
  - whole. reflexivity.
Qed.
Print Assumptions C68_same_document.
(** Technical metadata and control data: nothing is saved either way when a part is missing. *)
Theorem C68_same_control_document compact :
  (forall x, te_format x <> None -> te_tocs x <> None -> same_document (tech_to_string x) (exactly (save_tech (Some x)) (guarded ws_technical) (tech_to_file x)) no_declaration compact) /\
  (forall x, cd_admin x <> None -> cd_tech x <> None -> same_document (control_to_string x) (exactly (save_control x) ws_control (control_to_file x)) no_declaration compact) /\
  (forall x, te_format x = None \/ te_tocs x = None -> tech_to_string x compact = Ok None /\ forall nl can_open d name, tech_to_file x compact nl can_open d name = Ok (d, false)) /\
  (forall x, cd_admin x = None \/ cd_tech x = None -> control_to_string x compact = Ok None /\ forall nl can_open d name, control_to_file x compact nl can_open d name = Ok (d, false)).
Proof.
  split; [|split; [|split]].
  - intros x F T. apply same_whole. intros _. destruct (te_tocs x), (te_format x); try congruence; auto.
  - intros x F T. apply same_whole. intros _. destruct (cd_admin x), (cd_tech x); try congruence; auto.
  - intros x [E|E]; unfold tech_to_string, tech_to_file, as_string, store; rewrite E; destruct (te_tocs x); split; reflexivity.
  - intros x [E|E]; unfold control_to_string, control_to_file, as_string, store; rewrite E; destruct (cd_admin x); split; reflexivity.
Qed.
Print Assumptions C68_same_control_document.
(** One file entry: compactly the file holds the declaration and the string; the indented save to disk
    crashes although the one to a string does not. *)
Theorem C68_file_entry v1 f :
  same_document (file_to_string v1 f) (exactly (save_file v1 f) ws_file (file_to_file v1 f)) declaration true.
Proof.
  apply same_element; [reflexivity| |reflexivity|discriminate].
  unfold save_file. destruct (file_is_valid f); [left|right; reflexivity]. cbn [negb]. cbn. repeat match goal with |- context [let (_, _) := ?x in _] => destruct x end; cbn; eauto.
Qed.
Print Assumptions C68_file_entry.
Theorem C68_indented_entry_refuted v1 f : file_is_valid f = true -> file_carried f ->
  (exists s, file_to_string v1 f false = Ok (Some s)) /\ forall d name, exactly (save_file v1 f) ws_file (file_to_file v1 f) false true d name = UB.
Proof.
  intros V K. split.
  - destruct C67_file_strings as (H & _). destruct (H f V K) as (H1 & H2). destruct v1; [destruct (H2 false) as (s & E & _)|destruct (H1 false) as (s & E & _)]; eauto.
  - intros d name. apply (proj1 C52_indented_file_entries_refuted). exact V.
Qed.
Print Assumptions C68_indented_entry_refuted.

(** * C69: the writer over linked nodes *)
(** Any linked document, any node of it without next sibling (the root, or the only element below the
    declaration), any callback that looks at the node, what is below it and the names above it: the walk
    ends within two steps per node, touches allocated nodes only, and writes the tree. *)
Theorem C69_linked h ask cb c s n fuel : document h (plug c s) -> hnext c = None -> shows s n -> answers cb ask (plug c s) -> (2 * List.length (addrs s) <= fuel)%nat ->
  write_ptr fuel h (addr s) ask (Enter (addr s)) [] 0 = Some (write_col cb (ancestors c) n 0).
Proof. exact (write_ptr_spec h ask cb c s n fuel). Qed.
Print Assumptions C69_linked.
(** Without a callback: the document built by the calls of a save function is written as [write_node]
    writes its tree. *)
Theorem C69_built n h used rest fuel :
  List.length used = count n -> NoDup (used ++ rest) -> (forall x, In x (used ++ rest) -> h x = None) -> (2 * count n <= fuel)%nat ->
  exists h' col, make n None (used ++ rest) h = Ok (rest, h') /\
    write_ptr fuel h' (hd O used) (fun _ _ => Ok []) (Enter (hd O used)) [] 0 = Some (Ok (write_node no_ws [] n, col)).
Proof.
  intros Hu N F Hf. destruct (make_root n h used rest Hu N F) as (h' & t & E & Sh & A & Doc & _).
  assert (Ad : addr t = hd O used) by (destruct t; cbn in A |- *; subst used; reflexivity).
  pose proof (write_ptr_spec h' (fun _ _ => Ok []) (guarded no_ws) Hole t n fuel Doc eq_refl Sh) as W. rewrite A, Hu in W. specialize (W ltac:(intros ? ? ? ? ? ?; reflexivity) Hf).
  pose proof (col_writes (guarded no_ws) n [] 0) as C. rewrite write_guarded in C. cbn [ancestors] in W.
  destruct (write_col (guarded no_ws) [] n 0) as [(x, col)|]; [|discriminate]. cbn [obind fst] in C. injection C as ->.
  exists h', col. split; [exact E|]. rewrite <- Ad. exact W.
Qed.
Print Assumptions C69_built.
(** A node that has a next sibling is written together with what follows it. *)
Example C69_sibling : exists h t a s, document h t /\ In a (addrs t) /\
  write_ptr 100 h a (fun _ _ => Ok []) (Enter a) [] 0 = s /\ s <> Some (write_col (guarded no_ws) [s2z "r"] (Elem (s2z "x") [] []) 0) /\
  h a = Some (mkCell (Some O) None (Some 2%nat) None None (PElem (s2z "x") [])).
Proof.
  pose (h := fun x : nat => match x with
     | 0 => Some (mkCell None None None (Some 1) (Some 2) (PElem (s2z "r") []))
     | 1 => Some (mkCell (Some 0) None (Some 2) None None (PElem (s2z "x") []))
     | 2 => Some (mkCell (Some 0) (Some 1) None None None (PElem (s2z "y") []))
     | _ => None end%nat).
  exists h, (D 0%nat (PElem (s2z "r") []) [D 1%nat (PElem (s2z "x") []) []; D 2%nat (PElem (s2z "y") []) []]), 1%nat, (write_ptr 100 h 1 (fun _ _ => Ok []) (Enter 1) [] 0).
  split; [|split; [|split; [|split]]].
  - split; [cbn; auto 20|]. cbn. repeat constructor; cbn; intuition congruence.
  - cbn. auto.
  - reflexivity.
  - vm_compute. discriminate.
  - reflexivity.
Qed.

(** * Witnesses *)
Definition ex_string := Eval vm_compute in match toc_to_string ex_toc false with Ok (Some s) => s | _ => [] end.
Example C67_witness : toc_is_valid ex_toc = true /\ toc_carried ex_toc /\ toc_to_string ex_toc false = Ok (Some ex_string) /\ (200 < List.length ex_string)%nat.
Proof. split; [apply C22_witness|]. split; [apply C22_witness|]. split; [vm_compute; reflexivity|apply Nat.ltb_lt; vm_compute; reflexivity]. Qed.
Example C68_witness : match exactly (save_file false ex_file) ws_file (file_to_file false ex_file) true true ex_disk (s2z "f.xml") with
  | Ok (d', true) => match d' (s2z "f.xml"), file_to_string false ex_file true with
                     | Some x, Ok (Some y) => str_eqb x (s2z "<?xml version=""1.0"" encoding=""utf-8""?>" ++ y) | _, _ => false end
  | _ => false
  end = true.
Proof. vm_compute. reflexivity. Qed.
Example C69_witness : match make (new_xml (fst (save_sections (Some (Some [mkSection 1 0 0 10 10 0]))))) None (seq 5 20) (fun _ => None) with
  | Ok (_, h) => match write_ptr 100 h 5 (fun _ _ => Ok []) (Enter 5) [] 0 with Some (Ok (s, c)) => (c >? 0) && (100 <? zlen s) | _ => false end
  | UB => false
  end = true.
Proof. vm_compute. reflexivity. Qed.
