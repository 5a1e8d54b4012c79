(** The shapes of the saved trees. *)
From Verif Require Import CBase CBaseProofs XmlModel SpecXml TocModel SpecToc TocXmlModel TocXmlBase SpecTocXml TocXmlProofs TocXmlProofs2 TocXmlProofs3 TocXmlProofs5
  ControlModel SpecControl ControlProofs ControlProofs2 WsModel WsProofs SpecPretty PrettyProofs.
Import SpecXml.

Definition T (n : string) : shape := Of (s2z n) true [].
Definition L (n : string) : shape := Of (s2z n) false [].
Definition B (n : string) (inside : list shape) : shape := Of (s2z n) false inside.
Section Shapes.
Local Open Scope string_scope.
Local Open Scope list_scope.
Definition sh_sections := B "sections" [L "section"].
Definition sh_layout := B "previewLayout" [T "id"; T "name"; sh_sections].
Definition sh_layouts := B "layoutDefinitions" [sh_layout].
Definition sh_preview := B "preview" [T "dpi"; L "pages"].
Definition sh_fsource := B "source" [B "data" [Raw]].
Definition sh_fmetadata := B "metadata" [sh_fsource].
Definition sh_msource := B "source" [B "data" [Raw]; T "tags"].
Definition sh_metadata := B "metadata" [sh_msource].
Definition sh_data (v1 : bool) : list shape :=
  if v1 then [T "size"; B "start" [T "frame"; T "byte"]; B "end" [T "frame"; T "byte"]]
  else [B "data" [T "checksum"; T "size"; L "start"; L "end"]].
Definition sh_file (v1 : bool) := B "file" ([T "id"; T "uniqueId"; T "name"; T "date"; T "parentId"] ++ sh_data v1 ++ [sh_preview; sh_fmetadata]).
Definition sh_files := B "files" [sh_file false].
Definition sh_reel := B "reel" [T "id"; sh_files].
Definition sh_reels := B "reels" [sh_reel].
Definition sh_toc := B "Index" [T "indexType"; T "jobId"; T "reelId"; sh_metadata; sh_layouts; sh_reels].
Definition sh_admin := B "AdministrativeMetadata" [T "ReelId"; T "PrintReelId"; T "Title"; T "Description"; T "Creator"; T "CreationDate"].
Definition sh_config := B "work" [B "class" [L "property"]].
Definition sh_tech := B "TechnicalMetadata" [B "BoxerFormat" [sh_config; L "NULL"]; B "Tocs" [sh_files]; B "Applications" [sh_files]].
End Shapes.

Section Trees.
Variable P : node -> Prop.
Hypothesis HP : forall n a ks, str_eqb n (s2z "checksum") = false -> P (Elem n a ks).
Definition inside (b : bool) (ss : list shape) (k : node) : Prop := (b = true /\ exists s, k = Opaque s) \/ Exists (fun s => shaped P s k) ss.
Lemma fits_B n ss a ks : str_eqb (s2z n) (s2z "checksum") = false -> Forall (inside false ss) ks -> shaped P (B n ss) (Elem (s2z n) a ks).
Proof. intros E F. apply shaped_of; [now apply HP|exact F]. Qed.
Lemma fits_L n a : str_eqb (s2z n) (s2z "checksum") = false -> shaped P (L n) (Elem (s2z n) a []).
Proof. intro E. apply fits_B; [exact E|constructor]. Qed.
Lemma fits_T n a x : P (Elem (s2z n) a (text_kids x)) -> shaped P (T n) (Elem (s2z n) a (text_kids x)).
Proof. intro E. apply shaped_of; [exact E|]. destruct x; constructor; [left; eauto|constructor]. Qed.
Lemma inside_in ss s k : In s ss -> shaped P s k -> inside false ss k.
Proof. intros I F. right. apply Exists_exists. eauto. Qed.
Lemma inside_text ss n x : In (T n) ss -> str_eqb (s2z n) (s2z "checksum") = false -> Forall (inside false ss) (text_node (s2z n) x).
Proof. intros I E. destruct x; [|constructor]. cbn [text_node]. constructor; [|constructor]. apply (inside_in _ (T n)); [exact I|]. apply fits_T. now apply HP. Qed.
Lemma inside_int ss n z : In (T n) ss -> str_eqb (s2z n) (s2z "checksum") = false -> Forall (inside false ss) (int_node (s2z n) z).
Proof. intros I E. unfold int_node. constructor; [|constructor]. apply (inside_in _ (T n)); [exact I|]. apply fits_T. now apply HP. Qed.
Lemma inside_map {X} (f : X -> node) s ss l : In s ss -> (forall x, In x l -> shaped P s (f x)) -> Forall (inside false ss) (map f l).
Proof. intros I H. apply Forall_forall. intros k K. apply in_map_iff in K as (x & <- & Ix). apply (inside_in _ s); auto. Qed.
Lemma inside_one s ss k : In s ss -> shaped P s k -> Forall (inside false ss) [k].
Proof. intros I F. constructor; [|constructor]. now apply (inside_in _ s). Qed.
Ltac here := cbn [sh_data app]; repeat first [left; reflexivity | right].
Ltac fits_tree := repeat first [apply Forall_app; split | apply inside_text; [here|reflexivity] | apply inside_int; [here|reflexivity] | apply Forall_nil].
Lemma fits_section s : shaped P (L "section") (tree_section s).
Proof. unfold tree_section. apply fits_L. reflexivity. Qed.
Lemma fits_sections l : shaped P sh_sections (tree_sections l).
Proof. apply fits_B; [reflexivity|]. apply (inside_map _ (L "section")); [here|]. intros. apply fits_section. Qed.
Lemma fits_layout d : shaped P sh_layout (tree_layout d).
Proof. unfold tree_layout. apply fits_B; [reflexivity|]. fits_tree. apply (inside_one sh_sections); [here|]. apply fits_sections. Qed.
Lemma fits_layouts l : shaped P sh_layouts (tree_layouts l).
Proof. apply fits_B; [reflexivity|]. apply (inside_map _ sh_layout); [here|]. intros. apply fits_layout. Qed.
Lemma fits_preview p : shaped P sh_preview (tree_preview p).
Proof.
  apply fits_B; [reflexivity|]. apply Forall_app. split; [destruct (0 <=? pv_dpi p); fits_tree|]. apply (inside_map _ (L "pages")); [here|].
  intros x _. unfold tree_page. apply fits_L. reflexivity.
Qed.
Lemma fits_data a d : shaped P (B "data" [Raw]) (Elem (s2z "data") a [new_cdata d]).
Proof. apply fits_B; [reflexivity|]. apply (inside_one Raw); [here|]. apply shaped_raw. Qed.
Lemma fits_fsource s : shaped P sh_fsource (tree_fsource s).
Proof. apply fits_B; [reflexivity|]. destruct (fs_data s); [|constructor]. apply (inside_one (B "data" [Raw])); [here|]. apply fits_data. Qed.
Lemma fits_fmetadata l : shaped P sh_fmetadata (tree_fmetadata l).
Proof. apply fits_B; [reflexivity|]. apply (inside_map _ sh_fsource); [here|]. intros. apply fits_fsource. Qed.
Lemma fits_msource s : shaped P sh_msource (tree_msource s).
Proof. apply fits_B; [reflexivity|]. fits_tree. destruct (ms_data s); [|constructor]. apply (inside_one (B "data" [Raw])); [here|]. apply fits_data. Qed.
Lemma fits_metadata l : shaped P sh_metadata (tree_metadata l).
Proof. apply fits_B; [reflexivity|]. apply (inside_map _ sh_msource); [here|]. intros. apply fits_msource. Qed.
Lemma fits_file v1 f : (forall c, f_checksum f = Some c -> P (Elem (s2z "checksum") [] (text_kids c))) -> shaped P (sh_file v1) (tree_file v1 f).
Proof.
  intro C. apply fits_B; [reflexivity|]. fits_tree.
  - unfold tail_parent. destruct (f_parent_id f =? FILE_NO_PARENT); fits_tree.
  - unfold tail_data. destruct (digitalb f); [|constructor]. destruct v1.
    + unfold save_data_v1. fits_tree. constructor; [|constructor; [|constructor]].
      * apply (inside_in _ (B "start" [T "frame"; T "byte"])); [here|]. apply fits_B; [reflexivity|]. fits_tree.
      * apply (inside_in _ (B "end" [T "frame"; T "byte"])); [here|]. apply fits_B; [reflexivity|]. fits_tree.
    + unfold save_data_v2. apply (inside_one (B "data" [T "checksum"; T "size"; L "start"; L "end"])); [here|]. apply fits_B; [reflexivity|]. fits_tree.
      * destruct (f_checksum f) as [c|]; [|constructor]. cbn [text_node]. apply (inside_one (T "checksum")); [here|]. apply fits_T. now apply C.
      * constructor; [|constructor; [|constructor]]; [apply (inside_in _ (L "start"))|apply (inside_in _ (L "end"))]; try here; apply fits_L; reflexivity.
  - unfold tail_preview. destruct (previewedb f); [|constructor]. destruct (f_preview f) as [p|]; [|constructor].
    apply (inside_one sh_preview); [destruct v1; here|]. apply fits_preview.
  - unfold tail_meta. destruct (fsources_of f) as [|x l]; [constructor|]. apply (inside_one sh_fmetadata); [destruct v1; here|]. apply fits_fmetadata.
Qed.
Hypothesis HC : forall c, P (Elem (s2z "checksum") [] (text_kids c)).
Lemma fits_files l : shaped P sh_files (tree_files l).
Proof. apply fits_B; [reflexivity|]. apply (inside_map _ (sh_file false)); [here|]. intros. apply fits_file. intros; apply HC. Qed.
Lemma fits_reel r : shaped P sh_reel (tree_reel r).
Proof. apply fits_B; [reflexivity|]. fits_tree. unfold tail_files. destruct (r_files r); [|constructor]. apply (inside_one sh_files); [here|]. apply fits_files. Qed.
Lemma fits_reels l : shaped P sh_reels (tree_reels l).
Proof. apply fits_B; [reflexivity|]. apply (inside_map _ sh_reel); [here|]. intros. apply fits_reel. Qed.
Lemma fits_toc t : shaped P sh_toc (tree_toc t).
Proof.
  apply fits_B; [reflexivity|]. fits_tree.
  - unfold tail_md. destruct (msources_of t) as [|x l]; [constructor|]. apply (inside_one sh_metadata); [here|]. apply fits_metadata.
  - unfold tail_ld. destruct (layouts_of t) as [|x l]; [constructor|]. apply (inside_one sh_layouts); [here|]. apply fits_layouts.
  - unfold tail_rl. destruct (reels_of t) as [|x l]; [constructor|]. apply (inside_one sh_reels); [here|]. apply fits_reels.
Qed.
Lemma fits_admin a : shaped P sh_admin (tree_admin a).
Proof. apply fits_B; [reflexivity|]. unfold admin_tags. cbn [flat_map fst snd]. fits_tree. Qed.
Lemma fits_config c : shaped P sh_config (save_config c).
Proof.
  apply fits_B; [reflexivity|]. apply (inside_map _ (B "class" [L "property"])); [here|]. intros g _. unfold save_class. apply fits_B; [reflexivity|].
  destruct (get_key_by_value _ _); [apply (inside_one (L "property")); [here|]; apply fits_L; reflexivity|].
  apply Forall_forall. intros k K. apply in_flat_map in K as (x & _ & K). unfold save_property in K.
  destruct (str_eqb (fst x) VERSION); [destruct K|]. destruct K as [<- |[]]. apply (inside_in _ (L "property")); [here|]. apply fits_L. reflexivity.
Qed.
Lemma fits_format f : shaped P (match bf_config f with Some _ => sh_config | None => L "NULL" end) (tree_format f).
Proof. unfold tree_format. destruct (bf_config f); [apply fits_config|]. apply fits_L. reflexivity. Qed.
Lemma fits_tech f t : shaped P sh_tech (tree_tech f t).
Proof.
  apply fits_B; [reflexivity|]. constructor; [|apply Forall_app; split].
  - apply (inside_in _ (B "BoxerFormat" [sh_config; L "NULL"])); [here|]. apply fits_B; [reflexivity|]. pose proof (fits_format f) as F.
    apply (inside_one (match bf_config f with Some _ => sh_config | None => L "NULL" end)); [destruct (bf_config f); here|exact F].
  - unfold tree_named. destruct (te_tocs t); [|constructor]. apply (inside_one (B "Tocs" [sh_files])); [here|]. apply fits_B; [reflexivity|]. apply (inside_one sh_files); [here|]. apply fits_files.
  - unfold tree_named. destruct (te_applications t); [|constructor]. apply (inside_one (B "Applications" [sh_files])); [here|]. apply fits_B; [reflexivity|]. apply (inside_one sh_files); [here|]. apply fits_files.
Qed.
End Trees.

(** * The callbacks look at the names only *)
Definition any (t : node) : Prop := True.
Definition filled (t : node) : Prop := node_name t = Some (s2z "checksum") -> has_text t = true.
Ltac named_rules := split; [intros path n a ks p _ _; reflexivity|intros path x p _; reflexivity].
Lemma named_admin : by_names any ws_administrative. Proof. named_rules. Qed.
Lemma named_format : by_names any ws_format. Proof. named_rules. Qed.
Lemma named_section : by_names any ws_section. Proof. named_rules. Qed.
Lemma named_preview : by_names any ws_preview. Proof. named_rules. Qed.
Lemma named_layout : by_names any ws_layout. Proof. named_rules. Qed.
Lemma named_layouts : by_names any ws_layouts. Proof. named_rules. Qed.
Lemma named_fsource : by_names any ws_fsource. Proof. named_rules. Qed.
Lemma named_fmetadata : by_names any ws_fmetadata. Proof. named_rules. Qed.
Lemma named_msource : by_names any ws_msource. Proof. named_rules. Qed.
Lemma named_metadata : by_names any ws_metadata. Proof. named_rules. Qed.
Lemma named_tech : by_names any ws_technical. Proof. named_rules. Qed.
Lemma named_reel : by_names any ws_reel. Proof. named_rules. Qed.
Lemma named_reels : by_names any ws_reels. Proof. named_rules. Qed.
Lemma named_toc : by_names any ws_toc_data. Proof. named_rules. Qed.
Lemma never a h : (a <&&> Ok false) <&&> Ok h = a <&&> Ok false.
Proof. destruct a as [[]|]; reflexivity. Qed.
Lemma named_file : by_names filled (unchecked ws_file).
Proof.
  split.
  - intros [|q path] n a ks p N F; [congruence|]. unfold unchecked, ws_file, iso. cbn [nth_error].
    change (node_name_or (Elem n a ks)) with n. change (node_name_or (sample n)) with n. change (has_text (sample n)) with true.
    destruct (is "checksum" n) eqn:E.
    + rewrite F; [reflexivity|]. apply str_eqb_eq in E. subst n. reflexivity.
    + rewrite !never. reflexivity.
  - intros [|q path] x p N; [congruence|]. unfold unchecked, ws_file, iso. cbn [nth_error].
    change (is "checksum" (node_name_or (cdata_node x))) with false. change (is "checksum" (node_name_or (sample raw_name))) with false. rewrite !never. reflexivity.
Qed.
