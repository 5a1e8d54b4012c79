(** Control data: administrative and technical metadata, whole documents, normal forms. *)
From Verif Require Import CBase CBaseProofs XmlEntity XmlModel SpecXml EntityProofs Utf8Proofs TrimProofs XmlProofs XmlText XmlRound SimProofs
  TocModel SpecToc ValidProofs EqualProofs TocXmlModel TocXmlBase SpecTocXml TocXmlProofs TocXmlProofs2 TocXmlProofs3 TocXmlProofs4 TocXmlProofs5 TocXmlNorm
  TocXmlRound XmlRoots ControlModel SpecControl ControlProofs.

(** * Administrative metadata *)
Definition tree_admin (a : admin) : node := Elem (s2z "AdministrativeMetadata") [] (flat_map (fun p => text_node (fst p) (snd p)) (admin_tags a)).
Lemma load_field_sim n {P : plain n} t t' : sim t t' -> (forall x, find_elem n t = Some x -> only_text x) -> load_field t' n = load_field t n.
Proof.
  intros S O. unfold load_field. pose proof (sim_find n _ _ S) as F. destruct (find_elem n t) as [x|]; destruct (find_elem n t') as [y|]; try (exfalso; exact F); [|reflexivity].
  f_equal. rewrite (sim_text x y F (O x eq_refl)). reflexivity.
Qed.
Lemma find_tag n m s l : is_special n = false -> find_in n (text_node m s ++ l) =
  if str_eqb m n then match s with Some x => Some (Elem m [] (text_kids x)) | None => find_in n l end else find_in n l.
Proof. intro B. rewrite find_in_app, find_in_text by exact B. destruct (str_eqb m n); [|reflexivity]. destruct s; reflexivity. Qed.
Lemma field_text m s : (match node_text (Elem m [] (text_kids s)) with Some x => x | None => [] end) = strip s.
Proof. destruct s as [|c l]; [reflexivity|]. cbn [text_kids node_text]. apply strip_trim. Qed.
Ltac admin_find := unfold tree_admin, admin_tags; cbn [flat_map fst snd ad_reel_id ad_print_reel_id ad_title ad_description ad_creator ad_creation_date]; rewrite find_elem_in; repeat (rewrite find_tag by reflexivity; lits); rewrite ?find_in_nil.
Ltac admin_field := unfold load_field; admin_find;
  match goal with |- context [match ?s with Some _ => Some (Elem _ _ _) | None => _ end] => destruct s end; [cbn [field_back option_map]; f_equal; apply field_text|reflexivity].
Lemma load_admin_fields a x : sim (tree_admin a) x ->
  mkAdmin (load_field x (s2z "ReelId")) (load_field x (s2z "PrintReelId")) (load_field x (s2z "Title"))
          (load_field x (s2z "Description")) (load_field x (s2z "Creator")) (load_field x (s2z "CreationDate")) = admin_back a.
Proof.
  intro S. rewrite (load_field_sim (s2z "ReelId") _ _ S), (load_field_sim (s2z "PrintReelId") _ _ S), (load_field_sim (s2z "Title") _ _ S), (load_field_sim (s2z "Description") _ _ S), (load_field_sim (s2z "Creator") _ _ S), (load_field_sim (s2z "CreationDate") _ _ S).
  - destruct a as [f1 f2 f3 f4 f5 f6]. unfold admin_back. cbn [ad_reel_id ad_print_reel_id ad_title ad_description ad_creator ad_creation_date].
    f_equal; admin_field.
  - intro y; admin_find; destruct (ad_creation_date a); intro E; [injection E as <-; apply text_node_only|discriminate].
  - intro y; admin_find; destruct (ad_creator a); intro E; [injection E as <-; apply text_node_only|discriminate].
  - intro y; admin_find; destruct (ad_description a); intro E; [injection E as <-; apply text_node_only|discriminate].
  - intro y; admin_find; destruct (ad_title a); intro E; [injection E as <-; apply text_node_only|discriminate].
  - intro y; admin_find; destruct (ad_print_reel_id a); intro E; [injection E as <-; apply text_node_only|discriminate].
  - intro y; admin_find; destruct (ad_reel_id a); intro E; [injection E as <-; apply text_node_only|discriminate].
Qed.
Lemma wf_admin a : admin_carried a -> wf (tree_admin a).
Proof.
  intros (C1 & C2 & C3 & C4 & C5 & C6). unfold tree_admin, admin_tags. apply wf_build; [name|apply no_attrs|]. cbn [flat_map fst snd].
  assert (K : forall s, carried s -> opt_is_text s) by (intros [x|] H; [now apply H|exact I]).
  repeat (apply Forall_app; split; [apply wf_text_node; [name|now apply K]|]). constructor.
Qed.
Definition NADMIN := [s2z "AdministrativeMetadata"; s2z "ReelId"; s2z "PrintReelId"; s2z "Title"; s2z "Description"; s2z "Creator"; s2z "CreationDate"].
Lemma within_admin a : within NADMIN (tree_admin a) = true.
Proof.
  apply within_elem; [reflexivity|]. unfold admin_tags. cbn [flat_map fst snd]. rewrite !forallb_app.
  rewrite !within_text_node by reflexivity. reflexivity.
Qed.

(** * Technical metadata *)
Definition tree_named (n : cstr) (v : option files) : list node := match v with None => [] | Some _ => [Elem n [] [tree_files (list_of v)]] end.
Definition tree_tech (f : bformat) (t : tech) : node :=
  Elem (s2z "TechnicalMetadata") [] (tree_boxer f :: tree_named (s2z "Tocs") (te_tocs t) ++ tree_named (s2z "Applications") (te_applications t)).
Lemma save_named_ok n v : named_files_carried v -> save_named_files n v = (tree_named n v, true).
Proof.
  intros (C & V). destruct v as [v|]; [|reflexivity]. unfold save_named_files. rewrite save_files_ok; [destruct v; reflexivity| |].
  - cbn [files_is_valid]. rewrite forallb_forall. rewrite Forall_forall in V. destruct v; exact V.
  - apply files_short in C. destruct v; exact C.
Qed.
Lemma save_tech_ok t f : te_format t = Some f -> named_files_carried (te_tocs t) -> named_files_carried (te_applications t) ->
  save_tech (Some t) = ([tree_tech f t], true).
Proof.
  intros E C1 C2. unfold save_tech. rewrite E. cbn [save_format]. rewrite !save_named_ok by assumption. cbn [negb].
  unfold tree_tech. cbn [app]. reflexivity.
Qed.
Lemma load_named_files n v t : named_files_carried v -> sim (Elem n [] [tree_files (list_of v)]) t -> load_files t = Some (back_list file_back (list_of v)).
Proof.
  intros (C & V) S. unfold load_files. apply load_file_nodes; auto.
  pose proof (sim_find_all (s2z "file") _ _ S) as F. unfold tree_files in F. rewrite find_all_in, all_in_cons, find_all_in, all_files_in in F. cbn [named] in F.
  change (str_eqb (s2z "files") (s2z "file")) with false in F. cbv iota in F. unfold all_in in F. cbn [flat_map filter app] in F. rewrite app_nil_r in F. exact F.
Qed.
Definition NBOX := s2z "BoxerFormat" :: s2z "NULL" :: NFMT.
Lemma within_boxer f : within NBOX (tree_boxer f) = true.
Proof.
  apply within_elem; [reflexivity|]. cbn [forallb]. rewrite andb_true_r. unfold tree_format. destruct (bf_config f); [|reflexivity].
  eapply within_incl; [|apply within_config]. reflexivity.
Qed.
Lemma within_named_files n v : forallb (within (n :: NFILES)) (tree_named n v) = true.
Proof.
  destruct v as [v|]; [|reflexivity]. cbn [tree_named forallb]. rewrite andb_true_r. apply within_elem; [cbn; now rewrite str_eqb_refl|].
  cbn [forallb]. rewrite andb_true_r. eapply within_mono; [|apply within_files]. intros m H. cbn [in_names existsb]. unfold in_names in H. rewrite H. apply orb_true_r.
Qed.
Lemma find_named n v : is_special n = false -> find_in n (tree_named n v) = match v with None => None | Some _ => Some (Elem n [] [tree_files (list_of v)]) end.
Proof. intro B. destruct v as [v|]; [|reflexivity]. cbn [tree_named]. rewrite find_in_cons. cbn [named]. now rewrite str_eqb_refl. Qed.
Lemma tech_parts f t :
  find_elem (s2z "BoxerFormat") (tree_tech f t) = Some (tree_boxer f) /\
  find_elem (s2z "Tocs") (tree_tech f t) = match te_tocs t with None => None | Some _ => Some (Elem (s2z "Tocs") [] [tree_files (list_of (te_tocs t))]) end /\
  find_elem (s2z "Applications") (tree_tech f t) = match te_applications t with None => None | Some _ => Some (Elem (s2z "Applications") [] [tree_files (list_of (te_applications t))]) end.
Proof.
  unfold tree_tech. rewrite !find_elem_in, !find_in_cons. change (named (s2z "BoxerFormat") (tree_boxer f)) with true.
  change (named (s2z "Tocs") (tree_boxer f)) with false. change (named (s2z "Applications") (tree_boxer f)) with false. cbv iota.
  rewrite !(fun n A B => within_find NBOX n _ (within_boxer f) A B) by reflexivity.
  rewrite !find_in_app. rewrite !find_named by reflexivity. split; [reflexivity|]. split.
  - destruct (te_tocs t); [reflexivity|]. rewrite (within_find_in _ (s2z "Tocs") _ (within_named_files (s2z "Applications") (te_applications t))) by reflexivity. reflexivity.
  - rewrite (within_find_in _ (s2z "Applications") _ (within_named_files (s2z "Tocs") (te_tocs t))) by reflexivity. reflexivity.
Qed.
Lemma load_tech_sim t f d x : te_format t = Some f -> format_carried f -> named_files_carried (te_tocs t) -> named_files_carried (te_applications t) ->
  find_elem (s2z "TechnicalMetadata") d = Some x -> sim (tree_tech f t) x -> load_tech d = (tech_back t, true).
Proof.
  intros E Cf C1 C2 Ef S. unfold load_tech. rewrite Ef. destruct (tech_parts f t) as (P1 & P2 & P3).
  pose proof (sim_find (s2z "BoxerFormat") _ _ S) as F1. pose proof (sim_find (s2z "Tocs") _ _ S) as F2. pose proof (sim_find (s2z "Applications") _ _ S) as F3.
  rewrite P1 in F1. rewrite P2 in F2. rewrite P3 in F3.
  destruct (find_elem (s2z "BoxerFormat") x) as [b|]; [|destruct F1]. cbn [sim_opt] in F1.
  rewrite (load_format_sim f b Cf (ex_intro _ _ (ex_intro _ _ F1))).
  assert (O : opt_load load_files (find_elem (s2z "Tocs") x) = Some (named_files_back (te_tocs t))).
  { destruct (te_tocs t) as [v|] eqn:Q; destruct (find_elem (s2z "Tocs") x) as [y|]; try (exfalso; exact F2); [|reflexivity].
    cbn [opt_load]. rewrite (load_named_files (s2z "Tocs") (Some v)); [reflexivity|exact C1|exact F2]. }
  rewrite O. unfold tech_back. rewrite E. cbn [option_map].
  destruct (te_applications t) as [v|] eqn:Q; destruct (find_elem (s2z "Applications") x) as [y|]; try (exfalso; exact F3); [|reflexivity].
  rewrite (load_named_files (s2z "Applications") (Some v)); [reflexivity|exact C2|exact F3].
Qed.
Lemma wf_named n v : name_ok n -> named_files_carried v -> Forall wf (tree_named n v).
Proof. intros N (C & _). destruct v as [v|]; [|constructor]. cbn [tree_named]. constructor; [|constructor]. apply wf_build; [exact N|apply no_attrs|]. constructor; [now apply wf_files|constructor]. Qed.
Lemma wf_tech t f : format_carried f -> named_files_carried (te_tocs t) -> named_files_carried (te_applications t) -> wf (tree_tech f t).
Proof.
  intros Cf C1 C2. unfold tree_tech. apply wf_build; [name|apply no_attrs|]. constructor.
  - apply wf_build; [name|apply no_attrs|]. constructor; [now apply wf_format|constructor].
  - apply Forall_app. split; apply wf_named; auto; name.
Qed.

(** * Documents *)
Lemma document_by {A} (load : node -> option A) saved ks x : saved = (ks, true) -> ks <> [] -> Forall wf ks ->
  (forall d, sim (new_xml ks) d -> load d = Some x) -> document_round_trips saved load x.
Proof.
  intros -> N W H ws nl I. unfold save_object. cbn [fst snd]. eexists. split; [reflexivity|]. split; [|now apply saved_document_text].
  destruct (save_load_roots ws nl ks I W N) as (d & E & S). unfold load_object. rewrite E, (H d S).
  destruct (save_text ws nl (new_xml ks)) eqn:Q; [vm_compute in E; discriminate|reflexivity].
Qed.
Lemma doc_find n a ks d : sim (new_xml [Elem n a ks]) d -> is_special n = false -> exists x, find_elem n d = Some x /\ sim (Elem n a ks) x.
Proof.
  intros S B. pose proof (sim_find n (P := special_plain n B) _ _ S) as F. unfold new_xml in F. rewrite find_elem_in, find_in_cons in F. cbn [named] in F. rewrite str_eqb_refl in F.
  destruct (find_elem n d) as [x|]; [|destruct F]. exists x. auto.
Qed.
(** A load function whose C result is the second component. *)
Definition succeeded {A} (p : A * bool) : option A := if snd p then Some (fst p) else None.
Lemma admin_round a : admin_carried a -> document_round_trips (save_admin (Some a)) (fun d => succeeded (load_admin d)) (admin_back a).
Proof.
  intro C. apply (document_by _ _ [tree_admin a]); [reflexivity|discriminate|(constructor; [now apply wf_admin|constructor])|].
  intros d S. destruct (doc_find _ _ _ _ S eq_refl) as (x & E & Sx). unfold load_admin. rewrite E. unfold succeeded. cbn [fst snd]. f_equal. now apply load_admin_fields.
Qed.
Lemma format_round f : format_carried f -> document_round_trips (save_format (Some f)) load_format (format_back f).
Proof.
  intro C. apply (document_by _ _ [tree_format f]); [reflexivity|discriminate|(constructor; [now apply wf_format|constructor])|].
  intros d S. apply load_format_sim; [exact C|]. exists XML_DECL, []. exact S.
Qed.
Lemma tech_round t : tech_carried t -> document_round_trips (save_tech (Some t)) (fun d => succeeded (load_tech d)) (tech_back t).
Proof.
  intros ((f & E & Cf) & C1 & C2). apply (document_by _ _ [tree_tech f t]); [now apply save_tech_ok|discriminate|(constructor; [now apply wf_tech|constructor])|].
  intros d S. destruct (doc_find _ _ _ _ S eq_refl) as (x & Ex & Sx). rewrite (load_tech_sim t f d x E Cf C1 C2 Ex Sx). reflexivity.
Qed.
Lemma control_round a t : admin_carried a -> tech_carried t ->
  document_round_trips (save_control_string (mkControl (Some a) (Some t))) load_control (mkControl (Some (admin_back a)) (Some (tech_back t))).
Proof.
  intros Ca ((f & E & Cf) & C1 & C2). apply (document_by _ _ [tree_admin a; tree_tech f t]).
  - unfold save_control_string, save_control. cbn [cd_admin cd_tech save_admin]. rewrite (save_tech_ok t f) by assumption. reflexivity.
  - discriminate.
  - constructor; [now apply wf_admin|]. constructor; [now apply wf_tech|constructor].
  - intros d S. pose proof (sim_find (s2z "AdministrativeMetadata") _ _ S) as F1. pose proof (sim_find (s2z "TechnicalMetadata") _ _ S) as F2.
    unfold new_xml in F1, F2. rewrite find_elem_in, !find_in_cons in F1, F2.
    rewrite (within_find _ (s2z "TechnicalMetadata") _ (within_admin a)) in F2 by reflexivity.
    change (named (s2z "AdministrativeMetadata") (tree_admin a)) with true in F1. change (named (s2z "TechnicalMetadata") (tree_admin a)) with false in F2.
    change (named (s2z "TechnicalMetadata") (tree_tech f t)) with true in F2. cbv iota in F1, F2.
    unfold load_control. destruct (find_elem (s2z "AdministrativeMetadata") d) as [x|] eqn:Ex; [|destruct F1].
    destruct (find_elem (s2z "TechnicalMetadata") d) as [y|] eqn:Ey; [|destruct F2]. cbn [sim_opt] in F1, F2.
    rewrite (load_tech_sim t f d y E Cf C1 C2 Ey F2). unfold load_admin. rewrite Ex. cbn [fst]. now rewrite (load_admin_fields a x F1).
Qed.

(** * Normal forms *)
Lemma field_clean_back s : clean s -> field_back s = s.
Proof. intro C. destruct s as [x|]; [|reflexivity]. cbn. now rewrite (C x eq_refl). Qed.
Lemma admin_clean_back a : admin_clean a -> admin_back a = a.
Proof. intros (C1 & C2 & C3 & C4 & C5 & C6). destruct a. unfold admin_back. cbn in *. now rewrite !field_clean_back. Qed.
Lemma field_equal_iff a b : field_equal a b = true <-> a = b.
Proof. destruct a, b; cbn; rewrite ?str_eqb_eq; split; congruence. Qed.
Lemma admin_equal_iff a b : admin_equal a b = true <-> a = b.
Proof.
  unfold admin_equal. destruct a, b. cbn. rewrite !andb_true_iff, !field_equal_iff. split.
  - intros (((((-> & ->) & ->) & ->) & ->) & ->). reflexivity.
  - intro E. injection E as -> -> -> -> -> ->. auto 10.
Qed.
Lemma lookup_filter {V} (f : cstr * V -> bool) k (l : table V) : (forall v, In (k, v) l -> f (k, v) = true) -> lookup k (filter f l) = lookup k l.
Proof.
  induction l as [|(k', v) l IH]; intro H; [reflexivity|]. cbn [filter]. destruct (str_eqb k' k) eqn:E.
  - apply str_eqb_eq in E. subst k'. rewrite (H v (or_introl eq_refl)). cbn [lookup]. now rewrite str_eqb_refl.
  - assert (IH' : lookup k (filter f l) = lookup k l) by (apply IH; intros w I; apply H; now right).
    destruct (f (k', v)); cbn [lookup]; rewrite ?E; exact IH'.
Qed.
Lemma lookup_filter_none {V} (f : cstr * V -> bool) k (l : table V) : (forall v, f (k, v) = false) -> lookup k (filter f l) = None.
Proof.
  intro H. induction l as [|(k', v) l IH]; [reflexivity|]. cbn [filter]. destruct (f (k', v)) eqn:F; [|exact IH]. cbn [lookup].
  destruct (str_eqb k' k) eqn:E; [|exact IH]. apply str_eqb_eq in E. subst k'. now rewrite H in F.
Qed.
Lemma neqb_nil (s : cstr) : s <> [] -> negb (str_eqb s []) = true.
Proof. destruct s; [congruence|reflexivity]. Qed.
Lemma props_back_same ps : Forall (fun p => fst p <> [] /\ (snd p <> [] \/ fst p = VERSION)) ps -> same_table (props_back ps) ps.
Proof.
  intros F k. unfold props_back. rewrite lookup_app. destruct (str_eqb k VERSION) eqn:E.
  - apply str_eqb_eq in E. subst k. destruct (lookup VERSION ps); [reflexivity|]. cbn [lookup]. apply lookup_filter_none. reflexivity.
  - match goal with |- context [lookup k ?m] => assert (H : lookup k m = None) end.
    { destruct (lookup VERSION ps); [|reflexivity]. cbn [lookup]. destruct (str_eqb VERSION k) eqn:Q; [|reflexivity]. apply str_eqb_eq in Q. subst k. discriminate. }
    rewrite H. apply lookup_filter. intros v I. rewrite Forall_forall in F. destruct (F _ I) as (N & [M|M]); cbn [fst snd] in *.
    + rewrite E, !neqb_nil by assumption. reflexivity.
    + subst k. discriminate E.
Qed.
Lemma props_back_nonempty ps : ps <> [] -> Forall (fun p => fst p <> [] /\ (snd p <> [] \/ fst p = VERSION)) ps -> props_back ps <> [].
Proof.
  intros N F H. destruct ps as [|(k, v) ps]; [congruence|]. pose proof (props_back_same _ F k) as S. rewrite H in S. cbn [lookup] in S. rewrite str_eqb_refl in S. discriminate.
Qed.
Lemma config_back_groups c : config_clean c -> cf_groups (config_back c) = map (fun g => (fst g, props_back (snd g))) (cf_groups c).
Proof.
  intros (_ & F). unfold config_back. cbn [cf_groups]. unfold table in *. induction F as [|g gs (N1 & N2 & Fp) F IH]; [reflexivity|]. cbn [filter].
  rewrite neqb_nil by exact N1. cbn [map filter snd fst]. pose proof (props_back_nonempty _ N2 Fp) as P. unfold table in *. destruct (props_back (snd g)) eqn:Q; [congruence|]. f_equal. exact IH.
Qed.
Lemma lookup_map {V W} (f : V -> W) k (l : table V) : lookup k (map (fun g => (fst g, f (snd g))) l) = option_map f (lookup k l).
Proof. induction l as [|(k', v) l IH]; [reflexivity|]. cbn. destruct (str_eqb k' k); [reflexivity|exact IH]. Qed.
Lemma lookup_in {V} k (v : V) l : lookup k l = Some v -> In (k, v) l.
Proof. induction l as [|(k', v') l IH]; [discriminate|]. cbn. destruct (str_eqb k' k) eqn:E; [|auto]. apply str_eqb_eq in E. intro H. injection H as ->. left. congruence. Qed.
Lemma config_back_same c : config_clean c -> same_config (config_back c) c.
Proof.
  intro C. split.
  - intro cls. rewrite config_back_groups by exact C. rewrite lookup_map. destruct (lookup cls (cf_groups c)); cbn; split; congruence.
  - intros cls pa pb. rewrite config_back_groups by exact C. rewrite lookup_map. intros H1 H2. rewrite H2 in H1. injection H1 as <-.
    apply props_back_same. destruct C as (_ & F). apply lookup_in in H2. rewrite Forall_forall in F. apply (F _ H2).
Qed.
Lemma named_files_back_equal v : named_files_carried v -> named_files_clean v -> ptr_equal files_equal (named_files_back v) v = true.
Proof.
  intros ((K & So) & V) (N & C). destruct v as [[l|]|]; [|reflexivity..]. unfold named_files_back, list_of in *. cbn [ptr_equal].
  destruct l as [|x l]; [congruence|]. unfold back_list. apply (vec_decides _ _ file_decides). cbn [option_map]. f_equal. now apply files_back_norm.
Qed.
Lemma tech_back_equal eqc t : compares eqc -> tech_carried t -> tech_clean t -> tech_equal eqc (tech_back t) t = true.
Proof.
  intros E ((f & Ef & Cf) & C1 & C2) (K & K1 & K2). unfold tech_equal, tech_back. cbn [te_format te_tocs te_applications].
  rewrite !named_files_back_equal by assumption. rewrite !andb_true_r. rewrite Ef. cbn [option_map ptr_equal]. unfold format_equal, format_back. cbn [bf_config].
  apply E. specialize (K f Ef). destruct (bf_config f) as [c|] eqn:Q; cbn [option_map both]; [|exact I]. apply config_back_same. now apply K.
Qed.
Lemma control_back_equal eqc a t : compares eqc -> admin_clean a -> tech_carried t -> tech_clean t ->
  control_equal eqc (mkControl (Some (admin_back a)) (Some (tech_back t))) (mkControl (Some a) (Some t)) = true.
Proof.
  intros E Ca Ct Kt. unfold control_equal. cbn [cd_admin cd_tech ptr_equal]. rewrite tech_back_equal by assumption. rewrite andb_true_r.
  apply admin_equal_iff. now apply admin_clean_back.
Qed.
