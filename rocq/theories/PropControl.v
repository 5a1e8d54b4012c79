(** C23 control data round trips, C45 equality and clones of control data. *)
From Verif Require Import CBase CBaseProofs XmlEntity XmlModel SpecXml TocModel SpecToc EqualProofs TocXmlModel SpecTocXml PropTocXml
  ControlModel SpecControl ControlProofs ControlProofs2.

(** * A comparison of configurations that meets the contract of boxing_config_is_equal. *)
Definition table_eqb {V} (e : V -> V -> bool) (a b : table V) : bool :=
  forallb (fun k => match lookup k a, lookup k b with Some x, Some y => e x y | None, None => true | _, _ => false end) (map fst a ++ map fst b).
Definition config_eqb (a b : option config) : bool :=
  match a, b with
  | None, None => true
  | Some x, Some y => table_eqb (table_eqb str_eqb) (cf_groups x) (cf_groups y)
  | _, _ => false
  end.
Lemma table_eqb_iff {V} (e : V -> V -> bool) (R : V -> V -> Prop) (a b : table V) : (forall x y, e x y = true <-> R x y) ->
  (table_eqb e a b = true <-> forall k, both R (lookup k a) (lookup k b)).
Proof.
  intro H. unfold table_eqb. rewrite forallb_forall. split.
  - intros F k. destruct (lookup k a) as [x|] eqn:A; destruct (lookup k b) as [y|] eqn:B; cbn [both]; try exact I.
    + specialize (F k). rewrite A, B in F. apply H, F. apply in_or_app. left. apply lookup_in in A. now apply (in_map fst) in A.
    + specialize (F k). rewrite A, B in F. enough (false = true) by discriminate. apply F. apply in_or_app. left. apply lookup_in in A. now apply (in_map fst) in A.
    + specialize (F k). rewrite A, B in F. enough (false = true) by discriminate. apply F. apply in_or_app. right. apply lookup_in in B. now apply (in_map fst) in B.
  - intros F k _. specialize (F k). destruct (lookup k a), (lookup k b); cbn [both] in F; try reflexivity; try (now apply H); destruct F.
Qed.
Lemma same_table_both (a b : table cstr) : (forall k, both eq (lookup k a) (lookup k b)) <-> same_table a b.
Proof.
  split; intros H k; specialize (H k).
  - destruct (lookup k a), (lookup k b); cbn in H; congruence || tauto.
  - rewrite H. destruct (lookup k b); cbn; auto.
Qed.
Lemma same_config_both a b : (forall k, both same_table (lookup k (cf_groups a)) (lookup k (cf_groups b))) <-> same_config a b.
Proof.
  split.
  - intro H. split.
    + intro k. specialize (H k). destruct (lookup k (cf_groups a)), (lookup k (cf_groups b)); cbn in H; split; congruence || tauto.
    + intros k pa pb A B. specialize (H k). now rewrite A, B in H.
  - intros (H1 & H2) k. specialize (H1 k). specialize (H2 k). destruct (lookup k (cf_groups a)), (lookup k (cf_groups b)); cbn [both].
    + now apply H2.
    + destruct H1 as (_ & H1). specialize (H1 eq_refl). discriminate.
    + destruct H1 as (H1 & _). specialize (H1 eq_refl). discriminate.
    + exact I.
Qed.
Lemma config_eqb_compares : compares config_eqb.
Proof.
  intros [a|] [b|]; cbn [config_eqb both]; try (split; [discriminate|tauto]); [|tauto].
  rewrite <- same_config_both. apply table_eqb_iff. intros x y. rewrite <- same_table_both. apply table_eqb_iff. intros u v. apply str_eqb_eq.
Qed.

(** * C23: control data saved and loaded again *)
(** Every control data object whose strings XML can carry comes back in its normal form. *)
Theorem C23_control_round_trip a t : admin_carried a -> tech_carried t ->
  document_round_trips (save_control_string (mkControl (Some a) (Some t))) load_control (mkControl (Some (admin_back a)) (Some (tech_back t))).
Proof. exact (control_round a t). Qed.
Print Assumptions C23_control_round_trip.
Theorem C23_admin_round_trip a : admin_carried a ->
  document_round_trips (save_admin (Some a)) (fun d => succeeded (load_admin d)) (admin_back a).
Proof. exact (admin_round a). Qed.
Print Assumptions C23_admin_round_trip.
Theorem C23_technical_round_trip t : tech_carried t ->
  document_round_trips (save_tech (Some t)) (fun d => succeeded (load_tech d)) (tech_back t).
Proof. exact (tech_round t). Qed.
Print Assumptions C23_technical_round_trip.
Theorem C23_format_round_trip f : format_carried f -> document_round_trips (save_format (Some f)) load_format (format_back f).
Proof. exact (format_round f). Qed.
Print Assumptions C23_format_round_trip.
(** Objects in normal form come back equal, according to the library's own comparison; the
    administrative metadata come back identical, NULL and empty strings told apart. *)
Theorem C23_normal_form config_equal a t : compares config_equal ->
  admin_carried a -> admin_clean a -> tech_carried t -> tech_clean t ->
  exists x, document_round_trips (save_control_string (mkControl (Some a) (Some t))) load_control x /\
            control_equal config_equal x (mkControl (Some a) (Some t)) = true /\ cd_admin x = Some a.
Proof.
  intros E Ca Ka Ct Kt. eexists. split; [now apply C23_control_round_trip|]. split; [now apply control_back_equal|]. cbn [cd_admin].
  now rewrite admin_clean_back.
Qed.
Print Assumptions C23_normal_form.
(** The configuration comes back with exactly the same classes and properties. *)
Theorem C23_config_same c : config_carried c -> config_clean c ->
  exists c', document_round_trips (save_format (Some (mkFormat (Some c)))) load_format (mkFormat (Some c')) /\ same_config c' c.
Proof.
  intros C K. exists (config_back c). split; [|now apply config_back_same]. apply (C23_format_round_trip (mkFormat (Some c))).
  intros x E. injection E as <-. split; [exact C|apply K].
Qed.
Print Assumptions C23_config_same.
(** Without one of the parts, or without a content format, nothing is saved. *)
Theorem C23_missing_part a t :
  snd (save_control_string (mkControl None t)) = false /\ snd (save_control_string (mkControl a None)) = false /\
  (forall x, te_format x = None -> snd (save_control_string (mkControl a (Some x))) = false) /\
  (forall x y, te_format x = None \/ te_tocs x = None -> y = Some x \/ y = None -> snd (save_tech_string y) = false).
Proof.
  split; [reflexivity|]. split; [destruct a; reflexivity|]. split.
  - intros x E. unfold save_control_string, save_control, save_tech. destruct a; [|reflexivity]. cbn [cd_admin cd_tech save_admin]. rewrite E. reflexivity.
  - intros [f tt ap] y [E|E] [->| ->]; cbn in E; subst; try reflexivity. destruct f; reflexivity.
Qed.
Print Assumptions C23_missing_part.
(** The same when the parts are written below an element the caller gives: no call that is given NULL, or an object
    without a part, reports success. *)
Theorem C23_missing_part_xml :
  (forall o, o = None \/ (exists x, o = Some x /\ te_format x = None) -> snd (save_tech o) = false) /\ snd (save_admin None) = false /\
  (forall c, cd_admin c = None \/ cd_tech c = None \/ (exists x, cd_tech c = Some x /\ te_format x = None) -> snd (save_control c) = false).
Proof.
  assert (T : forall o, o = None \/ (exists x, o = Some x /\ te_format x = None) -> snd (save_tech o) = false).
  { intros o [->|(x & -> & E)]; [reflexivity|]. unfold save_tech. rewrite E. reflexivity. }
  split; [exact T|]. split; [reflexivity|]. intros [a t] H. unfold save_control. cbn [cd_admin cd_tech] in *.
  destruct a as [a|]; [|reflexivity]. cbn [save_admin negb]. destruct (save_tech t) as (k2, ok2) eqn:E. cbn [snd].
  change ok2 with (snd (k2, ok2)). rewrite <- E. apply T. destruct H as [H|H]; [discriminate H|]. destruct H as [H|H]; [now left|now right].
Qed.
Print Assumptions C23_missing_part_xml.
(** A list of files with an invalid file is never written, neither as tables of contents nor as applications. *)
Theorem C23_invalid_files a t v : v = te_tocs t \/ v = te_applications t -> v <> None -> files_is_valid v = false ->
  forall ws nl decl, save_object decl (save_control_string (mkControl a (Some t))) ws nl = None /\ save_object decl (save_tech_string (Some t)) ws nl = None.
Proof.
  intros W N V. assert (F : snd (save_tech (Some t)) = false).
  { assert (B : forall n, snd (save_named_files n v) = false) by (intro n; destruct v; [unfold save_named_files, save_files; rewrite V; reflexivity|congruence]).
    unfold save_tech. destruct (save_format (te_format t)) as (k1, []); cbn [negb snd]; [|reflexivity]. destruct W as [-> | ->].
    - specialize (B (s2z "Tocs")). destruct (save_named_files _ (te_tocs t)) as (k2, ok2). cbn [snd] in B. subst. reflexivity.
    - destruct (save_named_files _ (te_tocs t)) as (k2, []); cbn [negb snd]; [|reflexivity].
      specialize (B (s2z "Applications")). destruct (save_named_files _ (te_applications t)) as (k3, ok3). exact B. }
  assert (G : forall o ws nl decl, snd o = false -> save_object decl o ws nl = None) by (intros [k b] ws nl decl E; cbn in E; subst; reflexivity).
  intros ws nl decl. split; apply G.
  - unfold save_control_string, save_control. cbn [cd_admin cd_tech]. destruct a as [a|]; [|reflexivity]. cbn [save_admin negb].
    destruct (save_tech (Some t)) as (k2, ok2). exact F.
  - unfold save_tech_string. destruct t as [[f|] [tt|] ap]; try reflexivity. exact F.
Qed.
Print Assumptions C23_invalid_files.
Example C23_invalid_witness : exists t v, v = te_applications t /\ v <> None /\ files_is_valid v = false.
Proof.
  exists (mkTech None None (Some (Some [mkFile None None None 0 1 0 0 0 0 None 0 0 None None None]))). eexists. split; [reflexivity|]. split; [discriminate|reflexivity].
Qed.
(** A concrete case: all parts present, with a list of files and a configuration. *)
Definition ex_config : config :=
  mkConfig [(s2z "FormatInfo", [(s2z "name", s2z "4k-controlframe-v7"); (VERSION, s2z "1.2")]); (s2z "FrameFormat", [(s2z "width", s2z "1024"); (s2z "note", s2z "<&>")])] [].
Definition ex_admin : admin := mkAdmin (Some (s2z "12")) None (Some (s2z "A & B")) (Some []) (Some (s2z "x")) None.
Definition ex_tech : tech := mkTech (Some (mkFormat (Some ex_config))) (Some (Some [ex_file; ex_file])) (Some None).
Lemma ex_config_carried : config_carried ex_config.
Proof.
  split.
  - cbn. constructor; [|constructor; [intros []|constructor]]. intros [E|[]]. discriminate E.
  - unfold ex_config. cbn [cf_groups].
    assert (T : forall (k1 k2 : cstr) (v1 v2 : cstr), k1 <> k2 -> is_table [(k1, v1); (k2, v2)]).
    { intros k1 k2 v1 v2 N. constructor; [|constructor; [intros []|constructor]]. intros [E|[]]. cbn [fst] in E. apply N. symmetry. exact E. }
    constructor; [|constructor; [|constructor]]; cbn [fst snd].
    + split; [apply ascii_by; reflexivity|]. split; [apply T; discriminate|]. repeat (apply Forall_cons; [split; apply ascii_by; reflexivity|]). apply Forall_nil.
    + split; [apply ascii_by; reflexivity|]. split; [apply T; discriminate|]. repeat (apply Forall_cons; [split; apply ascii_by; reflexivity|]). apply Forall_nil.
Qed.
Lemma ex_config_clean : config_clean ex_config.
Proof.
  split; [reflexivity|]. unfold ex_config. cbn [cf_groups].
  repeat (apply Forall_cons; [split; [discriminate|]; split; [discriminate|]; repeat (apply Forall_cons; [split; [discriminate|]; left; discriminate|]); apply Forall_nil|]). apply Forall_nil.
Qed.
Example C23_witness : admin_carried ex_admin /\ admin_clean ex_admin /\ tech_carried ex_tech /\ tech_clean ex_tech /\ compares config_eqb.
Proof.
  split; [do 5 (split; [atext|]); atext|]. split; [do 5 (split; [aclean|]); aclean|].
  destruct C18_witness as (_ & V & _ & K & C).
  assert (E : named_files_carried (Some None)) by (repeat constructor). split.
  - split; [|split; [split; [exact C|exact V]|exact E]]. eexists. split; [reflexivity|]. intros c Q. injection Q as <-. split; [apply ex_config_carried|reflexivity].
  - split; [|apply config_eqb_compares]. split; [|split; [split; [discriminate|exact K]|split; [discriminate|constructor]]].
    intros f Q. injection Q as <-. intros c Q. injection Q as <-. apply ex_config_clean.
Qed.
(** Outside the normal form: an administrative field loses its outer blanks, so the loaded control
    data is not equal. *)
Theorem C23_outer_blanks_refuted : exists a t x, admin_carried a /\ tech_carried t /\ tech_clean t /\
  document_round_trips (save_control_string (mkControl (Some a) (Some t))) load_control x /\
  control_equal config_eqb x (mkControl (Some a) (Some t)) = false.
Proof.
  exists (mkAdmin (Some (s2z " 1")) None None None None None), ex_tech. eexists. destruct C23_witness as (_ & _ & Ct & Kt & _).
  assert (Ca : admin_carried (mkAdmin (Some (s2z " 1")) None None None None None)) by (do 5 (split; [atext|]); atext).
  split; [exact Ca|]. split; [exact Ct|]. split; [exact Kt|]. split; [apply C23_control_round_trip; assumption|]. reflexivity.
Qed.
Print Assumptions C23_outer_blanks_refuted.
(** A class that has an alias is saved without its properties: two configurations with different
    properties give the same text. *)
Theorem C23_alias_refuted : exists c1 c2, config_carried c1 /\ config_carried c2 /\ ~ same_config c1 c2 /\
  save_format (Some (mkFormat (Some c1))) = save_format (Some (mkFormat (Some c2))).
Proof.
  exists (mkConfig [(s2z "GPFv1.1", [(s2z "width", s2z "1")])] [(s2z "FrameBuilder", s2z "GPFv1.1")]),
         (mkConfig [(s2z "GPFv1.1", [(s2z "width", s2z "2")])] [(s2z "FrameBuilder", s2z "GPFv1.1")]).
  assert (K : forall v, is_text v -> config_carried (mkConfig [(s2z "GPFv1.1", [(s2z "width", v)])] [(s2z "FrameBuilder", s2z "GPFv1.1")])).
  { intros v T. split; [constructor; [intros []|constructor]|]. apply Forall_cons; [|apply Forall_nil]. cbn [fst snd].
    split; [apply ascii_by; reflexivity|]. split; [constructor; [intros []|constructor]|]. apply Forall_cons; [|apply Forall_nil]. split; [apply ascii_by; reflexivity|exact T]. }
  split; [apply K, ascii_by; reflexivity|]. split; [apply K, ascii_by; reflexivity|]. split; [|reflexivity].
  intros (_ & H). specialize (H (s2z "GPFv1.1") _ _ eq_refl eq_refl (s2z "width")). discriminate H.
Qed.
Print Assumptions C23_alias_refuted.
(** A document whose technical part has no format, or an unusable list of files, is accepted. *)
Theorem C23_bad_technical_accepted_refuted : exists s c, load_object load_control s = Ok (Some c) /\ snd (save_control_string c) = false /\
  (exists d, load_string s = Ret (Some d) /\ snd (load_tech d) = false).
Proof.
  exists (s2z "<?xml version=""1.0""?><AdministrativeMetadata/><TechnicalMetadata/>").
  eexists. split; [vm_compute; reflexivity|]. split; [reflexivity|]. eexists. split; [vm_compute; reflexivity|]. vm_compute. reflexivity.
Qed.
Print Assumptions C23_bad_technical_accepted_refuted.

(** * C45: equality and clones of control data *)
Lemma compares_equivalence e : compares e -> equivalence e.
Proof.
  intro C. assert (R : forall a, both same_config a a).
  { intros [a|]; cbn; [|exact I]. split; [tauto|]. intros cls pa pb A B k. congruence. }
  assert (S : forall a b, both same_config a b -> both same_config b a).
  { intros [a|] [b|]; cbn [both]; auto. intros (H1 & H2). split; [intro cls; now rewrite H1|]. intros cls pa pb A B k. symmetry. now apply (H2 cls). }
  assert (T : forall a b c, both same_config a b -> both same_config b c -> both same_config a c).
  { intros [a|] [b|] [c|]; cbn [both]; try tauto. intros (H1 & H2) (H3 & H4). split; [intro cls; now rewrite H1|]. intros cls pa pb A B k.
    destruct (lookup cls (cf_groups b)) as [pm|] eqn:M; [|apply H1 in M; congruence]. rewrite (H2 cls pa pm A M k). now apply (H4 cls). }
  split; [intro a; apply C, R|]. split; [intros a b H; apply C, S, C, H|]. intros a b c H1 H2. apply C. eapply T; [apply C, H1|apply C, H2].
Qed.
Lemma admin_equivalence : equivalence admin_equal.
Proof. apply (equivalence_on (fun x => x)). exact admin_equal_iff. Qed.
(** Equality is an equivalence relation (given that the comparison of configurations compares). *)
Theorem C45_equal_equivalence config_equal : compares config_equal ->
  equivalence admin_equal /\ equivalence (tech_equal config_equal) /\ equivalence (control_equal config_equal).
Proof.
  intro C. split; [apply admin_equivalence|]. assert (T : equivalence (tech_equal config_equal)).
  { pose proof (equivalence_ptr _ files_equal_equiv) as F.
    apply (equivalence_and _ (fun a b => ptr_equal files_equal (te_applications a) (te_applications b))).
    - apply (equivalence_and (fun a b => ptr_equal (format_equal config_equal) (te_format a) (te_format b))).
      + apply (equivalence_by te_format). apply equivalence_ptr. apply (equivalence_by bf_config). now apply compares_equivalence.
      + apply (equivalence_by te_tocs _ F).
    - apply (equivalence_by te_applications _ F). }
  split; [exact T|]. apply (equivalence_and (fun a b => ptr_equal admin_equal (cd_admin a) (cd_admin b))).
  - apply (equivalence_by cd_admin). apply equivalence_ptr, admin_equivalence.
  - apply (equivalence_by cd_tech). now apply equivalence_ptr.
Qed.
Print Assumptions C45_equal_equivalence.
(** A clone is equal to its original. *)
Theorem C45_clone_equal config_equal : compares config_equal ->
  (forall a, admin_equal (admin_clone a) a = true) /\ (forall t, tech_equal config_equal (tech_clone t) t = true) /\
  (forall c, control_equal config_equal (control_clone c) c = true).
Proof.
  intro C. destruct (C45_equal_equivalence config_equal C) as ((Ra & _) & (Rt & _) & (Rc & _)).
  assert (A : forall a, admin_clone a = a) by (intros []; reflexivity).
  assert (T : forall t, tech_clone t = t).
  { intros [f v w]. unfold tech_clone. cbn [te_format te_tocs te_applications]. f_equal.
    - destruct f as [[c]|]; reflexivity.
    - destruct v; [cbn; now rewrite files_clone_id|reflexivity].
    - destruct w; [cbn; now rewrite files_clone_id|reflexivity]. }
  split; [intro; now rewrite A|]. split; [intro; now rewrite T|]. intros [[a|] [t|]]; unfold control_clone; cbn [cd_admin cd_tech option_map]; rewrite ?A, ?T; apply Rc.
Qed.
Print Assumptions C45_clone_equal.
(** Equal control data have the same six fields (a missing string differs from an empty one), the
    same configuration and equal lists of files. *)
Theorem C45_equal_content config_equal a b t u : compares config_equal ->
  (control_equal config_equal (mkControl (Some a) (Some t)) (mkControl (Some b) (Some u)) = true <->
   a = b /\ both (fun f g => both same_config (bf_config f) (bf_config g)) (te_format t) (te_format u) /\
   both (fun v w => option_map (map norm_file) v = option_map (map norm_file) w) (te_tocs t) (te_tocs u) /\
   both (fun v w => option_map (map norm_file) v = option_map (map norm_file) w) (te_applications t) (te_applications u)).
Proof.
  intro C. unfold control_equal, tech_equal. cbn [cd_admin cd_tech ptr_equal]. rewrite !andb_true_iff, admin_equal_iff.
  assert (F : forall v w, ptr_equal files_equal v w = true <-> both (fun v w => option_map (map norm_file) v = option_map (map norm_file) w) v w).
  { intros [v|] [w|]; cbn [ptr_equal both]; try (split; [discriminate|tauto]); [|tauto]. apply (vec_decides _ _ file_decides). }
  rewrite !F. assert (G : forall f g, ptr_equal (format_equal config_equal) f g = true <-> both (fun f g => both same_config (bf_config f) (bf_config g)) f g).
  { intros [f|] [g|]; cbn [ptr_equal both]; try (split; [discriminate|tauto]); [|tauto]. apply C. }
  rewrite G. tauto.
Qed.
Print Assumptions C45_equal_content.
Example C45_witness : control_equal config_eqb (mkControl (Some ex_admin) (Some ex_tech)) (mkControl (Some ex_admin) (Some ex_tech)) = true /\
  control_equal config_eqb (mkControl (Some (mkAdmin None None None None None None)) None) (mkControl (Some (mkAdmin None None None (Some []) None None)) None) = false.
Proof. split; reflexivity. Qed.

