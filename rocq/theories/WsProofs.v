(** Saving with the indentation callbacks. *)
From Verif Require Import CBase CBaseProofs XmlModel SpecXml XmlRound XmlRoots TocXmlModel SpecTocXml SpecControl WsModel SpecWs.

Lemma line_blank k : blank (line k).
Proof. constructor; [auto|]. induction k; constructor; auto. Qed.
Lemma rules_blank p l : blank (rules p l).
Proof. induction l as [|((c, ps), k) l IH]; [constructor|]. cbn [rules]. destruct (c && existsb (place_eqb p) ps); [apply line_blank|exact IH]. Qed.
(** * A callback that never fails writes as [write_node] does. *)
Lemma ocat_ok {A} (f : A -> outcome cstr) g l : Forall (fun x => f x = Ok (g x)) l -> ocat_map f l = Ok (flat_map g l).
Proof. intro H. induction H as [|x l E H IH]; [reflexivity|]. cbn [ocat_map flat_map]. rewrite E. cbn [obind]. fold (ocat_map f). rewrite IH. reflexivity. Qed.
(** [P] holds of the callback calls made below a path. *)
Lemma write_safe cb ws (good : list cstr -> Prop) : (forall n path, good path -> good (n :: path)) ->
  (forall path n a k p, good path -> is_special n = false -> cb path (Elem n a k) p = Ok (ws path (Elem n a k) p)) ->
  (forall path n a k p, good path -> is_special n = true -> p = BeforeOpen \/ p = AfterOpen -> cb path (Elem n a k) p = Ok (ws path (Elem n a k) p)) ->
  forall t path, good path -> write_checked cb path t = Ok (write_node ws path t).
Proof.
  intros G H1 H2 t. induction t as [n a kids IH|s] using node_ind2; intros path Hp; [|reflexivity].
  cbn [write_checked write_node]. destruct (is_special n) eqn:Sp.
  - rewrite (H2 _ _ _ _ BeforeOpen Hp Sp), (H2 _ _ _ _ AfterOpen Hp Sp) by auto. cbn [obind].
    destruct kids as [|k ks]; [now rewrite <- !app_assoc; cbn [app]; rewrite <- ?app_assoc|].
    rewrite (ocat_ok _ (write_node ws (n :: path))).
    2:{ eapply Forall_impl; [|exact IH]. intros x E. apply E. now apply G. }
    cbn [obind]. f_equal. rewrite <- !app_assoc. cbn [app]. rewrite <- !app_assoc. cbn [app]. now rewrite app_nil_r.
  - rewrite (H1 _ _ _ _ BeforeOpen Hp Sp), (H1 _ _ _ _ AfterOpen Hp Sp). cbn [obind].
    destruct kids as [|k ks]; [now rewrite <- !app_assoc; cbn [app]; rewrite <- ?app_assoc|].
    rewrite (ocat_ok _ (write_node ws (n :: path))).
    2:{ eapply Forall_impl; [|exact IH]. intros x E. apply E. now apply G. }
    cbn [obind]. rewrite (H1 _ _ _ _ BeforeClose Hp Sp), (H1 _ _ _ _ AfterClose Hp Sp). cbn [obind]. f_equal.
    rewrite <- !app_assoc. cbn [app]. rewrite <- !app_assoc. reflexivity.
Qed.
Lemma write_guarded ws t path : write_checked (guarded ws) path t = Ok (write_node ws path t).
Proof. apply (write_safe _ _ (fun _ => True)); auto. Qed.
(** The callback seen from a node below [root]. *)
Definition below (root : list cstr) (ws : ws_cb) : ws_cb := fun path => ws (path ++ root).
Lemma write_below root ws t : forall path, write_node (below root ws) path t = write_node ws (path ++ root) t.
Proof.
  induction t as [n a kids IH|s] using node_ind2; intro path; [|reflexivity].
  assert (E : flat_map (write_node (below root ws) (n :: path)) kids = flat_map (write_node ws (n :: path ++ root)) kids).
  { induction IH as [|x l E H IH']; [reflexivity|]. cbn [flat_map]. rewrite IH'. f_equal. apply (E (n :: path)). }
  cbn [write_node]. rewrite E. reflexivity.
Qed.
(** * Round trips *)
Lemma indented_document {A} saved cb ws (load : node -> option A) x : indenting ws ->
  (forall t, In t (fst saved) -> write_checked cb [XML_DECL] t = Ok (write_node ws [XML_DECL] t)) ->
  (forall p, p = BeforeOpen \/ p = AfterOpen -> cb [] (new_xml (fst saved)) p = Ok (ws [] (new_xml (fst saved)) p)) ->
  document_round_trips saved load x -> indented_round_trips true saved cb load x.
Proof.
  intros I W R D nl. destruct (D ws nl I) as (s & E & L). exists s. split; [|exact L].
  unfold save_object in E. unfold save_indented. destruct (snd saved); [|discriminate]. injection E as <-. unfold save_text.
  enough (H : write_checked cb [] (new_xml (fst saved)) = Ok (write_node ws [] (new_xml (fst saved)))) by (rewrite H; reflexivity).
  unfold new_xml in *. cbn [write_checked write_node]. rewrite (R BeforeOpen), (R AfterOpen) by auto. cbn [obind].
  change (is_special XML_DECL) with true. cbv iota. destruct (fst saved) as [|k ks]; [now rewrite <- !app_assoc; cbn [app]; rewrite <- ?app_assoc|].
  rewrite (ocat_ok _ (write_node ws [XML_DECL])) by (apply Forall_forall; exact W). cbn [obind]. f_equal.
  rewrite <- !app_assoc. cbn [app]. rewrite <- !app_assoc. cbn [app]. now rewrite app_nil_r.
Qed.
Lemma round_document {A} saved (load : node -> option A) x : round_trips saved load x -> document_round_trips saved load x.
Proof. intros R ws nl I. now apply R. Qed.
Lemma indented_element {A} saved cb ws (load : node -> option A) x : indenting ws ->
  (forall t, In t (fst saved) -> write_checked cb [XML_DECL] t = Ok (write_node ws [XML_DECL] t)) ->
  round_trips saved load x -> indented_round_trips false saved cb load x.
Proof.
  intros I W R nl. destruct (R (below [XML_DECL] ws) nl false) as (s & E & L); [intros path t p; apply I|]. exists s. split; [|exact L].
  unfold save_object in E. unfold save_indented. destruct (snd saved); [|discriminate]. destruct (fst saved) as [|t l]; [discriminate|].
  injection E as <-. rewrite W by (now left). cbn [obind]. unfold save_text. now rewrite write_below.
Qed.
Lemma indented_guarded {A} decl saved ws (load : node -> option A) x : indenting ws -> round_trips saved load x -> indented_round_trips decl saved (guarded ws) load x.
Proof.
  intros I R. destruct decl.
  - apply (indented_document _ _ ws); auto; [intros; apply write_guarded|now apply round_document].
  - apply (indented_element _ _ ws); auto. intros; apply write_guarded.
Qed.
Lemma indented_guarded_document {A} saved ws (load : node -> option A) x : indenting ws -> document_round_trips saved load x -> indented_round_trips true saved (guarded ws) load x.
Proof. intros I R. apply (indented_document _ _ ws); auto. intros; apply write_guarded. Qed.
(** * The unguarded callbacks, below an element *)
Definition unchecked (cb : checked_cb) : ws_cb := fun path t p => match cb path t p with Ok w => w | UB => [] end.
Lemma checked_total p l : Forall (fun r => exists b, fst (fst r) = Ok b) l -> exists w, checked_rules p l = Ok w /\ blank w.
Proof.
  intro H. induction H as [|((c, ps), k) l (b & E) H (w & Ew & B)]; [exists []; split; [reflexivity|constructor]|].
  cbn [fst] in E. subst c. cbn [checked_rules oand obind]. destruct b; cbn [obind]; [|exists w; auto]. destruct (existsb (place_eqb p) ps); [exists (line k); split; [reflexivity|apply line_blank]|exists w; auto].
Qed.
Lemma total_oand a b : (exists x, a = Ok x) -> (exists x, b = Ok x) -> exists x, a <&&> b = Ok x.
Proof. intros (x & ->) (y & ->). unfold oand; cbn [obind]. destruct x; eauto. Qed.
Lemma total_oor a b : (exists x, a = Ok x) -> (exists x, b = Ok x) -> exists x, a <||> b = Ok x.
Proof. intros (x & ->) (y & ->). unfold oor; cbn [obind]. destruct x; eauto. Qed.
Lemma total_onot a : (exists x, a = Ok x) -> exists x, ~~ a = Ok x.
Proof. intros (x & ->). unfold onot; cbn [obind]. eauto. Qed.
Lemma total_ok (b : bool) : exists x, Ok b = Ok x. Proof. eauto. Qed.
Ltac total := repeat first [apply total_oand | apply total_oor | apply total_onot | apply total_ok].
Lemma file_total n path t p : exists w, ws_file (n :: path) t p = Ok w /\ blank w.
Proof. unfold ws_file. apply checked_total. cbn [nth_error iso]. repeat (constructor; [cbn [fst]; total|]). constructor. Qed.
Lemma files_total n path t p : exists w, ws_files (n :: path) t p = Ok w /\ blank w.
Proof. unfold ws_files. apply checked_total. cbn [nth_error iso]. repeat (constructor; [cbn [fst]; total|]). constructor. Qed.
Lemma control_total n path t p : exists w, ws_control (n :: path) t p = Ok w /\ blank w.
Proof.
  assert (B : forall k, blank (line k)) by exact line_blank. assert (B0 : blank []) by constructor.
  assert (T : forall c a b, (exists x, c = Ok x) -> (exists w, a = Ok w /\ blank w) -> (exists w, b = Ok w /\ blank w) -> exists w : cstr, oif c a b = Ok w /\ blank w).
  { intros c a b (x & ->) Ha Hb. unfold oif. cbn [obind]. destruct x; assumption. }
  assert (O : forall w, blank w -> exists w', Ok w = Ok w' /\ blank w') by eauto.
  unfold ws_control. cbn [nth_error iso]. destruct p.
  - assert (X : exists w : cstr, oif (Ok (is "AdministrativeMetadata" n) <||> Ok (is "TechnicalMetadata" n)) (Ok (line 4))
      (oif (Ok (is "Tocs" n) <||> Ok (is "work" (node_name_or t))) (Ok (line 8))
        (oif (Ok (is "class" (node_name_or t)) <||> Ok (is "file" n)) (Ok (line 12))
        (oif (Ok (is "property" (node_name_or t)) <||> Ok (is "data" n) <||> Ok (is "preview" n)) (Ok (line 16)) (Ok (line 0))))) = Ok w /\ blank w).
    { repeat (apply T; [total|auto|]). auto. }
    destruct (node_name_or t) as [|z l]; [exact X|]. destruct z; try exact X. repeat (destruct p; try exact X). eauto.
  - destruct (negb (text_child t)); [eauto|]. repeat (apply T; [total|auto|]). auto.
  - repeat (apply T; [total|auto|]). auto.
  - eauto.
Qed.
Lemma below_total cb : (forall n path t p, exists w, cb (n :: path) t p = Ok w /\ blank w) ->
  forall t path, path <> [] -> write_checked cb path t = Ok (write_node (unchecked cb) path t).
Proof.
  intros H t path Hp. apply (write_safe _ _ (fun path => path <> [])); [discriminate| | |exact Hp].
  - intros [|x l] n a k p N _; [congruence|]. unfold unchecked. destruct (H x l (Elem n a k) p) as (w & -> & _). reflexivity.
  - intros [|x l] n a k p N _ _; [congruence|]. unfold unchecked. destruct (H x l (Elem n a k) p) as (w & -> & _). reflexivity.
Qed.
Lemma unchecked_indenting cb : (forall n path t p, exists w, cb (n :: path) t p = Ok w /\ blank w) ->
  (forall t p w, cb [] t p = Ok w -> blank w) -> indenting (unchecked cb).
Proof.
  intros H1 H2 path t p. unfold unchecked. destruct path as [|n path].
  - destruct (cb [] t p) eqn:E; [eapply H2; exact E|constructor].
  - destruct (H1 n path t p) as (w & -> & B). exact B.
Qed.
