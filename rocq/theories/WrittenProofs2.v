(** The save_string functions return documents of the grammar. *)
From Verif Require Import CBase CBaseProofs XmlEntity XmlModel SpecXml SpecGrammar SpecForeign Utf8Proofs TrimProofs XmlTermProofs XmlProofs XmlRound XmlRoots SimProofs GrammarProofs WrittenProofs
  TocXmlModel WsModel WsProofs WriterModel WriterProofs WriterProofs2 WriterProofs3.
Import SpecXml SpecForeign.

Lemma weave_eq ks ks' : ks <> [] -> weave (eq []) ks ks' -> ks' = ks.
Proof. intros N V. pose proof (same_eq _ _ (same_elems (eq []) [] [] ks ks' N V)) as E. congruence. Qed.
Lemma indented_text decl kids cb ws nl : kids <> [] ->
  (forall t, In t kids -> write_checked cb [XML_DECL] t = Ok (write_node ws [XML_DECL] t)) ->
  (decl = true -> forall p, p = BeforeOpen \/ p = AfterOpen -> cb [] (new_xml kids) p = Ok (ws [] (new_xml kids) p)) ->
  save_indented decl (kids, true) cb nl = Ok (save_object decl (kids, true) (if decl then ws else below [XML_DECL] ws) nl).
Proof.
  intros N W R. unfold save_indented, save_object. cbn [fst snd]. destruct decl.
  - specialize (R eq_refl). unfold save_text.
    enough (H : write_checked cb [] (new_xml kids) = Ok (write_node ws [] (new_xml kids))) by (rewrite H; reflexivity).
    unfold new_xml in *. cbn [write_checked write_node]. rewrite (R BeforeOpen), (R AfterOpen) by auto. cbn [obind].
    change (is_special XML_DECL) with true. cbv iota. destruct kids as [|k ks]; [congruence|].
    rewrite (ocat_ok _ (write_node ws [XML_DECL])) by (apply Forall_forall; exact W). cbn [obind]. f_equal.
    rewrite <- !app_assoc. cbn [app]. rewrite <- !app_assoc. cbn [app]. now rewrite app_nil_r.
  - destruct kids as [|t l]; [congruence|]. rewrite W by (now left). cbn [obind]. unfold save_text. now rewrite write_below.
Qed.
Lemma wf_name n a ks : wf (Elem n a ks) -> is_special n = false -> name_ok n.
Proof. intros H B. inversion H; subst; try assumption. discriminate B. Qed.
Definition single (kids : list node) : Prop := exists n a k, kids = [Elem n a k] /\ is_special n = false.
Lemma object_document decl kids ws (nl : bool) : indenting ws -> Forall wf kids -> kids <> [] -> (decl = false -> single kids) ->
  exists s d, save_object decl (kids, true) ws nl = Some s /\ document s d /\ shows d kids.
Proof.
  intros I F N S. destruct closed_blank as (Wb & W0 & Wa). unfold save_object. cbn [fst snd]. destruct decl.
  - destruct (written_document blank Wb W0 Wa ws I kids nl F N) as (ks' & D & v & Wv & V).
    eexists _, _. split; [reflexivity|]. split; [exact D|]. apply shows_declared; [exists (xml_declaration ++ s2z "?"); now left|].
    apply weave_elems in V. unfold elems in V. rewrite filter_app in V.
    replace (filter is_elem (pend v)) with (@nil node) in V by (destruct v; reflexivity). now rewrite app_nil_r in V.
  - destruct (S eq_refl) as (n & a & k & -> & B). inversion F as [|? ? Fx _]; subst.
    destruct (written_bare blank Wb Wa ws I (Elem n a k) nl Fx) as (t' & D & Sm); [exists n, a, k; split; [reflexivity|eapply wf_name; eassumption]|].
    eexists _, _. split; [reflexivity|]. split; [exact D|]. apply shows_bare. now apply same_sim.
Qed.
Lemma object_compact decl kids (nl : bool) : Forall wf kids -> kids <> [] -> (decl = false -> single kids) ->
  exists s d, save_object decl (kids, true) no_ws nl = Some s /\ document s d /\
    (if decl then d = Elem XML_DECL [] kids else kids = [d]).
Proof.
  intros F N S. destruct closed_none as (Wb & W0 & Wa). unfold save_object. cbn [fst snd]. destruct decl.
  - destruct (written_document (eq []) Wb W0 Wa no_ws ltac:(reflexivity) kids nl F N) as (ks' & D & v & <- & V). cbn [pend] in V. rewrite app_nil_r in V.
    apply weave_eq in V; [|exact N]. subst ks'. eexists _, _. split; [reflexivity|]. split; [exact D|reflexivity].
  - destruct (S eq_refl) as (n & a & k & -> & B). inversion F as [|? ? Fx _]; subst.
    destruct (written_bare (eq []) Wb Wa no_ws ltac:(reflexivity) (Elem n a k) nl Fx) as (t' & D & Sm); [exists n, a, k; split; [reflexivity|eapply wf_name; eassumption]|].
    apply same_eq in Sm. subst t'. eexists _, _. split; [reflexivity|]. split; [exact D|reflexivity].
Qed.
Lemma compact_shows decl kids d : Forall wf kids -> (if decl : bool then d = Elem XML_DECL [] kids else kids = [d]) -> (exists s, document s d) -> shows d kids.
Proof.
  intros F E _. assert (R : Forall2 sim kids kids).
  { clear E. induction F as [|k l Hk _ IH]; [constructor|constructor; [|exact IH]]. destruct closed_none as (Wb & W0 & Wa).
    destruct (written_all (eq []) Wb Wa no_ws ltac:(reflexivity) k Hk []) as (w1 & x & w2 & t' & _ & _ & _ & _ & Sm). pose proof (same_eq _ _ Sm) as ->.
    apply same_sim. clear -Sm. destruct closed_blank as (_ & B0 & _).
    assert (M : (forall a b, same (eq []) a b -> same blank a b) /\ (forall a b, weave (eq []) a b -> weave blank a b)).
    { apply same_weave_ind; intros; subst; try (constructor; auto; fail); try (apply (same_text blank n a s [] []); assumption); try (apply (weave_nil blank []); assumption); apply (weave_cons blank []); assumption. }
    now apply M. }
  destruct decl; subst.
  - apply shows_declared; [exists (xml_declaration ++ s2z "?"); now left|].
    replace (elems kids) with kids; [exact R|]. clear -F. induction F as [|k l Hk _ IH]; [reflexivity|]. cbn. rewrite (wf_is_elem k Hk). now f_equal.
  - inversion R; subst. now apply shows_bare.
Qed.
Lemma string_document p saved kids cb ws : saved = (kids, true) -> fits p kids -> Forall wf kids -> kids <> [] -> indenting ws ->
  (is_whole p = false -> single kids) ->
  (forall t, In t kids -> write_checked cb [XML_DECL] t = Ok (write_node ws [XML_DECL] t)) ->
  (is_whole p = true -> forall q, q = BeforeOpen \/ q = AfterOpen -> cb [] (new_xml kids) q = Ok (ws [] (new_xml kids) q)) ->
  is_markup (as_string p true saved cb) kids.
Proof.
  intros -> Ft F N I S W R compact. unfold as_string. cbn [negb fst snd]. destruct compact.
  - destruct (part_text_spec p (guarded no_ws) kids Ft) as (nl & E & _).
    rewrite (indented_text (is_whole p) kids (guarded no_ws) no_ws nl N) in E; [|intros; apply write_guarded|reflexivity].
    assert (B : (if is_whole p then no_ws else below [XML_DECL] no_ws) = no_ws) by (destruct (is_whole p); reflexivity). rewrite B in E.
    destruct (object_compact (is_whole p) kids nl F N S) as (s & d & Es & D & X). rewrite Es in E.
    exists s, d. split; [exact E|]. split; [exact D|]. split; [eapply compact_shows; eauto|]. intros _. destruct (is_whole p); auto.
  - destruct (part_text_spec p cb kids Ft) as (nl & E & _).
    rewrite (indented_text (is_whole p) kids cb ws nl N W R) in E.
    assert (I2 : indenting (if is_whole p then ws else below [XML_DECL] ws)) by (destruct (is_whole p); [exact I|intros path t q; apply I]).
    destruct (object_document (is_whole p) kids _ nl I2 F N S) as (s & d & Es & D & X). rewrite Es in E.
    exists s, d. split; [exact E|]. split; [exact D|]. split; [exact X|discriminate].
Qed.
Lemma shown_root n a k d : name_ok n -> shows d [Elem n a k] -> one_root d.
Proof.
  intros N H. pose proof (proj2 (name_attr n N)) as T. inversion H as [t d' S|m ks' ks P F]; subst.
  - inversion S as [? ? a' ? ks']; subst. unfold one_root. destruct N as (N0 & F & Fst). destruct n as [|c n]; [congruence|]. inversion F as [|? ? Hc _]; subst.
    unfold name_char in Hc. destruct c as [|c|c]; try exact T. do 6 (destruct c as [c|c|]; try exact T); exfalso; lia.
  - inversion F as [|x y l l' Sx Fl E1 E2]; subst. inversion Fl; subst. inversion Sx as [? ? a' ? l'']; subst.
    destruct P as (q & [-> | ->]); cbn [s2z app one_root]; exists n, a', l''; rewrite <- E2; auto.
Qed.
Lemma rooted f n a k : name_ok n -> is_markup f [Elem n a k] -> is_document f [Elem n a k].
Proof.
  intros N H compact. destruct (H compact) as (s & d & E & D & S & X). exists s, d. split; [exact E|]. split; [exact D|]. split; [|split; assumption].
  eapply shown_root; eassumption.
Qed.
Lemma string_document_guarded p saved t ws n a k : saved = ([t], true) -> t = Elem n a k -> is_special n = false -> (p = Named -> n = s2z "metadata") -> wf t -> indenting ws -> is_document (as_string p true saved (guarded ws)) [t].
Proof.
  intros E Et B Nm F I. rewrite Et. apply rooted; [eapply wf_name; [rewrite <- Et; exact F|exact B]|]. rewrite <- Et. apply (string_document p saved [t] (guarded ws) ws); auto.
  - subst t. destruct p; cbn [fits]; [exact Logic.I|eauto|rewrite (Nm eq_refl); eauto].
  - discriminate.
  - intros _. exists n, a, k. subst. auto.
  - intros. apply write_guarded.
Qed.
Lemma string_compact saved n a k cb : saved = ([Elem n a k], true) -> name_ok n -> Forall wf [Elem n a k] -> is_compact_document (as_string Whole true saved cb) [Elem n a k].
Proof.
  intros -> Hn F. set (kids := [Elem n a k]) in *. assert (N : kids <> []) by discriminate. unfold is_compact_document, as_string. cbn [negb fst snd].
  destruct (part_text_spec Whole (guarded no_ws) kids Logic.I) as (nl & E & _). change (is_whole Whole) with true in E.
  rewrite (indented_text true kids (guarded no_ws) no_ws nl N) in E; [|intros; apply write_guarded|reflexivity].
  destruct (object_compact true kids nl F N ltac:(discriminate)) as (s & d & Es & D & X). rewrite Es in E. cbn in X. subst d. exists s, (Elem XML_DECL [] kids). split; [exact E|]. split; [exact D|]. split; [|reflexivity].
  eapply shown_root; [exact Hn|]. apply (compact_shows true kids (Elem XML_DECL [] kids) F eq_refl). eauto.
Qed.
