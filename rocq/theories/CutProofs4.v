(** Interrupted saves: crash points after which the file still loads, as something else. *)
From Verif Require Import CBase CBaseProofs XmlEntity XmlModel SpecXml Utf8Proofs XmlTermProofs XmlProofs XmlRound XmlRoots SimProofs XmlText TocModel TocXmlModel TocXmlBase SpecToc SpecTocXml TocXmlProofs TocXmlProofs2 TocXmlProofs3 TocXmlProofs5 ValidProofs ControlModel SpecControl ControlProofs2 WsModel SpecWs WsProofs
  FileModel SpecFile FileProofs SpecCut CutProofs CutProofs2 CutProofs3.

Definition opens (n : cstr) : Prop := is_text n /\ forall K, tag (mkP [mkFrame XML_DECL [] K] None [] true) (tok8 n) = Ret (End (Some (Elem XML_DECL [] (rev K ++ [Elem n [] []])))).
Lemma run_end st t st' t' r : reach st t st' t' -> step st' t' = Ret (End r) -> forall f, (List.length t < f)%nat -> run_parser f st t = Ret r.
Proof.
  intros R E. induction R as [st t|st t st1 t1 st2 t2 E1 R IH]; intros f L; (destruct f as [|f]; [lia|]).
  - cbn. now rewrite E.
  - cbn. rewrite E1. cbn. apply step_shorter in E1. apply IH; [exact E|lia].
Qed.
Lemma blank_is_text w : blank w -> is_text w.
Proof. apply blank_text. Qed.
Lemma decl_text : is_text (60 :: XML_DECL ++ [62]).
Proof. apply ascii_text_by. reflexivity. Qed.
Lemma early_cut w0 w n : blank w0 -> blank w -> opens n ->
  load_bytes (w0 ++ 60 :: XML_DECL ++ 62 :: w ++ 60 :: n) = Ret (Some (Elem XML_DECL [] (pend w ++ [Elem n [] []]))).
Proof.
  intros B0 B (Tn & O).
  assert (T : is_text (w0 ++ 60 :: XML_DECL ++ 62 :: w ++ 60 :: n)).
  { apply is_text_app; [now apply blank_text|]. change (60 :: XML_DECL ++ 62 :: w ++ 60 :: n) with ((60 :: XML_DECL ++ [62]) ++ w ++ 60 :: n).
    apply is_text_app; [exact decl_text|]. apply is_text_app; [now apply blank_text|]. now apply is_text_cons. }
  rewrite load_text by exact T. unfold load_string. eapply run_end; [| |lia].
  - eapply reach_trans; [apply (reach_blank_top [] None w0 B0)|]. eapply reach_trans; [apply reach_one, decl_tag|]. apply (reach_blank _ _ w B (60 :: n) []).
  - destruct closed_blank as (Wb & _ & Wa). cbn [app]. rewrite (step_tag blank Wb Wa); [|discriminate]. cbn [add_kids]. rewrite O. f_equal. f_equal. f_equal. f_equal. cbn [fr_kids]. rewrite app_nil_r. f_equal. now destruct w.
Qed.
Lemma early_cut2 w0 w : blank w0 -> blank w -> load_bytes (w0 ++ 60 :: XML_DECL ++ 62 :: w) = Ret (Some (Elem XML_DECL [] [])).
Proof.
  intros B0 B.
  assert (T : is_text (w0 ++ 60 :: XML_DECL ++ 62 :: w)).
  { apply is_text_app; [now apply blank_text|]. change (60 :: XML_DECL ++ 62 :: w) with ((60 :: XML_DECL ++ [62]) ++ w).
    apply is_text_app; [exact decl_text|]. now apply blank_text. }
  rewrite load_text by exact T. unfold load_string. eapply run_end; [| |lia].
  - eapply reach_trans; [apply (reach_blank_top [] None w0 B0)|]. eapply reach_trans; [apply reach_one, decl_tag|]. pose proof (reach_blank [mkFrame XML_DECL [] []] None w B [] []) as R. rewrite app_nil_r in R. exact R.
  - reflexivity.
Qed.
Lemma look_pend self n w : n <> XML_DECL -> look self n (Elem XML_DECL [] (pend w ++ [Elem n [] []])) = Some (Elem n [] []).
Proof.
  intro N. rewrite look_decl by assumption. rewrite find_in_app, find_in_cons. cbn [named]. rewrite str_eqb_refl. now destruct w.
Qed.
(** The text of a compact save. *)
Lemma compact_text n a ks rest nl : is_special n = false -> write_tag_name n = n ->
  exists r, save_indented true (Elem n a ks :: rest, true) (guarded no_ws) nl = Ok (Some (60 :: XML_DECL ++ 62 :: 60 :: n ++ r)).
Proof.
  intros Sp Wn. unfold save_indented. cbn [snd fst]. rewrite write_guarded. cbn [obind]. unfold new_xml. cbn [write_node].
  change (is_special XML_DECL) with true. change (write_tag_name XML_DECL) with XML_DECL. cbv iota. cbn [flat_map write_node]. rewrite Wn. unfold no_ws. cbn [app].
  destruct ks; rewrite ?Sp; eexists; f_equal; f_equal; cbn [app]; rewrite <- ?app_assoc; cbn [app]; rewrite <- ?app_assoc; cbn [app]; rewrite <- ?app_assoc; reflexivity.
Qed.
Lemma store_compact o saved cb nl d name s : snd saved = true -> save_indented true saved (guarded no_ws) nl = Ok (Some s) ->
  exists d', store o true saved cb true nl true d name = Ok (d', true) /\ d' name = Some s.
Proof.
  intros E W. exists (write_file (write_file d name []) name s). split; [|apply write_file_at].
  unfold store. cbn [negb]. destruct o; rewrite E, W; reflexivity.
Qed.
Lemma crash_point {A} o saved cb (load : node -> option A) n a ks rest e self : saved = (Elem n a ks :: rest, true) -> is_special n = false -> write_tag_name n = n -> opens n ->
  by_look self n load -> n <> XML_DECL -> load_empty n load = Some e -> crash_may_leave (store o true saved cb) load e.
Proof.
  intros -> Sp Wn O (_ & F) N L nl d name. destruct (compact_text n a ks rest nl Sp Wn) as (r & W).
  destruct (store_compact o (Elem n a ks :: rest, true) cb nl d name _ eq_refl W) as (d' & St & E). exists d'.
  set (p := 60 :: XML_DECL ++ 62 :: 60 :: n). exists (write_file d' name p). split; [exact St|]. split.
  - exists p, r. split; [|apply write_file_at]. rewrite E. reflexivity.
  - unfold fetch. rewrite write_file_at. unfold p. pose proof (early_cut [] [] n ltac:(constructor) ltac:(constructor) O) as X. cbn [pend app] in X. rewrite X. unfold load_empty in L. now rewrite L.
Qed.
Lemma crash_after_decl {A} o saved cb (load : node -> option A) n a ks rest e : saved = (Elem n a ks :: rest, true) -> is_special n = false -> write_tag_name n = n ->
  load (Elem XML_DECL [] []) = Some e -> crash_may_leave (store o true saved cb) load e.
Proof.
  intros -> Sp Wn L nl d name. destruct (compact_text n a ks rest nl Sp Wn) as (r & W).
  destruct (store_compact o (Elem n a ks :: rest, true) cb nl d name _ eq_refl W) as (d' & St & E). exists d'.
  set (p := 60 :: XML_DECL ++ [62]). exists (write_file d' name p). split; [exact St|]. split.
  - exists p, (60 :: n ++ r). split; [|apply write_file_at]. rewrite E. reflexivity.
  - unfold fetch. rewrite write_file_at. unfold p. pose proof (early_cut2 [] [] ltac:(constructor) ltac:(constructor)) as X. cbn [app] in X. rewrite X. now rewrite L.
Qed.
(** Nothing of the new content has been written, and the old content is gone. *)
Lemma crash_loses {A} o g saved cb (load : node -> option A) compact nl d name d' : store o g saved cb compact nl true d name = Ok (d', true) ->
  exists d'', interrupted d' d'' name /\ fetch load true d'' name = Ok None.
Proof.
  intro St. destruct (store_text _ _ _ _ _ _ _ _ _ St) as (s & _ & E). exists (write_file d' name []). split.
  - exists [], s. split; [exact E|apply write_file_at].
  - unfold fetch. now rewrite write_file_at.
Qed.
(** The text cut after some whole elements and the name of the next one. *)
Lemma late_cut ks n : Forall wf ks -> opens n -> exists ks1 b,
  load_bytes (60 :: XML_DECL ++ 62 :: flat_map (write_node no_ws [XML_DECL]) ks ++ 60 :: n) = Ret (Some (Elem XML_DECL [] (ks1 ++ pend b ++ [Elem n [] []]))) /\ Forall2 sim (elems ks) (elems ks1).
Proof.
  intros Hk (Tn & O). destruct closed_blank as (Wb & W0 & Wa).
  assert (Hi : indenting no_ws) by (intros ? ? ?; constructor).
  assert (R : Forall (fun k => round blank no_ws k /\ is_elem k = true) ks) by (eapply Forall_impl; [|exact Hk]; intros t Ht; split; [now apply round_trip|now apply wf_is_elem]).
  destruct (round_kids blank Wa no_ws [XML_DECL] ks R (mkFrame XML_DECL [] []) [] None [] (60 :: n) W0) as (ks1 & b' & Wb' & V & R2).
  exists ks1, b'. split.
  - assert (T : is_text (60 :: XML_DECL ++ 62 :: flat_map (write_node no_ws [XML_DECL]) ks ++ 60 :: n)).
    { change (60 :: XML_DECL ++ 62 :: ?x) with ((60 :: XML_DECL ++ [62]) ++ x). apply is_text_app; [exact decl_text|]. apply is_text_app; [|now apply is_text_cons].
      clear -Hk Hi. induction Hk as [|t l H _ IH]; [exists []; split; [constructor|reflexivity]|]. cbn [flat_map]. apply is_text_app; [now apply wf_node_text|exact IH]. }
    rewrite load_text by exact T. unfold load_string. eapply run_end; [| |lia].
    + eapply reach_trans; [apply reach_one, decl_tag|]. exact R2.
    + rewrite (step_tag blank Wb Wa); [|discriminate]. cbn [add_kids fr_kids fr_name fr_attrs]. rewrite O. rewrite rev_app_distr, app_nil_r, rev_involutive. rewrite <- app_assoc. f_equal. f_equal. f_equal. f_equal. f_equal. f_equal. now destruct b'.
  - specialize (V [] W0). apply weave_elems in V. unfold elems in V. rewrite filter_app in V.
    replace (filter is_elem (pend (b' ++ []))) with (@nil node) in V by (destruct (b' ++ []); reflexivity). rewrite app_nil_r in V.
    assert (Ek : elems ks = ks).
    { clear -Hk. induction Hk as [|k ks W F IH]; [reflexivity|]. cbn. rewrite (wf_is_elem _ W). now f_equal. }
    rewrite Ek. exact V.
Qed.
Lemma compact_text2 t1 n a ks nl : is_special n = false -> write_tag_name n = n ->
  exists r, save_indented true ([t1; Elem n a ks], true) (guarded no_ws) nl = Ok (Some ((60 :: XML_DECL ++ 62 :: flat_map (write_node no_ws [XML_DECL]) [t1] ++ 60 :: n) ++ r)).
Proof.
  intros Sp Wn. unfold save_indented. cbn [snd fst]. rewrite write_guarded. cbn [obind]. unfold new_xml. cbn [write_node].
  change (is_special XML_DECL) with true. change (write_tag_name XML_DECL) with XML_DECL. cbv iota. cbn [flat_map]. cbn [write_node]. rewrite Wn.
  change (no_ws [] ?x ?p) with (@nil Z). change (no_ws [XML_DECL] ?x ?p) with (@nil Z). cbn [app].
  destruct ks; rewrite ?Sp; eexists; f_equal; f_equal; repeat (rewrite <- ?app_assoc; cbn [app]); reflexivity.
Qed.
Lemma control_point a t : admin_carried a -> tech_carried t ->
  crash_may_leave (control_to_file (mkControl (Some a) (Some t))) load_control (mkControl (Some (admin_back a)) (Some tech_create)).
Proof.
  intros Ca ((f & Ef & Cf) & C1 & C2) nl d name.
  assert (Sv : save_control (mkControl (Some a) (Some t)) = ([tree_admin a; tree_tech f t], true)).
  { unfold save_control. cbn [cd_admin cd_tech save_admin]. rewrite (save_tech_ok t f) by assumption. reflexivity. }
  destruct (compact_text2 (tree_admin a) tech_name [] (node_kids (tree_tech f t)) nl eq_refl eq_refl) as (r & W).
  change (Elem tech_name [] (node_kids (tree_tech f t))) with (tree_tech f t) in W. rewrite <- Sv in W.
  assert (Op : opens tech_name) by (split; [apply ascii_text_by; reflexivity|intro; reflexivity]).
  assert (Wf : Forall wf [tree_admin a]) by (constructor; [now apply wf_admin|constructor]).
  destruct (late_cut [tree_admin a] tech_name Wf Op) as (ks1 & b & L & F).
  set (p := 60 :: XML_DECL ++ 62 :: flat_map (write_node no_ws [XML_DECL]) [tree_admin a] ++ 60 :: tech_name) in *.
  assert (Sv1 : snd (save_control (mkControl (Some a) (Some t))) = true) by now rewrite Sv.
  destruct (store_compact BuildFirst _ ws_control nl d name _ Sv1 W) as (d' & St & E).
  exists d', (write_file d' name p). split; [exact St|]. split; [exists p, r; split; [exact E|apply write_file_at]|].
  unfold fetch. rewrite write_file_at, L. f_equal.
  replace (elems [tree_admin a]) with [tree_admin a] in F by (unfold elems, tree_admin; cbn [filter]; now rewrite elem_plain by reflexivity). destruct (elems ks1) as [|x l] eqn:E1; [inversion F|]. inversion F; subst. inversion H4; subst.
  rewrite control_elems. rewrite !elems_app, E1. replace (elems (pend b)) with (@nil node) by (now destruct b). cbn [app]. change (elems [Elem tech_name [] []]) with [Elem tech_name [] []].
  pose proof (sim_named admin_name _ _ H2) as N1. change (named admin_name (tree_admin a)) with true in N1.
  pose proof (sim_named tech_name _ _ H2) as N2. change (named tech_name (tree_admin a)) with false in N2.
  pose proof (sim_find tech_name _ _ H2) as N3. rewrite (within_find _ tech_name _ (within_admin a)) in N3 by reflexivity. destruct (find_elem tech_name x) eqn:N4; [destruct N3|].
  assert (FA : find_elem admin_name (Elem XML_DECL [] [x; Elem tech_name [] []]) = Some x) by (rewrite find_elem_in; rewrite find_in_cons, <- N1; reflexivity).
  assert (FT : find_elem tech_name (Elem XML_DECL [] [x; Elem tech_name [] []]) = Some (Elem tech_name [] [])) by (rewrite find_elem_in; rewrite find_in_cons, <- N2, N4; reflexivity).
  unfold load_control, load_admin, load_tech. fold admin_name tech_name. rewrite FA, FT. cbn [fst]. rewrite (load_admin_fields a) by assumption. reflexivity.
Qed.
