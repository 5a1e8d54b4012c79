(** Interrupted saves: what the load functions make of the file. *)
From Verif Require Import CBase CBaseProofs XmlEntity XmlModel SpecXml Utf8Proofs XmlTermProofs XmlProofs XmlRound XmlRoots SimProofs XmlText TocModel TocXmlModel TocXmlBase SpecToc SpecTocXml TocXmlProofs TocXmlProofs2 TocXmlProofs3 TocXmlProofs5 ValidProofs ControlModel SpecControl ControlProofs2 WsModel SpecWs WsProofs
  FileModel SpecFile FileProofs SpecCut CutProofs CutProofs2.

Lemma run_from st t st' t' : reach st t st' t' -> forall f x, run_parser f st t = Ret x -> exists f', run_parser f' st' t' = Ret x.
Proof.
  induction 1 as [|st t st1 t1 st2 t2 S1 R IH]; intros f x E; [eauto|]. destruct f; [discriminate|]. cbn in E. rewrite S1 in E. cbn in E. eauto.
Qed.
Definition starts_with_decl (s : cstr) : Prop := exists w r, blank w /\ s = w ++ 60 :: XML_DECL ++ 62 :: r.
Lemma decl_name s N A K : starts_with_decl s -> is_text s -> load_bytes s = Ret (Some (Elem N A K)) -> N = XML_DECL /\ A = [].
Proof.
  intros (w & r & B & ->) T E. rewrite load_text in E by assumption. unfold load_string in E.
  destruct (run_from _ _ _ _ (reach_blank_top [] None w B _) _ _ E) as (f1 & E1).
  destruct (run_from _ _ _ _ (reach_one _ _ _ _ (decl_tag r)) _ _ E1) as (f2 & E2).
  apply run_going in E2; [|now right]. destruct E2 as (W & _). cbn in W. destruct W as (<- & <- & _). auto.
Qed.
Lemma load_cases s p : is_text s -> (exists D, load_bytes s = Ret (Some D)) -> starts_with_decl s -> beginning p s ->
  load_bytes p = Fail \/ load_bytes p = Ret None \/
  exists K, load_bytes s = Ret (Some (Elem XML_DECL [] K)) /\ exists t, load_bytes p = Ret (Some t) /\ torn (Elem XML_DECL [] K) (Some t).
Proof.
  intros T (D & E) S B. destruct (load_cut s D p T E B) as [H|(n & H1 & H2)]; [auto|]. destruct n as [t|]; [|auto].
  right. right. destruct D as [N A K|x]; [|inversion H2].
  destruct (decl_name s N A K S T E) as (-> & ->). exists K. split; [exact E|]. eauto.
Qed.
(** A load function that looks for one element, at the node itself or only below it. *)
Definition look (self : bool) (n : cstr) (d : node) : option node := if self then at_or_below n d else find_elem n d.
Lemma look_decl self n K : n <> XML_DECL -> look self n (Elem XML_DECL [] K) = find_in n K.
Proof.
  intro N. destruct self; [|reflexivity]. unfold look, at_or_below. cbn [named]. destruct (str_eqb XML_DECL n) eqn:E; [apply str_eqb_eq in E; congruence|reflexivity].
Qed.
Lemma look_leaf self n m : look self n (Elem m [] []) = None \/ m = n.
Proof.
  destruct self; [|now left]. unfold look, at_or_below. cbn [named]. destruct (str_eqb m n) eqn:E; [right; now apply str_eqb_eq|now left].
Qed.
Lemma find_leaf n m : find_in n [Elem m [] []] = None \/ (m = n /\ find_in n [Elem m [] []] = Some (Elem n [] [])).
Proof. rewrite find_in_cons. cbn [named]. destruct (str_eqb m n) eqn:E; [right; apply str_eqb_eq in E; subst; auto|now left]. Qed.
Lemma look_torn self n K t : n <> XML_DECL -> torn (Elem XML_DECL [] K) (Some t) ->
  look self n t = None \/ look self n t = Some (Elem n [] []) \/ look self n t = look self n (Elem XML_DECL [] K).
Proof.
  intros N T. rewrite look_decl by assumption. inversion T; subst.
  - destruct (look_leaf self n m) as [H| ->]; [auto|]. destruct self; [|now left]. right. left. unfold look, at_or_below. cbn [named]. now rewrite str_eqb_refl.
  - rewrite look_decl, find_in_app by assumption. destruct (find_in n k1); auto.
  - rewrite look_decl, !find_in_app by assumption. destruct (find_in n k1); [auto|]. destruct (find_leaf n m) as [-> |(_ & ->)]; auto.
  - rewrite look_decl, !find_in_app by assumption. destruct (find_in n K); [auto|]. destruct (find_leaf n []) as [-> |(_ & ->)]; auto.
Qed.
(** The text of an interrupted save. *)
Lemma store_text o guard saved cb compact nl d name d' : store o guard saved cb compact nl true d name = Ok (d', true) ->
  exists s, save_indented true saved (if compact then guarded no_ws else cb) nl = Ok (Some s) /\ d' name = Some s.
Proof.
  unfold store. destruct guard; cbn [negb]; [|discriminate]. intro E.
  assert (X : exists d1, obind (save_indented true saved (if compact then guarded no_ws else cb) nl) (fun s => match s with Some x => Ok (write_file d1 name x, true) | None => Ok (d1, false) end) = Ok (d', true)).
  { destruct o; destruct (snd saved); cbn [negb] in E; try discriminate; eauto. }
  destruct X as (d1 & X). destruct (save_indented _ _ _ _) as [[s|]|]; cbn [obind] in X; try discriminate. injection X as <-. exists s. split; [reflexivity|apply write_file_at].
Qed.
Definition blank_first (saved : list node * bool) (cb : checked_cb) : Prop := forall w, cb [] (new_xml (fst saved)) BeforeOpen = Ok w -> blank w.
Lemma saved_starts saved cb nl s : blank_first saved cb -> save_indented true saved cb nl = Ok (Some s) -> starts_with_decl s.
Proof.
  intros B E. unfold save_indented in E. destruct (snd saved); [|discriminate]. unfold new_xml in *. cbn [write_checked] in E.
  unfold blank_first, new_xml in B. destruct (cb [] (Elem XML_DECL [] (fst saved)) BeforeOpen) as [w|] eqn:E1; [|discriminate]. specialize (B w eq_refl).
  cbn [obind] in E. destruct (cb [] (Elem XML_DECL [] (fst saved)) AfterOpen) as [w2|]; [|discriminate]. cbn [obind] in E.
  change (is_special XML_DECL) with true in E. change (write_tag_name XML_DECL) with XML_DECL in E. cbn [flat_map] in E. cbv iota in E.
  destruct (fst saved) as [|k ks].
  - cbn [obind] in E. injection E as <-. exists w. eexists. split; [exact B|]. rewrite <- ?app_assoc. cbn [app]. rewrite <- ?app_assoc. cbn [app]. reflexivity.
  - destruct (ocat_map _ (k :: ks)) as [x|]; [|discriminate]. cbn [obind] in E. injection E as <-. exists w. eexists. split; [exact B|]. rewrite <- ?app_assoc. cbn [app]. rewrite <- ?app_assoc. cbn [app]. reflexivity.
Qed.
Lemma guarded_first saved ws : indenting ws -> blank_first saved (guarded ws).
Proof. intros I w E. injection E as <-. apply I. Qed.

(** The text a save writes and what the cut text is read as, for every load function. *)
Lemma crash_cases {A} o g saved cb (load : node -> option A) x (compact : bool) nl d name d' d'' :
  indented_round_trips true saved (if compact then guarded no_ws else cb) load x -> blank_first saved (if compact then guarded no_ws else cb) ->
  store o g saved cb compact nl true d name = Ok (d', true) -> interrupted d' d'' name ->
  fetch load true d'' name = Ok None \/
  exists K t, load (Elem XML_DECL [] K) = Some x /\ torn (Elem XML_DECL [] K) (Some t) /\ fetch load true d'' name = Ok (load t) /\
              (exists s, save_indented true saved (if compact then guarded no_ws else cb) nl = Ok (Some s) /\ is_text s /\ load_string s = Ret (Some (Elem XML_DECL [] K))).
Proof.
  intros R B St (p & q & E1 & E2). destruct (store_text _ _ _ _ _ _ _ _ _ St) as (s & W & E3). rewrite E1 in E3. injection E3 as E3.
  destruct (R nl) as (s' & W' & L & T). rewrite W in W'. injection W' as <-.
  assert (L' : exists D, load_string s = Ret (Some D) /\ load D = Some x).
  { unfold load_object in L. destruct s as [|c0 s0]; [discriminate|]. destruct (load_string (c0 :: s0)) as [[D|]| | |]; try discriminate. injection L as L. eauto. }
  destruct L' as (D & L1 & L2). pose proof L1 as L3. rewrite <- load_text in L3 by assumption.
  unfold fetch. rewrite E2.
  destruct (load_cases s p T (ex_intro _ D L3) (saved_starts _ _ _ _ B W) (ex_intro _ q (eq_sym E3))) as [-> |[-> |(K & H1 & t & H2 & H3)]]; [now left|now left|].
  right. rewrite L3 in H1. injection H1 as ->. exists K, t. rewrite H2. repeat split; auto. exists s. auto.
Qed.
Definition by_look {A} (self : bool) (n : cstr) (load : node -> option A) : Prop :=
  (forall d, look self n d = None -> load d = None) /\ (forall d d', look self n d = look self n d' -> load d = load d').
Definition load_empty {A} (n : cstr) (load : node -> option A) : option A := load (Elem XML_DECL [] [Elem n [] []]).
Lemma look_empty self n : n <> XML_DECL -> look self n (Elem XML_DECL [] [Elem n [] []]) = Some (Elem n [] []).
Proof. intro N. rewrite look_decl by assumption. rewrite find_in_cons. cbn [named]. now rewrite str_eqb_refl. Qed.
Lemma crash_by {A} o g saved cb (load : node -> option A) x self n : by_look self n load -> n <> XML_DECL -> forall compact : bool,
  indented_round_trips true saved (if compact then guarded no_ws else cb) load x -> blank_first saved (if compact then guarded no_ws else cb) ->
  forall nl d name d' d'', store o g saved cb compact nl true d name = Ok (d', true) -> interrupted d' d'' name ->
    exists r, fetch load true d'' name = Ok r /\ forall y, r = Some y -> y = x \/ load_empty n load = Some y.
Proof.
  intros (F1 & F2) N compact R B nl d name d' d'' St I.
  destruct (crash_cases _ _ _ _ _ _ _ _ _ _ _ _ R B St I) as [->|(K & t & L & T & -> & _)]; [exists None; split; [reflexivity|discriminate]|].
  eexists. split; [reflexivity|]. intros y E. destruct (look_torn self n K t N T) as [H|[H|H]].
  - rewrite F1 in E by exact H. discriminate.
  - right. unfold load_empty. rewrite <- E. apply F2. rewrite H. now apply look_empty.
  - left. rewrite (F2 _ _ H), L in E. now injection E.
Qed.
Lemma crash_guarded {A} o g saved ws (load : node -> option A) x self n (other : A -> Prop) : indenting ws -> document_round_trips saved load x -> by_look self n load -> n <> XML_DECL ->
  (forall y, load_empty n load = Some y -> other y) -> crash_leaves (store o g saved (guarded ws)) load x other.
Proof.
  intros I R B N O compact nl d name d' d'' St In. 
  assert (N0 : indenting no_ws) by (intros ? ? ?; constructor).
  destruct (crash_by o g saved (guarded ws) load x self n B N compact) with (nl := nl) (d := d) (name := name) (d' := d') (d'' := d'') as (r & E1 & E2); auto.
  - destruct compact; now apply indented_guarded_document.
  - destruct compact; now apply guarded_first.
  - exists r. split; [exact E1|]. intros y E. destruct (E2 y E); auto.
Qed.

(** * Loads that search the whole document: files, reels and control data *)
Lemma elems_app l l' : elems (l ++ l') = elems l ++ elems l'.
Proof. apply filter_app. Qed.
Lemma elems_elems l : elems (elems l) = elems l.
Proof. unfold elems. induction l as [|x l IH]; cbn; [reflexivity|]. destruct (is_elem x) eqn:E; [|exact IH]. cbn. now rewrite E, IH. Qed.
Lemma descendants_elems N A ks N' A' : elems (descendants (Elem N A ks)) = elems (descendants (Elem N' A' (elems ks))).
Proof. cbn [descendants]. now rewrite !elems_kids, elems_elems. Qed.
Lemma find_all_elems n {P : plain n} N A ks N' A' : find_all n (Elem N A ks) = find_all n (Elem N' A' (elems ks)).
Proof. unfold find_all. now rewrite (named_elems n), (descendants_elems N A ks N' A'), <- (named_elems n). Qed.
Lemma find_elem_elems n {P : plain n} N A ks N' A' : find_elem n (Elem N A ks) = find_elem n (Elem N' A' (elems ks)).
Proof. unfold find_elem. now rewrite (find_elems n), (descendants_elems N A ks N' A'), <- (find_elems n). Qed.
Lemma load_files_elems N A ks : load_files (Elem N A ks) = load_files (Elem XML_DECL [] (elems ks)).
Proof. unfold load_files. now rewrite (find_all_elems _ N A ks XML_DECL []). Qed.
Lemma load_reels_elems ks : load_reels (Elem XML_DECL [] ks) = load_reels (Elem XML_DECL [] (elems ks)).
Proof.
  unfold load_reels, reel_nodes. cbn [named]. change (str_eqb XML_DECL (s2z "reels")) with false. cbv iota.
  rewrite (find_elem_elems _ XML_DECL [] ks XML_DECL []). destruct (find_elem _ _) as [r|]; [|reflexivity]. destruct (find_all _ r); [reflexivity|].
  now rewrite (after_first_elems (s2z "reels")), (descendants_elems XML_DECL [] ks XML_DECL []), <- (after_first_elems (s2z "reels")).
Qed.
(** The names of the elements below the declaration. *)
Definition tops (d : node) : option (list (option cstr)) := Some (map node_name (elems (node_kids d))).
Lemma sim_tops d d' : sim d d' -> tops d = tops d'.
Proof.
  intro H. apply sim_kids in H. unfold tops. f_equal. induction H as [|x y l l' Hx F IH]; [reflexivity|]. cbn. now rewrite (sim_node_name _ _ Hx), IH.
Qed.
Lemma beginning_in (m n : cstr) : beginning m n -> In m (map (fun k => firstn k n) (seq 0 (S (List.length n)))).
Proof.
  intros (q & ->). apply in_map_iff. exists (List.length m). split; [|apply in_seq; rewrite app_length; lia].
  rewrite firstn_app, Nat.sub_diag. cbn. now rewrite app_nil_r, firstn_all.
Qed.
Lemma note_beginning m n : beginning m n -> note_name n = true -> m = [] \/ note_name m = true.
Proof.
  intros (q & ->) H. destruct m as [|c m]; [now left|]. right. change ((c :: m) ++ q) with (c :: (m ++ q)) in H. unfold note_name in *.
  destruct (c =? 63); [reflexivity|]. cbn [orb] in *. destruct (c =? 33); [|discriminate]. cbn [andb] in *.
  destruct (str_eqb (firstn 8 (c :: m)) (s2z "![CDATA[")) eqn:E; [|reflexivity]. apply str_eqb_eq in E. exfalso.
  assert (L : (8 <= List.length (c :: m))%nat) by (pose proof (f_equal (@List.length Z) E) as Q; rewrite firstn_length in Q; change (List.length (s2z "![CDATA[")) with 8%nat in Q; lia).
  change (c :: m ++ q) with ((c :: m) ++ q) in H. rewrite firstn_app in H. replace (8 - List.length (c :: m))%nat with O in H by lia. change (firstn 0 q) with (@nil Z) in H. rewrite app_nil_r, E in H. discriminate.
Qed.
Lemma elem_plain n a ks : note_name n = false -> is_elem (Elem n a ks) = true.
Proof. intro H. destruct a as [|]; [|reflexivity]. destruct ks as [|]; [|reflexivity]. cbn [is_elem]. now rewrite H. Qed.
Lemma not_elem_leaf n a ks : is_elem (Elem n a ks) = false -> note_name n = true.
Proof. destruct a as [|]; [|discriminate]. destruct ks as [|]; [|discriminate]. cbn [is_elem]. now destruct (note_name n). Qed.
(** With one element below the declaration, the torn documents have none, a leaf, that one, or it and an unnamed leaf. *)
Lemma torn_single n K t : tops (Elem XML_DECL [] K) = Some [Some n] -> torn (Elem XML_DECL [] K) (Some t) ->
  (exists m, t = Elem m [] []) \/
  exists k, t = Elem XML_DECL [] k /\
    (elems k = [] \/ (exists m, beginning m n /\ elems k = [Elem m [] []]) \/ elems k = elems K \/ elems k = elems K ++ [Elem [] [] []]).
Proof.
  intros S T. unfold tops in S. cbn [node_kids] in S. injection S as S. inversion T; subst.
  - left. eauto.
  - right. eexists. split; [reflexivity|]. rewrite elems_app, map_app in S. destruct (elems k1) as [|e l] eqn:E1; [now left|]. right. right. left. rewrite elems_app.
    destruct l; [|destruct (elems k2); discriminate]. destruct (elems k2) eqn:E2; [|discriminate]. rewrite E1. reflexivity.
  - right. eexists. split; [reflexivity|]. rewrite elems_app in S. rewrite !elems_app. cbn [elems filter] in S |- *. fold (elems k2) in *. destruct (is_elem (Elem n2 a2 ks2)) eqn:E2.
    + rewrite map_app in S. cbn [map node_name] in S. destruct (elems k1) as [|e l] eqn:E1; [|destruct l; discriminate]. cbn [map app] in S. injection S as -> S. cbn [app].
      destruct (is_elem (Elem m [] [])); [|now left]. right. left. exists m. split; [assumption|reflexivity].
    + rewrite map_app in S. apply not_elem_leaf in E2. match goal with B : beginning _ _ |- _ => destruct (note_beginning _ _ B E2) as [-> |N] end.
      * change (is_elem (Elem [] [] [])) with true. cbv iota. destruct (elems k1) as [|e l] eqn:E1.
        -- right. left. exists []. split; [now exists n|reflexivity].
        -- right. right. right. destruct l; [|destruct (elems k2); discriminate]. destruct (elems k2); [reflexivity|discriminate].
      * cbn [is_elem]. rewrite N. cbn [negb]. rewrite app_nil_r. destruct (elems k1) as [|e l] eqn:E1; [now left|]. right. right. left.
        destruct l; [|destruct (elems k2); discriminate]. destruct (elems k2); [reflexivity|discriminate].
  - right. eexists. split; [reflexivity|]. right. right. right. now rewrite elems_app.
Qed.
Lemma after_first_snoc n l x : named n x = false -> after_first n (l ++ [x]) = match find (named n) l with Some _ => after_first n l ++ [x] | None => [] end.
Proof. intro N. induction l as [|y l IH]; cbn; [now rewrite N|]. destruct (named n y); [reflexivity|exact IH]. Qed.
Lemma after_first_none n l : find (named n) l = None -> after_first n l = [].
Proof. induction l as [|y l IH]; cbn; [reflexivity|]. destruct (named n y); [discriminate|exact IH]. Qed.
Lemma descendants_snoc N A ks m : descendants (Elem N A (ks ++ [Elem m [] []])) = descendants (Elem N A ks) ++ [Elem m [] []].
Proof. cbn [descendants]. now rewrite flat_map_app. Qed.
Lemma find_snoc n N A ks : n <> [] -> find_elem n (Elem N A (ks ++ [Elem [] [] []])) = find_elem n (Elem N A ks).
Proof.
  intro H. unfold find_elem. rewrite descendants_snoc. induction (descendants (Elem N A ks)) as [|y l IH]; cbn.
  - destruct n; [congruence|reflexivity].
  - destruct (named n y); [reflexivity|exact IH].
Qed.
Lemma load_files_snoc N A ks : load_files (Elem N A (ks ++ [Elem [] [] []])) = load_files (Elem N A ks).
Proof. unfold load_files, find_all. rewrite descendants_snoc, filter_app. cbn [filter named]. change (str_eqb [] (s2z "file")) with false. cbv iota. now rewrite app_nil_r. Qed.
Lemma load_reels_snoc ks : load_reels (Elem XML_DECL [] (ks ++ [Elem [] [] []])) = load_reels (Elem XML_DECL [] ks).
Proof.
  unfold load_reels, reel_nodes. cbn [named]. change (str_eqb XML_DECL (s2z "reels")) with false. cbv iota. rewrite find_snoc by discriminate.
  unfold find_elem. destruct (find _ _) as [r|] eqn:E; [|reflexivity]. destruct (find_all _ r); [reflexivity|].
  rewrite descendants_snoc, after_first_snoc by reflexivity. rewrite E, filter_app. cbn [filter named]. change (str_eqb [] (s2z "reel")) with false. cbv iota. now rewrite app_nil_r.
Qed.
(** The shape of the document a save is read back as. *)
Lemma shape {A} saved cb (load : node -> option A) x nl s D : indented_round_trips true saved cb load x -> save_indented true saved cb nl = Ok (Some s) ->
  load_string s = Ret (Some D) -> load D = Some x.
Proof.
  intros R W L. destruct (R nl) as (s' & W' & L' & _). rewrite W in W'. injection W' as <-. unfold load_object in L'. rewrite L in L'. destruct s; [discriminate|]. now injection L'.
Qed.
Lemma crash_list {A} o g saved cb (load : node -> option (option A)) x n : n <> [] ->
  (forall ks, load (Elem XML_DECL [] ks) = load (Elem XML_DECL [] (elems ks))) ->
  (forall ks, load (Elem XML_DECL [] (ks ++ [Elem [] [] []])) = load (Elem XML_DECL [] ks)) ->
  (forall m, load (Elem m [] []) = Some None) ->
  (forall m, beginning m n -> load (Elem XML_DECL [] [Elem m [] []]) = None \/ load (Elem XML_DECL [] [Elem m [] []]) = Some None) ->
  forall compact : bool,
  indented_round_trips true saved (if compact then guarded no_ws else cb) load x -> indented_round_trips true saved (if compact then guarded no_ws else cb) tops [Some n] ->
  blank_first saved (if compact then guarded no_ws else cb) ->
  forall nl d name d' d'', store o g saved cb compact nl true d name = Ok (d', true) -> interrupted d' d'' name ->
    exists r, fetch load true d'' name = Ok r /\ forall y, r = Some y -> y = x \/ y = None.
Proof.
  intros Nn P1 P2 P3 P4 compact R Rt B nl d name d' d'' St I.
  destruct (crash_cases _ _ _ _ _ _ _ _ _ _ _ _ R B St I) as [->|(K & t & L & T & -> & s & W & _ & Ls)]; [exists None; split; [reflexivity|discriminate]|].
  pose proof (shape _ _ _ _ _ _ _ Rt W Ls) as Sh. eexists. split; [reflexivity|]. intros y E.
  destruct (torn_single n K t Sh T) as [(m & ->)|(k & -> & H)].
  - rewrite P3 in E. injection E as <-. auto.
  - rewrite P1 in E. destruct H as [H|[(m & Bm & H)|[H|H]]]; rewrite H in E.
    + rewrite P3 in E. injection E as <-. auto.
    + destruct (P4 m Bm) as [Q|Q]; rewrite Q in E; [discriminate|]. injection E as <-. auto.
    + rewrite <- P1, L in E. injection E as <-. auto.
    + rewrite P2, <- P1, L in E. injection E as <-. auto.
Qed.
Lemma tops_document saved ks : saved = (ks, true) -> ks <> [] -> Forall wf ks -> document_round_trips saved tops (map node_name ks).
Proof.
  intros -> N W. apply (document_by _ _ ks); [reflexivity|exact N|exact W|]. intros d Sm. rewrite <- (sim_tops _ _ Sm). unfold tops, new_xml. cbn [node_kids]. do 2 f_equal.
  clear -W. induction W as [|k ks Wk _ IH]; [reflexivity|]. cbn [elems filter]. rewrite (wf_is_elem k Wk). fold (elems ks). now rewrite IH.
Qed.
Lemma leaf_files m : beginning m (s2z "files") -> load_files (Elem XML_DECL [] [Elem m [] []]) = None \/ load_files (Elem XML_DECL [] [Elem m [] []]) = Some None.
Proof.
  intro B. apply beginning_in in B. 
  assert (X : forall l, forallb (fun m => match load_files (Elem XML_DECL [] [Elem m [] []]) with None | Some None => true | _ => false end) l = true -> In m l ->
    load_files (Elem XML_DECL [] [Elem m [] []]) = None \/ load_files (Elem XML_DECL [] [Elem m [] []]) = Some None).
  { intros l H I. rewrite forallb_forall in H. specialize (H m I). cbv beta in H. destruct (load_files _) as [[|]|]; [discriminate| |]; auto. }
  eapply X; [|exact B]. vm_compute. reflexivity.
Qed.
Lemma leaf_reels m : load_reels (Elem XML_DECL [] [Elem m [] []]) = Some None.
Proof.
  unfold load_reels, reel_nodes. cbn [named]. change (str_eqb XML_DECL (s2z "reels")) with false. cbv iota. unfold find_elem. cbn [descendants flat_map app find named].
  destruct (str_eqb m (s2z "reels")); reflexivity.
Qed.
(** * Control data *)
Definition admin_name : cstr := s2z "AdministrativeMetadata".
Definition tech_name : cstr := s2z "TechnicalMetadata".
Definition parts (d : node) : option (list (option cstr) * bool) :=
  Some (map node_name (elems (node_kids d)), match elems (node_kids d) with e :: _ => match find_elem tech_name e with Some _ => true | None => false end | [] => false end).
Lemma sim_parts d d' : sim d d' -> parts d = parts d'.
Proof.
  intro H. pose proof (sim_tops _ _ H) as Q. unfold tops in Q. injection Q as Q. unfold parts. rewrite Q. f_equal. f_equal.
  apply sim_kids in H. destruct H as [|x y l l' Hx F]; [reflexivity|]. pose proof (sim_find tech_name _ _ Hx) as G.
  destruct (find_elem tech_name x), (find_elem tech_name y); cbn in G; tauto.
Qed.
Lemma parts_document a f t : admin_carried a -> te_format t = Some f -> format_carried f -> tech_carried t ->
  document_round_trips (save_control (mkControl (Some a) (Some t))) parts ([Some admin_name; Some tech_name], false).
Proof.
  intros Ca E Cf (_ & C1 & C2). apply (document_by _ _ [tree_admin a; tree_tech f t]).
  - unfold save_control. cbn [cd_admin cd_tech save_admin]. rewrite (save_tech_ok t f) by assumption. reflexivity.
  - discriminate.
  - constructor; [now apply wf_admin|]. constructor; [now apply wf_tech|constructor].
  - intros d Sm. rewrite <- (sim_parts _ _ Sm). unfold parts, new_xml. cbn [node_kids].
    replace (elems [tree_admin a; tree_tech f t]) with [tree_admin a; tree_tech f t] by (unfold elems, tree_admin, tree_tech; cbn [filter]; now rewrite !elem_plain by reflexivity). cbn [map node_name].
    rewrite (within_find _ tech_name _ (within_admin a)) by reflexivity. reflexivity.
Qed.
Lemma control_by d d' : find_elem admin_name d = find_elem admin_name d' -> find_elem tech_name d = find_elem tech_name d' -> load_control d = load_control d'.
Proof. intros E1 E2. unfold load_control, load_admin, load_tech. fold admin_name tech_name. rewrite E1, E2. reflexivity. Qed.
Lemma control_no_tech d : find_elem tech_name d = None -> load_control d = None.
Proof. intro E. unfold load_control. fold admin_name tech_name. rewrite E. now destruct (find_elem admin_name d). Qed.
Lemma control_elems ks : load_control (Elem XML_DECL [] ks) = load_control (Elem XML_DECL [] (elems ks)).
Proof. apply control_by; [apply (find_elem_elems admin_name)|apply (find_elem_elems tech_name)]. Qed.
Lemma control_empty_tech d d' c : load_control d = Some c -> find_elem admin_name d' = find_elem admin_name d -> find_elem tech_name d' = Some (Elem tech_name [] []) ->
  load_control d' = Some (mkControl (cd_admin c) (Some tech_create)).
Proof.
  unfold load_control, load_admin, load_tech. fold admin_name tech_name. intros L E1 E2. rewrite E1, E2.
  destruct (find_elem admin_name d) as [x|]; [|discriminate]. destruct (find_elem tech_name d); [|discriminate]. injection L as <-. reflexivity.
Qed.
Lemma control_torn K t c : parts (Elem XML_DECL [] K) = Some ([Some admin_name; Some tech_name], false) -> torn (Elem XML_DECL [] K) (Some t) ->
  load_control (Elem XML_DECL [] K) = Some c ->
  load_control t = None \/ load_control t = Some c \/ load_control t = Some (mkControl (cd_admin c) (Some tech_create)).
Proof.
  intros P T L. unfold parts in P. cbn [node_kids] in P. injection P as P1 P2.
  assert (Sh : exists aa ak ta tk, elems K = [Elem admin_name aa ak; Elem tech_name ta tk] /\ find_in tech_name ak = None).
  { destruct (elems K) as [|e1 [|e2 [|e3 l]]]; try discriminate. injection P1 as N1 N2. destruct e1 as [n1 aa ak|]; [|discriminate]. destruct e2 as [n2 ta tk|]; [|discriminate].
    injection N1 as ->. injection N2 as ->. exists aa, ak, ta, tk. split; [reflexivity|]. rewrite find_elem_in in P2. now destruct (find_in tech_name ak). }
  destruct Sh as (aa & ak & ta & tk & EK & NT).
  assert (FA : forall l, find_elem admin_name (Elem XML_DECL [] (Elem admin_name aa ak :: l)) = Some (Elem admin_name aa ak)) by (intro; rewrite find_elem_in, find_in_cons; reflexivity).
  assert (FT : forall l, find_elem tech_name (Elem XML_DECL [] (Elem admin_name aa ak :: l)) = find_in tech_name l).
  { intro. rewrite find_elem_in, find_in_cons. change (named tech_name (Elem admin_name aa ak)) with false. cbv iota. now rewrite find_elem_in, NT. }
  inversion T; subst.
  - left. now apply control_no_tech.
  - rewrite control_elems. rewrite elems_app in EK. destruct (elems k1) as [|e1 [|e2 l]] eqn:E1.
    + left. now apply control_no_tech.
    + injection EK as -> E2. left. apply control_no_tech. now rewrite FT.
    + destruct l; [|destruct l; discriminate]. destruct (elems k2) eqn:E2; [|discriminate]. right. left.
      rewrite control_elems in L. rewrite elems_app, E1, E2, app_nil_r in L. exact L.
  - rewrite control_elems, elems_app. rewrite elems_app in EK. cbn [elems filter] in EK |- *. fold (elems k2) in EK.
    assert (Cut : forall l, l = [] \/ l = [Elem [] [] []] -> (exists e j, elems k1 ++ e :: j = [Elem admin_name aa ak; Elem tech_name ta tk]) -> load_control (Elem XML_DECL [] (elems k1 ++ l)) = None).
    { intros l Hl (e & j & Ej). apply control_no_tech. destruct (elems k1) as [|e1 [|e2 r]] eqn:E1.
      - destruct Hl as [-> | ->]; reflexivity.
      - cbn [app] in *. injection Ej as -> Ej. rewrite FT. destruct Hl as [-> | ->]; reflexivity.
      - destruct r as [|? [|? r]]; discriminate. }
    destruct (is_elem (Elem n2 a2 ks2)) eqn:X2.
    2:{ pose proof X2 as X3. apply not_elem_leaf in X2. assert (Hl : exists l, (l = [] \/ l = [Elem [] [] []]) /\ (if is_elem (Elem m [] []) then [Elem m [] []] else []) = l).
        { match goal with B : beginning _ _ |- _ => destruct (note_beginning _ _ B X2) as [-> |N] end.
          - exists [Elem [] [] []]. auto.
          - exists []. split; [auto|]. cbn [is_elem]. now rewrite N. }
        destruct Hl as (l & Hl & ->). destruct (elems k2) as [|e j] eqn:E2.
        - right. left. rewrite app_nil_r in EK. rewrite control_elems, elems_app in L. cbn [elems filter] in L. fold (elems k2) in L. rewrite X3, E2, app_nil_r in L. rewrite <- L.
          destruct Hl as [-> | ->]; [now rewrite app_nil_r|]. apply control_by; apply find_snoc; discriminate.
        - left. apply Cut; [exact Hl|]. exists e, j. exact EK. }
    destruct (is_elem (Elem m [] [])) eqn:Xm.
    2:{ left. apply (Cut []); [auto|]. eexists _, _. exact EK. }
    destruct (elems k1) as [|e1 [|e2 l]] eqn:E1.
    + left. apply control_no_tech. cbn [app] in *. injection EK as -> _ _ _. rewrite find_elem_in. destruct (find_leaf tech_name m) as [-> |(-> & _)]; [reflexivity|].
      match goal with H : beginning _ _ |- _ => destruct H as (q & H); discriminate end.
    + cbn [app] in *. injection EK as -> -> -> -> E2. destruct (find_leaf tech_name m) as [Q|(-> & Q)].
      * left. apply control_no_tech. now rewrite FT.
      * right. right. rewrite control_elems in L. apply (control_empty_tech _ _ _ L); [|now rewrite FT].
        rewrite elems_app, E1. cbn [app]. now rewrite !FA.
    + destruct l as [|? l]; [|destruct l]; discriminate.
  - right. left. rewrite <- L. apply control_by; apply find_snoc; discriminate.
Qed.
Lemma crash_control a t : admin_carried a -> tech_carried t -> forall o g compact,
  indented_round_trips true (save_control (mkControl (Some a) (Some t))) (if compact : bool then guarded no_ws else ws_control) load_control (mkControl (Some (admin_back a)) (Some (tech_back t))) ->
  indented_round_trips true (save_control (mkControl (Some a) (Some t))) (if compact then guarded no_ws else ws_control) parts ([Some admin_name; Some tech_name], false) ->
  forall nl d name d' d'', store o g (save_control (mkControl (Some a) (Some t))) ws_control compact nl true d name = Ok (d', true) -> interrupted d' d'' name ->
    exists r, fetch load_control true d'' name = Ok r /\
      forall y, r = Some y -> y = mkControl (Some (admin_back a)) (Some (tech_back t)) \/ y = mkControl (Some (admin_back a)) (Some tech_create).
Proof.
  intros Ca Ct o g compact R Rp nl d name d' d'' St I.
  assert (B : blank_first (save_control (mkControl (Some a) (Some t))) (if compact then guarded no_ws else ws_control)).
  { destruct compact; [apply guarded_first; intros ? ? ?; constructor|]. intros w E. unfold ws_control, new_xml in E. cbn in E. injection E as <-. constructor. }
  destruct (crash_cases _ _ _ _ _ _ _ _ _ _ _ _ R B St I) as [->|(K & u & L & T & -> & s & W & _ & Ls)]; [exists None; split; [reflexivity|discriminate]|].
  pose proof (shape _ _ _ _ _ _ _ Rp W Ls) as Sh. eexists. split; [reflexivity|]. intros y E.
  destruct (control_torn K u _ Sh T L) as [Q|[Q|Q]]; rewrite Q in E; [discriminate|injection E as <-; auto|]. cbn [cd_admin] in E. injection E as <-. auto.
Qed.
