(** Save and load of file lists, reels and tables of contents. *)
From Verif Require Import CBase CBaseProofs XmlEntity XmlModel SpecXml EntityProofs Utf8Proofs TrimProofs XmlProofs XmlRound SimProofs
  TocModel SpecToc ValidProofs TocXmlModel TocXmlBase SpecTocXml TocXmlProofs TocXmlProofs2 TocXmlProofs3 TocXmlProofs4.

(** * File lists *)
Definition tree_files (l : list toc_file) : node := Elem (s2z "files") [] (map (tree_file false) l).
Definition vlist {A} (v : vec A) : list A := match v with Some l => l | None => [] end.
Lemma save_files_ok v : files_is_valid (Some v) = true -> Forall (fun f => short (fsources_of f)) (vlist v) -> save_files (Some v) = ([tree_files (vlist v)], true).
Proof.
  intros V Sh. unfold save_files. rewrite V. cbn [negb]. change (vec_list v) with (vlist v). rewrite (save_list_ok (save_file false) (tree_file false)); [reflexivity|].
  cbn [files_is_valid] in V. change (vec_list v) with (vlist v) in V. rewrite forallb_forall in V. rewrite Forall_forall in Sh. apply Forall_forall. intros x I. apply save_file_ok; auto.
Qed.
Lemma files_short l : files_carried l -> Forall (fun f => short (fsources_of f)) l.
Proof. intros (C & _). eapply Forall_impl; [|exact C]. intros f H. apply H. Qed.
Lemma wf_files l : files_carried l -> wf (tree_files l).
Proof. intros (H & _). apply wf_build; [name|apply no_attrs|]. apply Forall_map. eapply Forall_impl; [|exact H]. intros f. apply wf_file. Qed.
Lemma solid_back s c l : s = Some (c :: l) -> solid s -> exists d m, read_back s = Some (d :: m).
Proof. intros -> H. specialize (H _ eq_refl). cbn [read_back]. destruct (strip (c :: l)) as [|d m]; [congruence|eauto]. Qed.
Lemma file_not_blank f : file_ok f -> file_solid f -> blank_text f = false.
Proof.
  intros (_ & (c1 & l1 & E1) & (c2 & l2 & E2) & _) (S1 & S2). unfold blank_text.
  destruct (solid_back _ _ _ E1 S1) as (d1 & m1 & ->). destruct (solid_back _ _ _ E2 S2) as (d2 & m2 & ->). reflexivity.
Qed.
Lemma file_back_built f : file_back f = built f (if digitalb f then data_of f (text_back (f_checksum f)) else mkData (Some []) 0 (-1) (-1) (-1) (-1))
  (if negb (digitalb f) && blank_text f then 0 else (if digitalb f then 1 else 0) + (if previewedb f then 2 else 0)).
Proof. unfold file_back, built. fold (blank_text f). destruct (digitalb f); reflexivity. Qed.
Lemma file_back_valid f : file_is_valid f = true -> file_carried f -> file_solid f -> file_is_valid (file_back f) = true.
Proof.
  intros V C So. assert (Sh : short (fsources_of f)) by apply C. apply (file_valid_iff f Sh) in V.
  pose proof (file_not_blank f V So) as NB. rewrite file_back_built, NB, andb_false_r, built_valid; auto.
  - now rewrite NB.
  - destruct (digitalb f), (previewedb f); reflexivity.
  - destruct (digitalb f), (previewedb f); reflexivity.
  - intro D. rewrite D. eauto.
Qed.
Lemma file_named x : named (s2z "file") (tree_file false x) = true.
Proof. reflexivity. Qed.
Lemma all_files_in l : all_in (s2z "file") (map (tree_file false) l) = map (tree_file false) l.
Proof. apply (all_in_same (s2z "file") (tree_file false) NFILE); try reflexivity. intro x. apply within_file_kids. Qed.
Lemma load_file_nodes l ts : Forall (fun f => file_is_valid f = true) l -> files_carried l -> Forall2 sim (map (tree_file false) l) ts ->
  load_list load_file files_add_toc None ts = Some (back_list file_back l).
Proof.
  intros V (C & So) F.
  apply (load_list_vec load_file files_add_toc (tree_file false) (fun f => file_is_valid f = true /\ file_carried f /\ file_solid f) file_back); auto.
  - intros x u (Vx & Cx & _) Sx. now apply (load_file_self false).
  - intros v x (Vx & Cx & Sx). unfold files_add_toc. now rewrite file_back_valid.
  - apply Forall_forall. intros x I. rewrite Forall_forall in V, C, So. auto.
Qed.
Lemma load_files_self l t : Forall (fun f => file_is_valid f = true) l -> files_carried l -> sim (tree_files l) t -> load_files t = Some (back_list file_back l).
Proof.
  intros V C S. unfold load_files. apply load_file_nodes; auto.
  pose proof (sim_find_all (s2z "file") _ _ S) as F. unfold tree_files in F. rewrite find_all_in, all_files_in in F. exact F.
Qed.
Definition NFILES := s2z "files" :: s2z "file" :: NFILE.
Lemma within_file v1 f : within (s2z "file" :: NFILE) (tree_file v1 f) = true.
Proof.
  apply within_elem; [reflexivity|]. pose proof (within_file_kids v1 f) as H. unfold tree_file in H. cbn [node_kids] in H.
  revert H. apply within_all_incl. reflexivity.
Qed.
Lemma within_files l : within NFILES (tree_files l) = true.
Proof.
  apply within_elem; [reflexivity|]. rewrite forallb_map. apply forallb_true. intro f. eapply within_incl; [|apply within_file]. reflexivity.
Qed.
(** The document of a file list: the load searches the whole document. *)
Lemma load_files_doc l d : Forall (fun f => file_is_valid f = true) l -> files_carried l -> sim (new_xml [tree_files l]) d -> load_files d = Some (back_list file_back l).
Proof.
  intros V C S. unfold load_files. apply load_file_nodes; auto.
  pose proof (sim_find_all (s2z "file") _ _ S) as F. unfold new_xml, tree_files in F. rewrite find_all_in, all_in_cons, find_all_in, all_files_in in F. cbn [named] in F.
  change (str_eqb (s2z "files") (s2z "file")) with false in F. cbv iota in F. unfold all_in in F. cbn [flat_map filter app] in F. rewrite app_nil_r in F. exact F.
Qed.

(** * Reels *)
Definition tail_files (r : reel) : list node := match r_files r with Some _ => [tree_files (files_of r)] | None => [] end.
Definition tree_reel (r : reel) : node := Elem (s2z "reel") [] (text_node (s2z "id") (r_id r) ++ tail_files r).
Lemma reel_small_of r : reel_carried r -> reel_small r.
Proof. intros (_ & C & Sh). split; [exact Sh|]. apply files_short in C. exact C. Qed.
Lemma reel_files_valid r : reel_carried r -> reel_is_valid r = true -> Forall (fun f => file_is_valid f = true) (files_of r).
Proof.
  intros C V. pose proof (reel_small_of r C) as Sm. apply (reel_valid_iff r Sm) in V as (_ & V). destruct Sm as (_ & Sm).
  apply Forall_forall. intros x I. rewrite Forall_forall in V, Sm. apply file_valid_iff; auto. now apply Sm.
Qed.
Lemma save_reel_ok r : reel_carried r -> reel_is_valid r = true -> save_reel r = ([tree_reel r], true).
Proof.
  intros C V. pose proof (reel_files_valid r C V) as F. unfold save_reel. rewrite V. cbn [negb]. unfold tree_reel, tail_files, files_of in *.
  destruct C as (_ & C & _). unfold files_of in C. destruct (r_files r) as [v|]; [|reflexivity].
  assert (E : vlist v = match v with Some l => l | None => [] end) by reflexivity. rewrite <- E in *.
  replace (match v with Some l => l | None => [] end) with (vlist v) in * by reflexivity.
  rewrite save_files_ok; [reflexivity| |apply files_short; exact C].
  cbn [files_is_valid]. change (vec_list v) with (vlist v). apply forallb_forall. rewrite Forall_forall in F. exact F.
Qed.
Lemma wf_reel r : reel_carried r -> wf (tree_reel r).
Proof.
  intros (C & F & _). apply wf_build; [name|apply no_attrs|]. apply Forall_app. split; [apply wf_text_node; [name|now apply carried_text]|].
  unfold tail_files. destruct (r_files r); [|constructor]. constructor; [|constructor]. now apply wf_files.
Qed.
Definition NREEL := s2z "files" :: s2z "file" :: NFILE.
Lemma within_reel_kids r : forallb (within NREEL) (node_kids (tree_reel r)) = true.
Proof.
  unfold tree_reel. cbn [node_kids]. rewrite forallb_app, within_text_node by reflexivity. cbn [andb]. unfold tail_files. destruct (r_files r); [|reflexivity].
  cbn [forallb]. now rewrite within_files.
Qed.
Lemma load_reel_self r t : reel_is_valid r = true -> reel_carried r -> sim (tree_reel r) t -> load_reel t = Some (reel_back r).
Proof.
  intros V C S. pose proof (reel_files_valid r C V) as Vf. pose proof (proj1 (reel_valid_iff r (reel_small_of r C)) V) as ((c & l & Ei) & _).
  unfold load_reel. rewrite (sim_self _ _ _ _ S). unfold tree_reel in S.
  pose proof (sim_find (s2z "id") _ _ S) as F. rewrite find_elem_in, find_in_app, find_text_same, Ei in F by reflexivity. cbn [option_map] in F.
  destruct (find_elem (s2z "id") t) as [i|]; [|destruct F]. cbn [sim_opt] in F. rewrite <- (sim_text _ _ F (text_node_only _ _ _)), read_back_text.
  pose proof (sim_find (s2z "files") _ _ S) as G. rewrite find_elem_in, find_in_app, find_in_text in G by reflexivity.
  change (str_eqb (s2z "id") (s2z "files")) with false in G. cbv iota in G. unfold reel_back. rewrite Ei. unfold tail_files in G.
  destruct C as (_ & Cf & _). destruct (r_files r) as [v|] eqn:Er.
  - rewrite find_in_cons in G. change (named (s2z "files") (tree_files (files_of r))) with true in G. cbv iota in G.
    destruct (find_elem (s2z "files") t) as [u|]; [|destruct G]. cbn [sim_opt] in G. cbn [opt_load]. rewrite (load_files_self (files_of r) u); auto.
  - rewrite find_in_nil in G. destruct (find_elem (s2z "files") t); [destruct G|]. reflexivity.
Qed.
Lemma reel_back_valid r : reel_is_valid r = true -> reel_carried r -> solid (r_id r) -> reel_is_valid (reel_back r) = true.
Proof.
  intros V C So. pose proof (reel_files_valid r C V) as Vf. pose proof (proj1 (reel_valid_iff r (reel_small_of r C)) V) as ((c & l & Ei) & _).
  unfold reel_is_valid. destruct (solid_back _ _ _ Ei So) as (d & m & Ed). unfold reel_back at 3. cbn [r_id]. rewrite Ed. cbn [null_or_empty negb].
  destruct (negb (reel_file_count (reel_back r) =? 0) && negb (files_is_valid (r_files (reel_back r)))) eqn:Q; [|reflexivity].
  apply andb_prop in Q as (Q1 & Q2). unfold reel_back in Q1, Q2. cbn [r_files] in Q1, Q2. destruct (r_files r); [|discriminate Q1].
  destruct C as (_ & (Cf & So2) & _). unfold back_list in Q2. destruct (files_of r) as [|x k]; [discriminate Q2|]. cbn [files_is_valid vec_list] in Q2.
  assert (K : forallb file_is_valid (map file_back (x :: k)) = true).
  { rewrite forallb_map. apply forallb_forall. intros y I. rewrite Forall_forall in Vf, Cf, So2. apply file_back_valid; auto. }
  rewrite K in Q2. discriminate.
Qed.
Definition tree_reels (l : list reel) : node := Elem (s2z "reels") [] (map tree_reel l).
Lemma save_reels_ok v : reels_is_valid (Some v) = true -> short (vlist v) -> Forall reel_carried (vlist v) -> save_reels (Some v) = ([tree_reels (vlist v)], true).
Proof.
  intros V Sh C. unfold save_reels. rewrite V. cbn [negb]. change (vec_list v) with (vlist v). rewrite (save_list_ok save_reel tree_reel); [reflexivity|].
  unfold reels_is_valid, reels_count, vec_size in V. change (vec_list v) with (vlist v) in V. unfold short in Sh. rewrite u32_small in V by lia.
  destruct (vlist v) as [|x l] eqn:E; [constructor|]. destruct (Z.of_nat (List.length (x :: l)) =? 0) eqn:Q; [cbn in Q; discriminate|].
  rewrite forallb_forall in V. rewrite Forall_forall in C. apply Forall_forall. intros y I. apply save_reel_ok; auto.
Qed.
Lemma reels_each_valid v : reels_is_valid (Some v) = true -> short (vlist v) -> Forall (fun r => reel_is_valid r = true) (vlist v).
Proof.
  intros V Sh. unfold reels_is_valid, reels_count, vec_size in V. change (vec_list v) with (vlist v) in V. unfold short in Sh. rewrite u32_small in V by lia.
  destruct (vlist v) as [|x l] eqn:E; [constructor|]. destruct (Z.of_nat (List.length (x :: l)) =? 0) eqn:Q; [cbn in Q; discriminate|].
  rewrite forallb_forall in V. now apply Forall_forall.
Qed.
Lemma wf_reels l : Forall reel_carried l -> wf (tree_reels l).
Proof. intro H. apply wf_build; [name|apply no_attrs|]. apply Forall_map. eapply Forall_impl; [|exact H]. apply wf_reel. Qed.
Lemma all_reels_in l : all_in (s2z "reel") (map tree_reel l) = map tree_reel l.
Proof. apply (all_in_same (s2z "reel") tree_reel NREEL); try reflexivity. intro x. apply within_reel_kids. Qed.
Lemma load_reel_nodes l ts : Forall (fun r => reel_is_valid r = true) l -> reels_carried l -> Forall2 sim (map tree_reel l) ts ->
  load_list load_reel reels_add_reel None ts = Some (back_list reel_back l).
Proof.
  intros V (C & So) F.
  apply (load_list_vec load_reel reels_add_reel tree_reel (fun r => reel_is_valid r = true /\ reel_carried r /\ solid (r_id r)) reel_back); auto.
  - intros x u (Vx & Cx & _) Sx. now apply load_reel_self.
  - intros v x (Vx & Cx & Sx). unfold reels_add_reel. now rewrite reel_back_valid.
  - apply Forall_forall. intros x I. rewrite Forall_forall in V, C, So. auto.
Qed.
Lemma load_reels_self l t : Forall (fun r => reel_is_valid r = true) l -> reels_carried l -> sim (tree_reels l) t -> load_reels t = Some (back_list reel_back l).
Proof.
  intros V C S. unfold load_reels. apply load_reel_nodes; auto. unfold reel_nodes. rewrite <- (sim_named _ _ _ S). change (named (s2z "reels") (tree_reels l)) with true. cbv iota.
  pose proof (sim_find_all (s2z "reel") _ _ S) as F. unfold tree_reels in F. rewrite find_all_in, all_reels_in in F. exact F.
Qed.
(** The document of a reel list. *)
Lemma after_first_elems n {P : plain n} l : filter (named (s2z "reel")) (after_first n l) = filter (named (s2z "reel")) (after_first n (elems l)).
Proof.
  induction l as [|x l IH]; [reflexivity|]. cbn [after_first elems filter]. pose proof (named_is_elem n x P) as H. fold (elems l). destruct (is_elem x); cbn [after_first].
  - destruct (named n x); [|exact IH]. now apply named_elems.
  - destruct (named n x); [discriminate (H eq_refl)|exact IH].
Qed.
Lemma after_first_sim n l l' : Forall2 sim l l' -> Forall2 sim (after_first n l) (after_first n l').
Proof. induction 1 as [|x y l l' S F IH]; [constructor|]. cbn [after_first]. rewrite <- (sim_named n x y S). destruct (named n x); assumption. Qed.
Lemma load_reels_doc l d : Forall (fun r => reel_is_valid r = true) l -> reels_carried l -> sim (new_xml [tree_reels l]) d -> load_reels d = Some (back_list reel_back l).
Proof.
  intros V C S. unfold load_reels. apply load_reel_nodes; auto. unfold reel_nodes. rewrite <- (sim_named _ _ _ S). change (named (s2z "reels") (new_xml [tree_reels l])) with false. cbv iota.
  pose proof (sim_find (s2z "reels") _ _ S) as F. unfold new_xml in F. rewrite find_elem_in, find_in_cons in F. change (named (s2z "reels") (tree_reels l)) with true in F. cbv iota in F.
  destruct (find_elem (s2z "reels") d) as [r|]; [|destruct F]. cbn [sim_opt] in F.
  pose proof (sim_find_all (s2z "reel") _ _ F) as G. unfold tree_reels in G at 1. rewrite find_all_in, all_reels_in in G.
  destruct (find_all (s2z "reel") r) as [|x m] eqn:E.
  - exact G.
  - pose proof (sim_descendants _ _ S) as D. apply (after_first_sim (s2z "reels")) in D. unfold elem_descendants in D.
    rewrite (after_first_elems (s2z "reels")).
    assert (Q : map tree_reel l = filter (named (s2z "reel")) (after_first (s2z "reels") (elems (descendants (new_xml [tree_reels l]))))).
    { rewrite <- (after_first_elems (s2z "reels")). unfold new_xml. cbn [descendants flat_map]. rewrite app_nil_r. cbn [after_first]. change (named (s2z "reels") (tree_reels l)) with true. cbv iota.
      change (filter (named (s2z "reel")) (descendants (tree_reels l))) with (find_all (s2z "reel") (tree_reels l)). unfold tree_reels. now rewrite find_all_in, all_reels_in. }
    rewrite Q. apply forall2_filter; [apply sim_named|exact D].
Qed.

(** * Table of contents *)
Definition tail_md (t : toc_data) : list node := match msources_of t with [] => [] | l => [tree_metadata l] end.
Definition tail_ld (t : toc_data) : list node := match layouts_of t with [] => [] | l => [tree_layouts l] end.
Definition tail_rl (t : toc_data) : list node := match reels_of t with [] => [] | l => [tree_reels l] end.
Definition tree_toc (t : toc_data) : node :=
  Elem (s2z "Index") (opt_attr "version" (t_version t))
    ((text_node (s2z "indexType") (t_index_type t) ++ text_node (s2z "jobId") (t_job_id t) ++ text_node (s2z "reelId") (t_reel_id t)) ++
     tail_md t ++ tail_ld t ++ tail_rl t).
Lemma count_zero {A} (l : list A) : short l -> (u32 (vec_size (Some l)) =? 0) = match l with [] => true | _ => false end.
Proof.
  intro Sh. unfold short in Sh. unfold vec_size. cbn [vec_list]. rewrite u32_small by lia. destruct l; [reflexivity|]. cbn [List.length]. rewrite Nat2Z.inj_succ. lia.
Qed.
Definition toc_parts (t : toc_data) : Prop :=
  (msources_of t <> [] -> metadata_is_valid (Some (Some (msources_of t))) = true /\ t_metadata t = Some (Some (msources_of t))) /\
  (layouts_of t <> [] -> layout_defs_is_valid (Some (Some (layouts_of t))) = true /\ t_layouts t = Some (Some (layouts_of t))) /\
  (reels_of t <> [] -> reels_is_valid (Some (Some (reels_of t))) = true /\ t_reels t = Some (Some (reels_of t))).
Lemma toc_parts_of t : toc_carried t -> toc_is_valid t = true -> toc_parts t /\ nonempty (t_version t) /\ nonempty (t_job_id t) /\ nonempty (t_reel_id t) /\
  (t_index_type t = Some (s2z "job") \/ t_index_type t = Some (s2z "reel")).
Proof.
  intros (_ & _ & _ & _ & _ & _ & Sh1 & Sh2 & Sh3) V. unfold toc_is_valid in V.
  destruct (null_or_empty (t_version t)) eqn:E1; [discriminate|]. destruct (null_or_empty (t_job_id t)) eqn:E2; [discriminate|].
  destruct (null_or_empty (t_reel_id t)) eqn:E3; [discriminate|]. apply nonempty_iff in E1, E2, E3.
  destruct (negb (str_eqb (or_empty (t_index_type t)) INDEX_JOB) && negb (str_eqb (or_empty (t_index_type t)) INDEX_REEL)) eqn:E4; [discriminate|].
  destruct (negb (reels_is_valid (t_reels t)) && (match t_reels t with None => false | _ => true end)) eqn:E5; [discriminate|].
  destruct (negb (layout_defs_is_valid (t_layouts t)) && (match t_layouts t with None => false | _ => true end)) eqn:E6; [discriminate|].
  destruct (negb (metadata_count (t_metadata t) =? 0) && negb (metadata_is_valid (t_metadata t))) eqn:E7; [discriminate|].
  split; [split; [|split]|].
  - unfold msources_of in *. destruct (t_metadata t) as [[l|]|]; try congruence. intro N. split; [|reflexivity]. unfold metadata_count in E7. rewrite count_zero in E7 by assumption.
    destruct l; [congruence|]. cbn [negb andb] in E7. now apply negb_false_iff in E7.
  - unfold layouts_of in *. destruct (t_layouts t) as [[l|]|]; try congruence. intro N. split; [|reflexivity]. rewrite andb_true_r in E6. now apply negb_false_iff in E6.
  - unfold reels_of in *. destruct (t_reels t) as [[l|]|]; try congruence. intro N. split; [|reflexivity]. rewrite andb_true_r in E5. now apply negb_false_iff in E5.
  - repeat split; auto. destruct (t_index_type t) as [i|]; cbn [or_empty] in E4.
    + destruct (str_eqb i INDEX_JOB) eqn:Q1; [apply str_eqb_eq in Q1; left; now rewrite Q1|].
      destruct (str_eqb i INDEX_REEL) eqn:Q2; [apply str_eqb_eq in Q2; right; now rewrite Q2|]. discriminate.
    + discriminate.
Qed.
Lemma save_toc_ok t : toc_carried t -> toc_is_valid t = true -> save_toc t = ([tree_toc t], true).
Proof.
  intros C V. destruct (toc_parts_of t C V) as ((P1 & P2 & P3) & _). destruct C as (_ & _ & _ & _ & _ & (Cr & _) & Sh1 & Sh2 & Sh3).
  unfold save_toc. rewrite V. cbn [negb]. unfold tree_toc, tail_md, tail_ld, tail_rl.
  assert (A1 : (if negb (metadata_count (t_metadata t) =? 0) then save_metadata (t_metadata t) else ([], true)) = (tail_md t, true)).
  { unfold tail_md. destruct (msources_of t) as [|x l] eqn:E.
    - unfold msources_of in E. destruct (t_metadata t) as [[[|y k]|]|]; try discriminate; reflexivity.
    - destruct P1 as (Vm & ->); [congruence|]. unfold metadata_count. rewrite count_zero by (rewrite <- E in *; assumption).
      cbn [negb]. now apply save_metadata_ok. }
  assert (A2 : (if negb (layout_defs_count (t_layouts t) =? 0) then save_layout_defs (t_layouts t) else ([], true)) = (tail_ld t, true)).
  { unfold tail_ld. destruct (layouts_of t) as [|x l] eqn:E.
    - unfold layouts_of in E. destruct (t_layouts t) as [[[|y k]|]|]; try discriminate; reflexivity.
    - destruct P2 as (Vm & ->); [congruence|]. unfold layout_defs_count. rewrite count_zero by (rewrite <- E in *; assumption).
      cbn [negb]. now rewrite (save_layouts_ok _ Vm). }
  assert (A3 : (if negb (reels_count (t_reels t) =? 0) then save_reels (t_reels t) else ([], true)) = (tail_rl t, true)).
  { unfold tail_rl. destruct (reels_of t) as [|x l] eqn:E.
    - unfold reels_of in E. destruct (t_reels t) as [[[|y k]|]|]; try discriminate; reflexivity.
    - destruct P3 as (Vm & ->); [congruence|]. unfold reels_count. rewrite count_zero by (rewrite <- E in *; assumption).
      cbn [negb]. now rewrite (save_reels_ok _ Vm). }
  rewrite A1, A2, A3. reflexivity.
Qed.
Lemma wf_toc t : toc_carried t -> toc_is_valid t = true -> wf (tree_toc t).
Proof.
  intros C V. destruct (toc_parts_of t C V) as (_ & _ & _ & _ & I). destruct C as (C1 & C2 & C3 & C4 & C5 & (Cr & _) & _). apply wf_build; [name| |].
  - rewrite <- (app_nil_r (opt_attr _ _)). apply attrs_opt; [name|exact C1|reflexivity|apply no_attrs].
  - rewrite !Forall_app. repeat split; try (apply wf_text_node; [name|now apply carried_text]).
    + apply wf_text_node; [name|]. destruct I as [-> | ->]; apply ascii_text; repeat constructor; discriminate.
    + unfold tail_md. destruct (msources_of t); [constructor|]. constructor; [|constructor]. now apply wf_metadata.
    + unfold tail_ld. destruct (layouts_of t); [constructor|]. constructor; [|constructor]. apply wf_layouts, C5.
    + unfold tail_rl. destruct (reels_of t); [constructor|]. constructor; [|constructor]. now apply wf_reels.
Qed.
Definition NMD := [s2z "metadata"; s2z "source"; s2z "data"; s2z "tags"].
Definition NLD := [s2z "layoutDefinitions"; s2z "previewLayout"; s2z "id"; s2z "name"; s2z "sections"; s2z "section"].
Definition NRL := s2z "reels" :: s2z "reel" :: NREEL.
Lemma within_md t : forallb (within NMD) (tail_md t) = true.
Proof.
  unfold tail_md. destruct (msources_of t) as [|x l]; [reflexivity|]. cbn [forallb]. rewrite andb_true_r. apply within_elem; [reflexivity|]. rewrite forallb_map.
  apply forallb_true. intro s. apply within_elem; [reflexivity|]. apply (within_all_incl NMSRC); [reflexivity|]. apply (within_msource_kids s).
Qed.
Lemma within_ld t : forallb (within NLD) (tail_ld t) = true.
Proof.
  unfold tail_ld. destruct (layouts_of t) as [|x l]; [reflexivity|]. cbn [forallb]. rewrite andb_true_r. apply within_elem; [reflexivity|]. rewrite forallb_map.
  apply forallb_true. intro s. apply within_elem; [reflexivity|]. apply (within_all_incl NLAY); [reflexivity|]. apply (within_layout_kids s).
Qed.
Lemma within_rl t : forallb (within NRL) (tail_rl t) = true.
Proof.
  unfold tail_rl. destruct (reels_of t) as [|x l]; [reflexivity|]. cbn [forallb]. rewrite andb_true_r. apply within_elem; [reflexivity|]. rewrite forallb_map.
  apply forallb_true. intro s. apply within_elem; [reflexivity|]. apply (within_all_incl NREEL); [reflexivity|]. apply (within_reel_kids s).
Qed.
Lemma find_md_none n t : in_names NMD n = false -> is_special n = false -> find_in n (tail_md t) = None.
Proof. apply within_find_in, within_md. Qed.
Lemma find_ld_none n t : in_names NLD n = false -> is_special n = false -> find_in n (tail_ld t) = None.
Proof. apply within_find_in, within_ld. Qed.
Lemma find_rl_none n t : in_names NRL n = false -> is_special n = false -> find_in n (tail_rl t) = None.
Proof. apply within_find_in, within_rl. Qed.
Lemma keep_text_sim n {P : plain n} m a ks s d t : sim (Elem m a ks) t -> find_in n ks = Some (Elem n [] (text_kids s)) -> keep_text t n d = read_back (Some s).
Proof.
  intros S E. unfold keep_text. pose proof (sim_find n _ _ S) as F. rewrite find_elem_in, E in F. destruct (find_elem n t) as [u|]; [|destruct F].
  cbn [sim_opt] in F. now rewrite <- (sim_text _ _ F (text_node_only _ _ _)), read_back_text.
Qed.
Ltac litsin F := repeat match type of F with
  | context [str_eqb (s2z ?a) (s2z ?b)] =>
      let v := eval vm_compute in (str_eqb (s2z a) (s2z b)) in change (str_eqb (s2z a) (s2z b)) with v in F
  end; cbv iota in F.
Lemma load_toc_self split t0 x t : toc_is_valid x = true -> toc_carried x -> sim (tree_toc x) t -> load_toc split t0 t = Some (toc_back split x).
Proof.
  intros V C S. destruct (toc_parts_of x C V) as ((P1 & P2 & P3) & N1 & (c2 & l2 & N2) & (c3 & l3 & N3) & I).
  destruct C as (C1 & C2 & C3 & C4 & C5 & C6 & Sh1 & Sh2 & Sh3).
  unfold load_toc. rewrite (sim_self _ _ _ _ S). unfold tree_toc in S.
  assert (M : opt_load (load_metadata split) (find_below (s2z "Index") (s2z "metadata") t) = Some (back_opt (msource_back split) (msources_of x))).
  { pose proof (sim_find_below (s2z "Index") (s2z "metadata") _ _ S) as F. rewrite find_below_in in F. rewrite !below_app, !below_text in F by reflexivity.
    rewrite (below_in_none _ _ _ NLD (tail_ld x)) in F; try reflexivity; [|apply within_ld].
    assert (R : below_in (s2z "Index") (s2z "metadata") (s2z "Index") (tail_rl x) = None).
    { unfold tail_rl. pose proof (within_rl x) as W. unfold tail_rl in W. destruct (reels_of x) as [|r l]; [reflexivity|]. cbn [forallb] in W. rewrite andb_true_r in W.
      rewrite below_cons. change (named (s2z "metadata") (tree_reels (r :: l))) with false. cbn [andb]. now rewrite (below_none _ _ NRL). }
    rewrite R in F. unfold tail_md in F. destruct (msources_of x) as [|m l] eqn:E.
    - change (below_in (s2z "Index") (s2z "metadata") (s2z "Index") []) with (@None node) in F. destruct (find_below (s2z "Index") (s2z "metadata") t); [destruct F|reflexivity].
    - rewrite below_cons in F. change (named (s2z "metadata") (tree_metadata (m :: l)) && str_eqb (s2z "Index") (s2z "Index")) with true in F. cbv iota in F.
      destruct (find_below (s2z "Index") (s2z "metadata") t) as [u|]; [|destruct F]. cbn [sim_opt] in F. cbn [opt_load].
      destruct P1 as (Vm & _); [congruence|]. rewrite (load_metadata_self split (m :: l) u); auto. cbn [metadata_is_valid] in Vm. rewrite forallb_forall in Vm. now apply Forall_forall. }
  assert (L : opt_load load_layout_defs (find_elem (s2z "layoutDefinitions") t) = Some (back_opt layout_back (layouts_of x))).
  { pose proof (sim_find (s2z "layoutDefinitions") _ _ S) as F. rewrite find_elem_in in F. rewrite !find_in_app, !find_in_text in F by reflexivity.
    rewrite find_md_none, find_rl_none in F by reflexivity. litsin F. unfold tail_ld in F. destruct (layouts_of x) as [|m l] eqn:E.
    - rewrite find_in_nil in F. destruct (find_elem (s2z "layoutDefinitions") t); [destruct F|reflexivity].
    - rewrite find_in_cons in F. change (named (s2z "layoutDefinitions") (tree_layouts (m :: l))) with true in F. cbv iota in F.
      destruct (find_elem (s2z "layoutDefinitions") t) as [u|]; [|destruct F]. cbn [sim_opt] in F. cbn [opt_load].
      destruct P2 as (Vm & _); [congruence|]. rewrite (load_layouts_self (m :: l) u); auto. cbn [layout_defs_is_valid vec_list] in Vm. rewrite forallb_forall in Vm. now apply Forall_forall. }
  assert (Rr : opt_load load_reels (find_elem (s2z "reels") t) = Some (back_opt reel_back (reels_of x))).
  { pose proof (sim_find (s2z "reels") _ _ S) as F. rewrite find_elem_in in F. rewrite !find_in_app, !find_in_text in F by reflexivity.
    rewrite find_md_none, find_ld_none in F by reflexivity. litsin F. unfold tail_rl in F. destruct (reels_of x) as [|m l] eqn:E.
    - rewrite find_in_nil in F. destruct (find_elem (s2z "reels") t); [destruct F|reflexivity].
    - rewrite find_in_cons in F. change (named (s2z "reels") (tree_reels (m :: l))) with true in F. cbv iota in F.
      destruct (find_elem (s2z "reels") t) as [u|]; [|destruct F]. cbn [sim_opt] in F. cbn [opt_load].
      destruct P3 as (Vm & _); [congruence|]. pose proof (reels_each_valid _ Vm Sh3) as Ve. rewrite (load_reels_self (m :: l) u); auto. }
  rewrite M, L, Rr. unfold toc_back.
  assert (Ev : node_attr t (s2z "version") = t_version x).
  { rewrite <- (sim_attrs _ _ _ S). cbn [node_attr]. rewrite <- (app_nil_r (opt_attr _ _)), get_opt_attr. lits. destruct (t_version x); reflexivity. }
  rewrite Ev. rewrite N2, N3.
  assert (K2 : keep_text t (s2z "jobId") (t_job_id t0) = read_back (Some (c2 :: l2))).
  { apply (keep_text_sim _ _ _ _ _ _ _ S). rewrite !find_in_app, find_in_text by reflexivity. lits. rewrite N2. rewrite find_text_same by reflexivity. reflexivity. }
  assert (K3 : keep_text t (s2z "reelId") (t_reel_id t0) = read_back (Some (c3 :: l3))).
  { apply (keep_text_sim _ _ _ _ _ _ _ S). rewrite !find_in_app, !find_in_text by reflexivity. lits. rewrite N3. reflexivity. }
  assert (K1 : keep_text t (s2z "indexType") (t_index_type t0) = t_index_type x).
  { assert (G : forall i, t_index_type x = Some i -> keep_text t (s2z "indexType") (t_index_type t0) = read_back (Some i)).
    { intros i Ei. apply (keep_text_sim _ _ _ _ _ _ _ S). rewrite !find_in_app, Ei, find_text_same by reflexivity. reflexivity. }
    destruct I as [I|I]; rewrite (G _ I), I; reflexivity. }
  now rewrite K1, K2, K3.
Qed.
