(** Save and load of files and file lists. *)
From Verif Require Import CBase CBaseProofs XmlEntity XmlModel SpecXml EntityProofs Utf8Proofs TrimProofs XmlProofs XmlRound SimProofs
  TocModel SpecToc ValidProofs TocXmlModel TocXmlBase SpecTocXml TocXmlProofs TocXmlProofs2.

Lemma digital_b f : file_is_digital f = digitalb f.
Proof. unfold file_is_digital, digitalb, TYPE_DIGITAL. apply set_bit_testbit0. Qed.
Lemma preview_b f : file_is_preview f = previewedb f.
Proof. unfold file_is_preview, previewedb, TYPE_PREVIEW. apply set_bit_testbit1. Qed.
Definition tail_parent (f : toc_file) : list node := if f_parent_id f =? FILE_NO_PARENT then [] else int_node (s2z "parentId") (f_parent_id f).
Definition tail_data (v1 : bool) (f : toc_file) : list node := if digitalb f then (if v1 then save_data_v1 f else save_data_v2 f) else [].
Definition tail_preview (f : toc_file) : list node :=
  if previewedb f then match f_preview f with Some p => [tree_preview p] | None => [] end else [].
Definition tail_meta (f : toc_file) : list node := match fsources_of f with [] => [] | l => [tree_fmetadata l] end.
Definition tree_file (v1 : bool) (f : toc_file) : node :=
  Elem (s2z "file") (opt_attr "formatId" (f_file_format f))
          (int_node (s2z "id") (f_id f) ++ text_node (s2z "uniqueId") (f_unique_id f) ++
           text_node (s2z "name") (f_name f) ++ text_node (s2z "date") (f_date f) ++
           tail_parent f ++ tail_data v1 f ++ tail_preview f ++ tail_meta f).
Lemma has_metadata_b f : short (fsources_of f) -> file_has_metadata f = match fsources_of f with [] => false | _ => true end.
Proof.
  intro Sh. unfold file_has_metadata, fmetadata_count, fsources_of, short in *. destruct (f_metadata f) as [[l|]|]; try reflexivity.
  unfold vec_size, vec_list. rewrite u32_small by lia. destruct l; [reflexivity|]. cbn [List.length]. rewrite Nat2Z.inj_succ.
  destruct (Z.succ (Z.of_nat (List.length l)) =? 0) eqn:E; [lia|reflexivity].
Qed.
Lemma fmeta_list f : fsources_of f <> [] -> exists m, f_metadata f = Some m /\ fmetadata_list m = fsources_of f.
Proof. unfold fsources_of. destruct (f_metadata f) as [[l|]|]; try congruence. intros _. now exists (Some l). Qed.
Lemma save_file_ok v1 f : short (fsources_of f) -> file_is_valid f = true -> save_file v1 f = ([tree_file v1 f], true).
Proof.
  intros Sh V. unfold save_file. rewrite V. cbn [negb]. rewrite digital_b, preview_b, (has_metadata_b f Sh).
  apply (file_valid_iff f Sh) in V as (V1 & V2 & V3 & V4 & V5 & V6).
  assert (E1 : (if file_has_parent f || file_is_parent f then int_node (s2z "parentId") (f_parent_id f) else []) = tail_parent f).
  { unfold file_has_parent, file_is_parent, tail_parent, FILE_PARENT, FILE_NO_PARENT.
    destruct (f_parent_id f =? -2) eqn:A, (f_parent_id f =? -1) eqn:B; try reflexivity. lia. }
  assert (E2 : (if previewedb f then fst (save_preview (f_preview f)) else []) = tail_preview f).
  { unfold tail_preview. destruct (previewedb f) eqn:B; [|reflexivity]. destruct (V5 B) as (p & -> & Pk).
    rewrite save_preview_ok; [reflexivity|]. apply preview_valid_iff. eauto. }
  assert (E3 : (if match fsources_of f with [] => false | _ => true end then fst (save_fmetadata (f_metadata f)) else []) = tail_meta f).
  { unfold tail_meta. destruct (fsources_of f) as [|x l] eqn:B; [reflexivity|]. destruct (fmeta_list f) as (m & -> & Em); [congruence|].
    rewrite save_fmetadata_ok; [now rewrite Em, B| |now rewrite Em, B]. cbn [fmetadata_is_valid]. change (vec_list m) with (fmetadata_list m). rewrite Em, B.
    apply (forallb_Forall fsource_is_valid fsource_ok); [|exact V6]. intros y _. apply fsource_valid_iff. }
  unfold tree_file, tail_data. rewrite E1, E2, E3. reflexivity.
Qed.
Lemma attrs_frame n z a : name_ok n -> existsb (fun p => str_eqb n (fst p)) a = false -> attrs_ok a -> attrs_ok ((n, Some (print_dec_pad 6 z)) :: a).
Proof. intros N E A. apply attrs_cons; auto using print_dec_pad_text. Qed.
Lemma wf_data_v1 f : Forall wf (save_data_v1 f).
Proof.
  unfold save_data_v1. apply Forall_app. split; [apply wf_int_node; name|].
  apply Forall_cons; [|apply Forall_cons; [|apply Forall_nil]]; (apply wf_build; [name|apply no_attrs|]); apply Forall_app; split; apply wf_int_node; name.
Qed.
Lemma wf_data_v2 f : carried (f_checksum f) -> Forall wf (save_data_v2 f).
Proof.
  intro C. unfold save_data_v2. constructor; [|constructor]. apply wf_build; [name|apply no_attrs|].
  apply Forall_app. split; [apply wf_text_node; [name|now apply carried_text]|]. apply Forall_app. split; [apply wf_int_node; name|].
  apply Forall_cons; [|apply Forall_cons; [|apply Forall_nil]]; (apply wf_build; [name| |apply Forall_nil]); (apply attrs_frame; [name|reflexivity|]);
    (apply attrs_d; [name|reflexivity|]); apply no_attrs.
Qed.
Lemma wf_file v1 f : file_carried f -> wf (tree_file v1 f).
Proof.
  intros (C1 & C2 & C3 & C4 & C5 & _ & _ & _ & _ & _ & _ & _ & P & M & _). apply wf_build; [name| |].
  - rewrite <- (app_nil_r (opt_attr _ _)). apply attrs_opt; [name|exact C5|reflexivity|apply no_attrs].
  - rewrite !Forall_app. repeat split; try (apply wf_int_node; name); try (apply wf_text_node; [name|now apply carried_text]).
    + unfold tail_parent. destruct (f_parent_id f =? FILE_NO_PARENT); [constructor|apply wf_int_node; name].
    + unfold tail_data. destruct (digitalb f); [|constructor]. destruct v1; [apply wf_data_v1|now apply wf_data_v2].
    + unfold tail_preview. destruct (previewedb f); [|constructor]. destruct (f_preview f) as [p|]; [|constructor]. constructor; [|constructor]. apply wf_preview, P. reflexivity.
    + unfold tail_meta. destruct (fsources_of f) as [|x l]; [constructor|]. constructor; [|constructor]. now apply wf_fmetadata.
Qed.
(** Names in the parts. *)
Definition NDATA := [s2z "data"; s2z "checksum"; s2z "size"; s2z "start"; s2z "end"; s2z "frame"; s2z "byte"].
Lemma within_elem L n a ks : in_names L n = true -> forallb (within L) ks = true -> within L (Elem n a ks) = true.
Proof. intros A B. cbn [within]. now rewrite A, B. Qed.
Lemma within_data v1 f : forallb (within NDATA) (tail_data v1 f) = true.
Proof.
  unfold tail_data. destruct (digitalb f); [|reflexivity]. destruct v1.
  - unfold save_data_v1. rewrite forallb_app, within_int_node by reflexivity. cbn [forallb andb].
    rewrite !within_elem; try reflexivity; rewrite forallb_app, !within_int_node; reflexivity.
  - unfold save_data_v2. cbn [forallb]. rewrite within_elem; [reflexivity|reflexivity|].
    rewrite !forallb_app, within_text_node, within_int_node by reflexivity. reflexivity.
Qed.
Lemma within_tail_preview f : forallb (within (s2z "preview" :: NPREV)) (tail_preview f) = true.
Proof. unfold tail_preview. destruct (previewedb f); [|reflexivity]. destruct (f_preview f); [|reflexivity]. cbn [forallb]. now rewrite within_preview. Qed.
Lemma within_tail_meta f : forallb (within NMETA) (tail_meta f) = true.
Proof. unfold tail_meta. destruct (fsources_of f); [reflexivity|]. cbn [forallb]. now rewrite within_fmetadata. Qed.
Lemma within_tail_parent f : forallb (within [s2z "parentId"]) (tail_parent f) = true.
Proof. unfold tail_parent. destruct (f_parent_id f =? FILE_NO_PARENT); [reflexivity|now apply within_int_node]. Qed.
Definition NFILE := [s2z "id"; s2z "uniqueId"; s2z "name"; s2z "date"; s2z "parentId"; s2z "data"; s2z "checksum"; s2z "size"; s2z "start"; s2z "end"; s2z "frame"; s2z "byte";
  s2z "preview"; s2z "dpi"; s2z "pages"; s2z "metadata"; s2z "source"].
Lemma within_all_incl L M l : forallb (in_names M) L = true -> forallb (within L) l = true -> forallb (within M) l = true.
Proof. intros H K. rewrite forallb_forall in K. apply forallb_forall. intros x I. eapply within_incl; eauto. Qed.
Lemma within_file_kids v1 f : forallb (within NFILE) (node_kids (tree_file v1 f)) = true.
Proof.
  unfold tree_file; cbn [node_kids]. rewrite !forallb_app, !within_text_node, !within_int_node by reflexivity.
  rewrite (within_all_incl [s2z "parentId"] NFILE _ eq_refl (within_tail_parent f)), (within_all_incl NDATA NFILE _ eq_refl (within_data v1 f)),
    (within_all_incl (s2z "preview" :: NPREV) NFILE _ eq_refl (within_tail_preview f)), (within_all_incl NMETA NFILE _ eq_refl (within_tail_meta f)). reflexivity.
Qed.
Lemma find_parent_none n f : in_names [s2z "parentId"] n = false -> is_special n = false -> find_in n (tail_parent f) = None.
Proof. apply within_find_in, within_tail_parent. Qed.
Lemma find_data_none n v1 f : in_names NDATA n = false -> is_special n = false -> find_in n (tail_data v1 f) = None.
Proof. apply within_find_in, within_data. Qed.
Lemma find_preview_none n f : in_names (s2z "preview" :: NPREV) n = false -> is_special n = false -> find_in n (tail_preview f) = None.
Proof. apply within_find_in, within_tail_preview. Qed.
Lemma find_meta_none n f : in_names NMETA n = false -> is_special n = false -> find_in n (tail_meta f) = None.
Proof. apply within_find_in, within_tail_meta. Qed.
Ltac parts := rewrite ?find_parent_none, ?find_data_none, ?find_preview_none, ?find_meta_none by reflexivity.

Lemma get_text_sim_a n {P_n : plain n} m a ks s t : sim (Elem m a ks) t -> find_in n ks = option_map (fun x => Elem n [] (text_kids x)) s -> get_text n t = read_back s.
Proof.
  intros S E. rewrite (sim_get_text n _ _ S).
  - unfold get_text. rewrite find_elem_in, E. destruct s as [s|]; [|reflexivity]. apply read_back_text.
  - rewrite find_elem_in, E. intros x. destruct s as [s|]; [|discriminate]. intro H. inversion H. apply text_node_only.
Qed.
(** What the load reads in the part before the data. *)
Section file.
Variables (v1 : bool) (f : toc_file) (t : node).
Hypothesis C : file_carried f.
Hypothesis S : sim (tree_file v1 f) t.
Lemma file_name : get_text (s2z "name") t = read_back (f_name f).
Proof.
  apply (get_text_sim_a _ _ _ _ _ _ S). rewrite !find_in_app, find_text_same by reflexivity. rewrite find_in_int, !find_in_text by reflexivity. lits. parts.
  destruct (f_name f); reflexivity.
Qed.
Lemma file_date : get_text (s2z "date") t = read_back (f_date f).
Proof.
  apply (get_text_sim_a _ _ _ _ _ _ S). rewrite !find_in_app, find_text_same by reflexivity. rewrite find_in_int, !find_in_text by reflexivity. lits. parts.
  destruct (f_date f); reflexivity.
Qed.
Lemma file_uid : get_text (s2z "uniqueId") t = read_back (f_unique_id f).
Proof.
  apply (get_text_sim_a _ _ _ _ _ _ S). rewrite !find_in_app, find_text_same by reflexivity. rewrite find_in_int, !find_in_text by reflexivity. lits. parts.
  destruct (f_unique_id f); reflexivity.
Qed.
Lemma file_id : get_int FILE_ID_UNDEFINED (s2z "id") t = f_id f.
Proof.
  unfold get_int. destruct C as (_ & _ & _ & _ & _ & R & _). rewrite (int_elem_sim (s2z "id") _ _ _ (f_id f) t R S); [reflexivity|].
  now rewrite find_in_app, find_int_same.
Qed.
Lemma file_parent : match int_elem t (s2z "parentId") with Some z => z | None => match int_elem t (s2z "parentid") with Some z => z | None => FILE_NO_PARENT end end = f_parent_id f.
Proof.
  destruct C as (_ & _ & _ & _ & _ & _ & R & _). destruct (f_parent_id f =? FILE_NO_PARENT) eqn:Q.
  - rewrite (int_elem_none (s2z "parentId") _ _ _ t S), (int_elem_none (s2z "parentid") _ _ _ t S).
    + symmetry. now apply Z.eqb_eq.
    + rewrite !find_in_app, find_in_int, !find_in_text by reflexivity. lits. now parts.
    + rewrite !find_in_app, find_in_int, !find_in_text by reflexivity. lits. parts. unfold tail_parent. now rewrite Q.
  - rewrite (int_elem_sim (s2z "parentId") _ _ _ (f_parent_id f) t R S); [reflexivity|].
    rewrite !find_in_app, find_in_int, !find_in_text by reflexivity. lits. unfold tail_parent. rewrite Q. now rewrite find_int_same.
Qed.
Lemma file_format : node_attr t (s2z "formatId") = f_file_format f.
Proof. rewrite <- (sim_attrs _ _ _ S). unfold tree_file; cbn [node_attr]. rewrite <- (app_nil_r (opt_attr _ _)), get_opt_attr. lits. destruct (f_file_format f); reflexivity. Qed.
Lemma file_preview : file_ok f -> opt_load load_preview (find_elem (s2z "preview") t) = Some (if previewedb f then option_map preview_back (f_preview f) else None).
Proof.
  intro V. destruct V as (_ & _ & _ & _ & V & _). pose proof (sim_find (s2z "preview") _ _ S) as F. unfold tree_file in F at 1. rewrite find_elem_in in F.
  rewrite !find_in_app, find_in_int, !find_in_text in F by reflexivity.
  rewrite find_parent_none, find_data_none, find_meta_none in F by reflexivity.
  change (str_eqb (s2z "id") (s2z "preview")) with false in F. change (str_eqb (s2z "uniqueId") (s2z "preview")) with false in F.
  change (str_eqb (s2z "name") (s2z "preview")) with false in F. change (str_eqb (s2z "date") (s2z "preview")) with false in F. cbv iota in F.
  unfold tail_preview in F. destruct (previewedb f) eqn:B.
  - destruct (V B) as (p & Ep & Pk). rewrite Ep in *. rewrite find_in_cons in F. change (named (s2z "preview") (tree_preview p)) with true in F. cbv iota in F.
    destruct (find_elem (s2z "preview") t) as [u|]; [|destruct F]. cbn [sim_opt] in F. cbn [opt_load option_map].
    rewrite (load_preview_self p u); auto.
    + apply preview_valid_iff. eauto.
    + destruct C as (_ & _ & _ & _ & _ & _ & _ & _ & _ & _ & _ & _ & P & _). now apply P.
  - rewrite find_in_nil in F. destruct (find_elem (s2z "preview") t); [destruct F|reflexivity].
Qed.
Lemma file_meta : file_ok f -> opt_load load_fmetadata (find_elem (s2z "metadata") t) = Some (match fsources_of f with [] => None | l => Some (Some (map fsource_back l)) end).
Proof.
  intro V. destruct V as (_ & _ & _ & _ & _ & V). pose proof (sim_find (s2z "metadata") _ _ S) as F. unfold tree_file in F at 1. rewrite find_elem_in in F.
  rewrite !find_in_app, find_in_int, !find_in_text in F by reflexivity.
  rewrite find_parent_none, find_data_none, find_preview_none in F by reflexivity.
  change (str_eqb (s2z "id") (s2z "metadata")) with false in F. change (str_eqb (s2z "uniqueId") (s2z "metadata")) with false in F.
  change (str_eqb (s2z "name") (s2z "metadata")) with false in F. change (str_eqb (s2z "date") (s2z "metadata")) with false in F. cbv iota in F.
  unfold tail_meta in F. destruct (fsources_of f) as [|x l] eqn:B.
  - rewrite find_in_nil in F. destruct (find_elem (s2z "metadata") t); [destruct F|reflexivity].
  - rewrite find_in_cons in F. change (named (s2z "metadata") (tree_fmetadata (x :: l))) with true in F. cbv iota in F.
    destruct (find_elem (s2z "metadata") t) as [u|]; [|destruct F]. cbn [sim_opt] in F. cbn [opt_load].
    destruct C as (_ & _ & _ & _ & _ & _ & _ & _ & _ & _ & _ & _ & _ & M & _). rewrite B in M.
    rewrite (load_fmetadata_self (x :: l) u); auto. eapply Forall_impl; [|exact V]. intros y. apply fsource_valid_iff.
Qed.
Lemma below_meta : below_in (s2z "file") (s2z "data") (s2z "file") (tail_meta f) = None.
Proof.
  unfold tail_meta. destruct (fsources_of f) as [|x l] eqn:B; [reflexivity|].
  rewrite below_cons. change (named (s2z "data") (tree_fmetadata (x :: l))) with false. cbn [andb]. rewrite (below_none _ _ NMETA); try reflexivity. apply within_fmetadata.
Qed.
Lemma below_head : below_in (s2z "file") (s2z "data") (s2z "file") (node_kids (tree_file v1 f)) = below_in (s2z "file") (s2z "data") (s2z "file") (tail_data v1 f).
Proof.
  unfold tree_file; cbn [node_kids]. rewrite !below_app, below_int, !below_text, below_meta by reflexivity.
  rewrite (below_in_none _ _ _ [s2z "parentId"] (tail_parent f)), (below_in_none _ _ _ (s2z "preview" :: NPREV) (tail_preview f)); try reflexivity.
  - destruct (below_in _ _ _ (tail_data v1 f)); reflexivity.
  - apply within_tail_preview.
  - apply within_tail_parent.
Qed.
Lemma not_digital_data : (digitalb f = false \/ v1 = true) -> find_below (s2z "file") (s2z "data") t = None.
Proof.
  intro D. pose proof (sim_find_below (s2z "file") (s2z "data") _ _ S) as F. unfold tree_file at 1 in F. rewrite find_below_in in F.
  pose proof below_head as H. unfold tree_file in H at 1. cbn [node_kids] in H. rewrite H in F. clear H.
  assert (E : below_in (s2z "file") (s2z "data") (s2z "file") (tail_data v1 f) = None).
  { unfold tail_data. destruct (digitalb f); [|reflexivity]. destruct D as [D|D]; [discriminate|]. rewrite D. unfold save_data_v1. 
    rewrite below_app, below_int by reflexivity. rewrite !below_cons. cbn [named].
    rewrite !find_below_in, !below_app, !below_int by reflexivity. reflexivity. }
  rewrite E in F. destruct (find_below (s2z "file") (s2z "data") t); [destruct F|reflexivity].
Qed.
Lemma not_digital_absent n : digitalb f = false -> In n [s2z "size"; s2z "start"; s2z "end"; s2z "checksum"] -> find_elem n t = None.
Proof.
  intros D I. assert (P : plain n) by (destruct I as [<- |[<- |[<- |[<- |[]]]]]; reflexivity). pose proof (sim_find n _ _ S) as F. unfold tree_file in F at 1. rewrite find_elem_in in F.
  assert (E : find_in n (int_node (s2z "id") (f_id f) ++ text_node (s2z "uniqueId") (f_unique_id f) ++
           text_node (s2z "name") (f_name f) ++ text_node (s2z "date") (f_date f) ++
           tail_parent f ++ tail_data v1 f ++ tail_preview f ++ tail_meta f) = None).
  { unfold tail_data. rewrite D. rewrite !find_in_app, find_in_nil.
    cbn [In] in I. destruct I as [<-|[<-|[<-|[<-|[]]]]]; rewrite find_in_int, !find_in_text by reflexivity; lits; now parts. }
  rewrite E in F. destruct (find_elem n t); [destruct F|reflexivity].
Qed.
End file.
