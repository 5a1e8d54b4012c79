(** C52 and C54 for the configuration files of the boxing format. *)
From Verif Require Import SimProofs CBase CBaseProofs XmlEntity XmlModel SpecXml XmlRound XmlRoots TocModel TocXmlModel SpecTocXml PropTocXml
  ControlModel SpecControl ControlProofs ControlProofs2 PropControl WsModel SpecWs WsProofs PropWs FileModel SpecFile FileProofs PropFile SpecCut CutProofs CutProofs2 CutProofs3 CutProofs4 PropCut.

(** src/controlframe/boxingformat.c 525-575 (afs_boxing_format_save_config_file; 545-557 builds what
    afs_boxing_format_save_xml 358-373 builds) and 590-624 (load_config_file: [fetch load_format]). *)
Definition format_to_file (f : bformat) := store OpenFirst true (save_format (Some f)) (guarded ws_format).

(** * C52 *)
(** Configuration files behave as the other kinds of files. *)
Theorem C52_config_file f :
  (format_carried f -> file_round_trips (format_to_file f) load_format (format_back f)) /\
  touches_only (format_to_file f) /\ needs_file (format_to_file f) /\ failure_harmless (format_to_file f).
Proof.
  split; [|split; [|split]].
  - intro C. filed_doc. now apply C23_format_round_trip.
  - intros ? ? ? ? ? ? ?. apply store_touches.
  - intros ? ? ? ?. apply store_needs_file.
  - intros ? ? ? ? ? ?. apply store_harmless. reflexivity.
Qed.
Print Assumptions C52_config_file.

(** * C54 *)
Lemma load_format_elems ks : load_format (Elem XML_DECL [] ks) = load_format (Elem XML_DECL [] (elems ks)).
Proof. unfold load_format. now rewrite !(find_elem_elems _ XML_DECL [] ks XML_DECL []). Qed.
Lemma load_format_snoc ks : load_format (Elem XML_DECL [] (ks ++ [Elem [] [] []])) = load_format (Elem XML_DECL [] ks).
Proof. unfold load_format. now rewrite !find_snoc by discriminate. Qed.
Definition no_settings : bformat := mkFormat (Some (mkConfig [] [])).
Lemma leaf_format n m y : In n [s2z "NULL"; s2z "work"] -> beginning m n -> load_format (Elem XML_DECL [] [Elem m [] []]) = Some y ->
  (n = s2z "NULL" /\ y = mkFormat None) \/ (n = s2z "work" /\ y = no_settings).
Proof.
  intros H B E. apply beginning_in in B. unfold load_format in E. rewrite !find_other in E by reflexivity. cbn [named find_elem descendants flat_map find] in E.
  destruct H as [<- |[<- |[]]]; cbn [List.length map seq s2z firstn] in B.
  - left. split; [reflexivity|]. repeat (destruct B as [<- |B]; [vm_compute in E; congruence|]). destruct B.
  - right. split; [reflexivity|]. repeat (destruct B as [<- |B]; [vm_compute in E; try discriminate; injection E as <-; reflexivity|]). destruct B.
Qed.
(** A configuration file is whole, refused, or without any settings. *)
Theorem C54_config_file f : format_carried f -> crash_leaves (format_to_file f) load_format (format_back f) (eq no_settings).
Proof.
  intros C compact nl d name d' d'' St Int. pose proof (C23_format_round_trip f C) as R.
  set (n := match bf_config f with None => s2z "NULL" | Some _ => s2z "work" end).
  assert (Rt : document_round_trips (save_format (Some f)) tops [Some n]).
  { replace [Some n] with (map node_name [tree_format f]) by (unfold n, tree_format; now destruct (bf_config f)).
    apply (tops_document _ [tree_format f]); [reflexivity|discriminate|constructor; [now apply wf_format|constructor]]. }
  assert (Iw : indenting ws_format) by (intros ? ? ?; apply rules_blank).
  assert (R1 : indented_round_trips true (save_format (Some f)) (if compact then guarded no_ws else guarded ws_format) load_format (format_back f))
    by (destruct compact; apply indented_guarded_document; auto using no_ws_indenting).
  assert (R2 : indented_round_trips true (save_format (Some f)) (if compact then guarded no_ws else guarded ws_format) tops [Some n])
    by (destruct compact; apply indented_guarded_document; auto using no_ws_indenting).
  assert (B : blank_first (save_format (Some f)) (if compact then guarded no_ws else guarded ws_format))
    by (destruct compact; apply guarded_first; auto using no_ws_indenting).
  destruct (crash_cases _ _ _ _ _ _ _ _ _ _ _ _ R1 B St Int) as [-> |(K & t & L & T & -> & s & W & _ & Ls)]; [exists None; split; [reflexivity|discriminate]|].
  pose proof (shape _ _ _ _ _ _ _ R2 W Ls) as Sh. eexists. split; [reflexivity|]. intros y E.
  destruct (torn_single n K t Sh T) as [(m & ->)|(k & -> & H)]; [discriminate|].
  rewrite load_format_elems in E. destruct H as [H|[(m & Bm & H)|[H|H]]]; rewrite H in E.
  - discriminate.
  - assert (I2 : In n [s2z "NULL"; s2z "work"]) by (unfold n; destruct (bf_config f); cbn [In]; auto).
    destruct (leaf_format n m y I2 Bm E) as [(En & ->)|(_ & ->)]; [left|right; reflexivity].
    unfold n, format_back in *. destruct (bf_config f); [discriminate En|reflexivity].
  - rewrite <- load_format_elems, L in E. injection E as <-. now left.
  - rewrite load_format_snoc, <- load_format_elems, L in E. injection E as <-. now left.
Qed.
Print Assumptions C54_config_file.
Theorem C54_config_silently_empty_refuted c : crash_may_leave (format_to_file (mkFormat (Some c))) load_format no_settings.
Proof.
  intros nl d name. destruct (compact_text (s2z "work") [(VERSION, Some (s2z "1.0.0.0"))] (node_kids (save_config c)) [] nl eq_refl eq_refl) as (r & W).
  destruct (store_compact OpenFirst (save_format (Some (mkFormat (Some c)))) (guarded ws_format) nl d name _ eq_refl W) as (d' & St & E). exists d'.
  set (p := 60 :: XML_DECL ++ 62 :: 60 :: s2z "work"). exists (write_file d' name p). split; [exact St|]. split.
  - exists p, r. split; [|apply write_file_at]. rewrite E. reflexivity.
  - unfold fetch. rewrite write_file_at. unfold p.
    assert (O : opens (s2z "work")) by opened.
    pose proof (early_cut [] [] (s2z "work") ltac:(constructor) ltac:(constructor) O) as X. cbn [XmlProofs.pend app] in X. rewrite X. reflexivity.
Qed.
Print Assumptions C54_config_silently_empty_refuted.

(** * Witness: the configuration of the example, saved, whole and cut. *)
Example C52_config_witness :
  match te_format ex_tech with
  | Some f => match format_to_file f false true true ex_disk (s2z "format.xml") with
              | Ok (d, true) => match fetch load_format true d (s2z "format.xml"), fetch load_format true (cut_disk d (s2z "format.xml") 60) (s2z "format.xml") with
                                | Ok (Some (mkFormat (Some (mkConfig (_ :: _) _)))), Ok None => true | _, _ => false end
              | _ => false
              end
  | None => false
  end = true.
Proof. vm_compute. reflexivity. Qed.
