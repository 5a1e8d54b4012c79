(** Documents with several root elements, as afs_control_data_save_string writes them. *)
From Verif Require Import CBase CBaseProofs XmlEntity XmlModel SpecXml EntityProofs Utf8Proofs XmlTermProofs TrimProofs XmlProofs XmlRound SimProofs TocXmlModel.

Lemma weave_elems ks ks' : weave blank ks ks' -> Forall2 sim ks (elems ks').
Proof.
  intro V. induction V as [w B|w k k' ks ks' B K0 S V IH].
  - destruct w; constructor.
  - pose proof (same_sim _ _ S) as S'. pose proof (same_is_elem _ _ _ S K0) as K.
    unfold elems. rewrite filter_app. cbn [filter]. rewrite K.
    replace (filter is_elem (pend w)) with (@nil node) by (destruct w; reflexivity). constructor; assumption.
Qed.
Theorem save_load_roots ws nl ks : indenting ws -> Forall wf ks -> ks <> [] ->
  exists t', load_string (save_text ws nl (new_xml ks)) = Ret (Some t') /\ sim (new_xml ks) t'.
Proof.
  intros Hi Hk Hn. destruct closed_blank as (Wb & W0 & Wa).
  set (D := new_xml ks).
  assert (E : save_text ws nl D = ws [] D BeforeOpen ++ 60 :: XML_DECL ++ 62 :: ws [] D AfterOpen ++ flat_map (write_node ws [XML_DECL]) ks ++ (if nl then [10] else [])).
  { unfold save_text, D, new_xml. cbn [write_node flat_map]. change (is_special XML_DECL) with true. change (write_tag_name XML_DECL) with XML_DECL. cbv iota.
    destruct ks as [|k ks']; [congruence|]. rewrite <- !app_assoc. cbn [app]. rewrite <- !app_assoc. cbn [app]. rewrite <- !app_assoc. reflexivity. }
  rewrite E.
  assert (R : Forall (fun k => round blank ws k /\ is_elem k = true) ks).
  { eapply Forall_impl; [|exact Hk]. intros t Ht. split; [now apply round_trip|now apply wf_is_elem]. }
  destruct (round_kids blank Wa ws [XML_DECL] ks R (mkFrame XML_DECL [] []) [] None (ws [] D AfterOpen) (if nl then [10] else []) (Hi _ _ _))
    as (ks1 & b' & Wb' & V & R2).
  exists (Elem XML_DECL [] ks1). split.
  - unfold load_string. erewrite run_reach; [| |apply Nat.lt_succ_diag_r].
    2:{ eapply reach_trans; [apply reach_blank_top; apply Hi|].
        eapply reach_step; [apply decl_tag|].
        eapply reach_trans; [apply (reach_blank _ _ (ws [] D AfterOpen) (Hi _ _ _) _ [])|].
        cbn [app]. eapply reach_trans; [exact R2|]. cbn [add_kids fr_name fr_attrs fr_kids]. rewrite app_nil_r.
        assert (Bn : blank (if nl then [10] else [])) by (destruct nl; repeat constructor).
        pose proof (reach_blank [mkFrame XML_DECL [] (rev ks1)] None _ Bn [] b') as R9. rewrite app_nil_r in R9. exact R9. }
    cbn [finish stack]. unfold close_frame. cbn [fr_name fr_attrs fr_kids]. now rewrite rev_involutive.
  - specialize (V [] W0). apply weave_elems in V. unfold elems in V. rewrite filter_app in V.
    replace (filter is_elem (pend (b' ++ []))) with (@nil node) in V by (destruct (b' ++ []); reflexivity). rewrite app_nil_r in V.
    assert (Ek : elems ks = ks).
    { clear -Hk. induction Hk as [|k ks W F IH]; [reflexivity|]. cbn. rewrite (wf_is_elem _ W). now f_equal. }
    unfold D, new_xml. constructor; [intro; reflexivity|now rewrite Ek|]. rewrite Ek. congruence.
Qed.
