(** C15: what a payload that holds the terminator is read back as. *)
From Verif Require Import CBase CBaseProofs XmlEntity XmlModel SpecXml EntityProofs Utf8Proofs XmlTermProofs XmlProofs XmlRound.
Lemma reach_raw S tp s : is_text s -> Forall (fun c => c <> 38 /\ c <> 60) s -> forall r b, reach (mkP S tp b true) (tok8 (s ++ r)) (mkP S tp (b ++ s) true) (tok8 r).
Proof.
  intros T. pattern s. revert s T. apply text_ind_cps.
  - intros _ r b. cbn. rewrite app_nil_r. apply reach_refl.
  - intros c s G T IH F r b. apply Forall_app in F as [Fc F]. rewrite <- app_assoc, (app_assoc b). eapply reach_trans; [apply reach_one|apply (IH F)].
    rewrite tok8_rfc by assumption. unfold step.
    assert (c <> 38 /\ c <> 60) as (P1 & P2).
    { unfold rfc_utf8 in Fc. destruct (Z.ltb_spec c 128); [inversion Fc; tauto|lia]. }
    apply Z.eqb_neq in P1, P2. rewrite P1, P2. cbn [stack top buf opaque]. rewrite andb_false_r. cbn [orb stack top buf opaque]. now rewrite (good_utf8 c G).
Qed.
Lemma step_at S tp b op t : (op = false -> b = []) -> step (mkP S tp b op) (tok8 (60 :: t)) = tag (mkP (add_kids S (pend b)) tp [] op) (tok8 t).
Proof. destruct closed_blank as (A & _ & C). exact (step_tag blank A C S tp b op t). Qed.
Lemma terminator_text : is_text (s2z "]]>"). Proof. apply is_text_ascii. repeat constructor; cbv; congruence. Qed.
(** Cut at the first terminator; the rest of the payload, as long as it holds no markup, becomes text beside it. *)
Theorem C15_cut_exact a b n nl : cdata_ok a -> is_text b -> Forall (fun c => c <> 38 /\ c <> 60) b -> name_ok n ->
  load_string (save_text no_ws nl (new_xml [Elem n [] [cdata_node (a ++ s2z "]]>" ++ b)]])) = Ret (Some (new_xml [Elem n [] [cdata_node a; Opaque (b ++ s2z "]]>")]])).
Proof.
  intros A B F N.
  assert (E : save_text no_ws nl (new_xml [Elem n [] [cdata_node (a ++ s2z "]]>" ++ b)]]) =
    60 :: XML_DECL ++ 62 :: 60 :: n ++ 62 :: 60 :: s2z "![CDATA[" ++ a ++ s2z "]]" ++ 62 :: (b ++ s2z "]]>") ++ 60 :: 47 :: escape n ++ 62 :: (if nl then [10] else [])).
  { unfold save_text, new_xml, cdata_node. cbn [write_node flat_map]. change (is_special XML_DECL) with true. rewrite (name_special n N), (name_tag_write n N). unfold no_ws. cbv iota. cbn [app].
    rewrite !app_nil_r. rewrite cdata_name_write. change (is_special (s2z "![CDATA[" ++ (a ++ s2z "]]>" ++ b) ++ s2z "]]")) with true.
    rewrite <- !app_assoc. cbn [app s2z list_ascii_of_string map]. repeat (rewrite <- ?app_assoc; cbn [app]). reflexivity. }
  rewrite E. set (tl := if nl then [10] else []). assert (Bn : blank tl) by (unfold tl; destruct nl; repeat constructor).
  set (c := b ++ s2z "]]>"). assert (Tc : is_text c) by (apply is_text_app; [exact B|exact terminator_text]).
  assert (Fc : Forall (fun c => c <> 38 /\ c <> 60) c) by (apply Forall_app; split; [exact F|repeat constructor; discriminate]).
  assert (Nc : c <> []) by (unfold c; intro X; apply app_eq_nil in X as [_ X]; discriminate X).
  unfold load_string. erewrite run_reach; [| |apply Nat.lt_succ_diag_r].
  2:{ eapply reach_step; [apply decl_tag|].
      eapply reach_step. { rewrite step_at by reflexivity. cbn [pend add_kids app fr_name fr_attrs fr_kids].
        apply (open_tag_text n [] [62] 62 _ N (conj (NoDup_nil _) (Forall_nil _)) (or_introl (conj eq_refl eq_refl))). reflexivity. }
      change (62 =? 47) with false. cbv iota. unfold push. cbn [stack top].
      eapply reach_step. { rewrite step_at by discriminate. cbn [pend add_kids app fr_name fr_attrs fr_kids]. apply cdata_tag; [exact A|reflexivity]. }
      unfold cdata_node at 1. rewrite attach_elem by discriminate. cbn [add_kids top_after app fr_name fr_attrs fr_kids].
      eapply reach_trans; [apply (reach_raw _ _ c Tc Fc _ [])|]. cbn [app].
      eapply reach_step; [apply close_tag_text; [exact N|reflexivity]|].
      pose proof (reach_blank [mkFrame XML_DECL [] [Elem n [] (rev (pend c ++ [cdata_node a]))]] None tl Bn [] []) as R9. rewrite app_nil_r in R9. exact R9. }
  cbn [finish stack]. unfold close_frame, new_xml. cbn [fr_name fr_attrs fr_kids rev app]. destruct c; [now elim Nc|]. reflexivity.
Qed.
(** Markup in the rest of the payload is read as elements: the payload a]]>KIDS<![CDATA[c comes back as the payload a, the elements KIDS and the payload c. *)
Theorem C15_injection_refuted a c ks n nl : cdata_ok a -> cdata_ok c -> Forall wf ks -> name_ok n ->
  load_string (save_text no_ws nl (new_xml [Elem n [] [cdata_node (a ++ s2z "]]>" ++ flat_map (write_node no_ws [n; XML_DECL]) ks ++ s2z "<![CDATA[" ++ c)]]))
    = Ret (Some (new_xml [Elem n [] (cdata_node a :: ks ++ [cdata_node c])])).
Proof.
  intros A C W N. rewrite <- (proj1 (save_load_compact nl (Elem n [] (cdata_node a :: ks ++ [cdata_node c])) ltac:(constructor; [exact N|split; constructor|]; constructor; [now apply wf_cdata|]; apply Forall_app; split; [exact W|constructor; [now apply wf_cdata|constructor]]))).
  f_equal. unfold save_text. f_equal. unfold new_xml, cdata_node. cbn [write_node flat_map app]. change (is_special XML_DECL) with true. rewrite (name_special n N). unfold no_ws. cbv iota. cbn [app].
  rewrite !cdata_name_write. rewrite flat_map_app. cbn [flat_map write_node]. rewrite !cdata_name_write.
  change (is_special (s2z "![CDATA[" ++ ?x ++ s2z "]]")) with true. rewrite !app_nil_r. cbn [app s2z list_ascii_of_string map].
  repeat (rewrite <- ?app_assoc; cbn [app]). reflexivity.
Qed.
Example C15_cut_witness : cdata_ok (s2z "<meta>") /\ cdata_ok (s2z "]] >") /\ is_text (s2z "tail ]]> more") /\ Forall (fun c => c <> 38 /\ c <> 60) (s2z "tail ]]> more") /\ Forall wf [Elem (s2z "file") [] []] /\ name_ok (s2z "data").
Proof.
  assert (K : forall s, forallb (fun c => (32 <=? c) && (c <? 128)) s = true -> is_text s).
  { intros s H. apply is_text_ascii. apply Forall_forall. intros c I. rewrite forallb_forall in H. specialize (H c I). lia. }
  assert (Nm : forall s, s <> [] -> forallb (fun c => (97 <=? c) && (c <? 123)) s = true -> name_ok s).
  { intros s H0 H. split; [exact H0|]. rewrite forallb_forall in H. split; [apply Forall_forall; intros c I; specialize (H c I); unfold name_char; lia|]. destruct s as [|c s]; [congruence|]. specialize (H c (or_introl eq_refl)). unfold first_char. lia. }
  split; [split; [now apply K|]|split; [split; [now apply K|]|split; [now apply K|split; [|split; [|apply Nm; [discriminate|reflexivity]]]]]].
  - intros (a & b & E). do 7 (destruct a as [|? a]; [cbn in E; inversion E|cbn in E; try discriminate; injection E as _ E]).
  - intros (a & b & E). do 5 (destruct a as [|? a]; [cbn in E; inversion E|cbn in E; try discriminate; injection E as _ E]).
  - apply Forall_forall. intros c I. cbn in I. intuition lia.
  - constructor; [apply wf_leaf; [apply Nm; [discriminate|reflexivity]|split; constructor]|constructor].
Qed.
Print Assumptions C15_cut_exact.
Print Assumptions C15_injection_refuted.
