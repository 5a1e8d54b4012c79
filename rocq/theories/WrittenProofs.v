(** What the writer writes is a document of the grammar. *)
From Verif Require Import CBase CBaseProofs XmlEntity XmlModel SpecXml SpecGrammar Utf8Proofs TrimProofs XmlTermProofs XmlProofs XmlRound XmlRoots GrammarProofs.

Lemma escape_spells (ok : Z -> Prop) s : (forall c, good_cp c -> plain c -> ok c) -> is_text s -> spells ok (escape s) s.
Proof.
  intros K T. induction T as [|c s G T IH] using text_ind_cps; [constructor|]. rewrite escape_app.
  destruct (escape_cp c G) as [(P & E)|(E & P)].
  - rewrite E. apply spells_char; auto.
  - rewrite E. assert (R : refers (escape [c]) c) by (destruct P as [->|[->|[->| ->]]]; constructor).
    pose proof (spells_ref ok _ c _ _ R IH) as Q. rewrite E in Q. exact Q.
Qed.
Lemma plain_text c : plain c -> text_char c. Proof. unfold plain, text_char. tauto. Qed.
Lemma plain_value c : plain c -> value_char 34 c. Proof. unfold plain, value_char. tauto. Qed.
Lemma name_attr n : name_ok n -> attr_name n /\ tag_name n.
Proof.
  intros (N & F & H). destruct n as [|c l]; [contradiction|]. inversion F as [|? ? Fc Fl]; subst.
  assert (E : forall m, Forall name_char m -> flat_map rfc_utf8 m = m).
  { induction 1 as [|x m X _ IH]; [reflexivity|]. cbn [flat_map]. rewrite IH. unfold rfc_utf8. replace (x <? 128) with true by (unfold name_char in X; lia). reflexivity. }
  assert (Fm : Forall name_more l). { eapply Forall_impl; [|exact Fl]. intros x X. unfold name_more, name_start, letter. unfold name_char in X. lia. }
  assert (Lc : letter c) by (unfold first_char in H; unfold letter; lia).
  split; exists c, l; rewrite (E _ F); repeat split; auto. now left.
Qed.
Lemma written_attrs a : attrs_ok a -> attributes (flat_map write_attr a) a.
Proof.
  intros (N & F). induction F as [|(n & v) a (Hn & w & Hw & Tw) F IH]; [constructor|].
  inversion N as [|? ? N1 N2]; subst. cbn [fst snd] in *. subst v. cbn [flat_map]. unfold write_attr at 1. cbn [fst snd]. rewrite write_name_ok by assumption.
  pose proof (attributes_one [32] n [] [] 34 (escape w) w (flat_map write_attr a) a ltac:(discriminate) ltac:(repeat constructor; unfold space; lia) (proj1 (name_attr n Hn)) (Forall_nil _) (Forall_nil _) ltac:(auto)
    (escape_spells _ w (fun c _ P => plain_value c P) Tw) (IH N2) N1) as Q.
  cbn [app] in Q. cbn [app]. rewrite <- !app_assoc. cbn [app]. rewrite <- app_assoc. exact Q.
Qed.
Lemma blank_spaces w : blank w -> spaces w.
Proof. intro H. eapply Forall_impl; [|exact H]. unfold space. cbn. lia. Qed.
Lemma escape_name n : name_ok n -> escape n = n.
Proof. intros (_ & F & _). apply escape_plain. now apply name_char_plain. Qed.

Section Written.
Variable W : cstr -> Prop.
Hypothesis Wb : forall w, W w -> blank w.
Hypothesis W0 : W [].
Hypothesis Wapp : forall a b, W a -> W b -> W (a ++ b).
Variable ws : ws_cb.
Hypothesis Hws : forall path t p, W (ws path t p).
Definition written (t : node) : Prop := forall path, exists w1 x w2 t', W w1 /\ W w2 /\ write_node ws path t = w1 ++ x ++ w2 /\ item x t' /\ same W t t'.
Lemma Wsp w : W w -> spells text_char w w. Proof. intro H. apply spaces_spell, blank_spaces, Wb, H. Qed.
Lemma written_kids path ks : Forall (fun k => written k /\ is_elem k = true) ks -> forall w w', W w -> W w' ->
  exists ks', content (w ++ flat_map (write_node ws path) ks ++ w') ks' /\ weave W ks ks'.
Proof.
  induction 1 as [|k ks (Hk & Ek) F IH]; intros w w' Hw Hw'.
  - cbn [flat_map app]. exists (texts (w ++ w')). split; [apply content_end, Wsp; auto|]. exact (weave_nil W (w ++ w') (Wapp _ _ Hw Hw')).
  - destruct (Hk path) as (w1 & x & w2 & k' & W1 & W2 & E & I & Sm). cbn [flat_map]. rewrite E.
    destruct (IH w2 w' W2 Hw') as (ks' & C & V).
    exists (texts (w ++ w1) ++ k' :: ks'). split; [|exact (weave_cons W (w ++ w1) k k' ks ks' (Wapp _ _ Hw W1) Ek Sm V)].
    replace (w ++ ((w1 ++ x ++ w2) ++ flat_map (write_node ws path) ks) ++ w') with ((w ++ w1) ++ x ++ (w2 ++ flat_map (write_node ws path) ks ++ w')) by (rewrite <- !app_assoc; reflexivity).
    apply content_item; [apply Wsp; auto|exact I|exact C].
Qed.
Lemma written_all : forall t, wf t -> written t.
Proof.
  apply (node_ind2 (fun t => wf t -> written t)); [|intros s H; inversion H].
  intros n a ks IH H path. cbn [write_node]. set (T := Elem n a ks).
  assert (K : (name_ok n /\ attrs_ok a /\ (ks = [] \/ (exists s, ks = [Opaque s] /\ s <> [] /\ is_text s) \/ (ks <> [] /\ Forall wf ks))) \/ exists p, cdata_ok p /\ T = cdata_node p).
  { unfold T. inversion H as [n' a' Hn Ha|n' a' s Hn Ha Hs Ts|n' a' k ks' Hn Ha Hk|p Hp]; subst; [left|left|left|right; eauto]; split; auto; split; auto.
    - right. left. eauto.
    - right. right. split; [discriminate|assumption]. }
  destruct K as [(Hn & Ha & K)|(p & Hp & ET)].
  2:{ assert (n = s2z "![CDATA[" ++ p ++ s2z "]]" /\ a = [] /\ ks = []) as (En & Ea & Ek) by (unfold T, cdata_node in ET; repeat split; congruence).
      clear ET IH H. subst n a ks. unfold T.
      exists (ws path T BeforeOpen), (s2z "<![CDATA[" ++ p ++ s2z "]]>"), (ws path T AfterOpen), T. split; [apply Hws|]. split; [apply Hws|].
      split; [|split; [now constructor|unfold T; constructor]].
      rewrite cdata_name_write. cbn [flat_map]. change (is_special (s2z "![CDATA[" ++ p ++ s2z "]]")) with true. cbv iota.
      f_equal. cbn [s2z list_ascii_of_string map app]. repeat (rewrite <- ?app_assoc; cbn [app]). reflexivity. }
  rewrite name_tag_write, name_special, escape_name by assumption.
  destruct (name_attr n Hn) as (_ & Tn). pose proof (written_attrs a Ha) as At.
  destruct K as [->|[(s & -> & Ns & Ts)|(Nk & Fk)]].
  - exists (ws path T BeforeOpen), (60 :: n ++ flat_map write_attr a ++ [32] ++ s2z "/>"), (ws path T AfterOpen), T. split; [apply Hws|]. split; [apply Hws|].
    split; [|split; [apply item_empty; auto; repeat constructor; unfold space; lia|unfold T; constructor]].
    f_equal. cbn [s2z list_ascii_of_string map app]. repeat (rewrite <- ?app_assoc; cbn [app]). reflexivity.
  - set (w1 := ws path T AfterOpen). set (w2 := ws path T BeforeClose).
    exists (ws path T BeforeOpen), (60 :: n ++ flat_map write_attr a ++ [] ++ 62 :: (w1 ++ escape s ++ w2) ++ s2z "</" ++ n ++ [] ++ s2z ">"), (ws path T AfterClose), (Elem n a [Opaque (w1 ++ s ++ w2)]).
    split; [apply Hws|]. split; [apply Hws|].
    split; [|split; [|apply same_text; apply Hws]].
    + f_equal. cbn [flat_map write_node s2z list_ascii_of_string map app]. repeat (rewrite <- ?app_assoc; cbn [app]). reflexivity.
    + replace [Opaque (w1 ++ s ++ w2)] with (texts (w1 ++ s ++ w2)). 2:{ destruct w1; [|reflexivity]. destruct s; [congruence|reflexivity]. }
      apply item_element; auto; try constructor.
      assert (Ap : forall a1 v1 a2 v2, spells text_char a1 v1 -> spells text_char a2 v2 -> spells text_char (a1 ++ a2) (v1 ++ v2)).
      { intros a1 v1 a2 v2 Q. induction Q; intro Z; cbn [app]; auto; rewrite <- !app_assoc; [apply spells_char|apply spells_ref]; auto. }
      apply Ap; [apply Wsp, Hws|]. apply Ap; [apply escape_spells; [intros c _; apply plain_text|assumption]|apply Wsp, Hws].
  - assert (R : Forall (fun k => written k /\ is_elem k = true) ks).
    { rewrite Forall_forall in IH, Fk. apply Forall_forall. intros k I. split; [apply IH; auto|apply wf_is_elem; auto]. }
    destruct (written_kids (n :: path) ks R (ws path T AfterOpen) (ws path T BeforeClose) (Hws _ _ _) (Hws _ _ _)) as (ks' & C & V).
    exists (ws path T BeforeOpen), (60 :: n ++ flat_map write_attr a ++ [] ++ 62 :: (ws path T AfterOpen ++ flat_map (write_node ws (n :: path)) ks ++ ws path T BeforeClose) ++ s2z "</" ++ n ++ [] ++ s2z ">"),
      (ws path T AfterClose), (Elem n a ks').
    split; [apply Hws|]. split; [apply Hws|].
    split; [|split; [apply item_element; auto; constructor|now apply same_elems]].
    destruct ks as [|k ks]; [congruence|].
    f_equal. cbn [s2z list_ascii_of_string map app]. repeat (rewrite <- ?app_assoc; cbn [app]). reflexivity.
Qed.
Lemma written_body path ks w w' : Forall (fun k => written k /\ is_elem k = true) ks -> W w -> spaces w' ->
  exists ks', body (w ++ flat_map (write_node ws path) ks ++ w') ks' /\ exists v, W v /\ weave W ks (ks' ++ pend v).
Proof.
  intros F. revert w. induction F as [|k ks (Hk & Ek) F IH]; intros w Hw Hw'.
  - cbn [flat_map app]. exists []. split; [apply body_end; apply Forall_app; split; [apply blank_spaces, Wb; auto|exact Hw']|]. exists []. split; [assumption|]. exact (weave_nil W [] W0).
  - destruct (Hk path) as (w1 & x & w2 & k' & W1 & W2 & E & I & Sm). cbn [flat_map]. rewrite E.
    destruct (IH w2 W2 Hw') as (ks' & C & v & Wv & V).
    exists (texts (w ++ w1) ++ k' :: ks'). split.
    + replace (w ++ ((w1 ++ x ++ w2) ++ flat_map (write_node ws path) ks) ++ w') with ((w ++ w1) ++ x ++ (w2 ++ flat_map (write_node ws path) ks ++ w')) by (rewrite <- !app_assoc; reflexivity).
      apply body_item; [apply blank_spaces, Wb; auto|exact I|exact C].
    + exists v. split; [assumption|]. pose proof (weave_cons W (w ++ w1) k k' ks (ks' ++ pend v) (Wapp _ _ Hw W1) Ek Sm V) as Q. rewrite <- app_assoc. exact Q.
Qed.
(** The text of a document below the XML declaration. *)
Definition xml_declaration : cstr := s2z "xml version=""1.0"" encoding=""utf-8""".
Theorem written_document ks (nl : bool) : Forall wf ks -> ks <> [] ->
  exists ks', document (save_text ws nl (new_xml ks)) (Elem (s2z "?" ++ xml_declaration ++ s2z "?") [] ks') /\ exists v, W v /\ weave W ks (ks' ++ pend v).
Proof.
  intros Hk Hn. set (D := new_xml ks).
  assert (E : save_text ws nl D = [] ++ ws [] D BeforeOpen ++ s2z "<?" ++ xml_declaration ++ s2z "?>" ++ (ws [] D AfterOpen ++ flat_map (write_node ws [XML_DECL]) ks ++ (if nl then [10] else []))).
  { unfold save_text, D, new_xml. cbn [write_node flat_map]. change (is_special XML_DECL) with true. change (write_tag_name XML_DECL) with XML_DECL. cbv iota.
    destruct ks as [|k ks']; [congruence|]. rewrite <- !app_assoc. cbn [app]. rewrite <- !app_assoc. cbn [app]. rewrite <- !app_assoc. reflexivity. }
  rewrite E.
  assert (R : Forall (fun k => written k /\ is_elem k = true) ks).
  { eapply Forall_impl; [|exact Hk]. intros t Ht. split; [now apply written_all|now apply wf_is_elem]. }
  destruct (written_body [XML_DECL] ks (ws [] D AfterOpen) (if nl then [10] else []) R (Hws _ _ _)) as (ks' & B & V).
  { apply blank_spaces. destruct nl; repeat constructor. }
  exists ks'. split; [|exact V]. apply document_declared; [now left|apply blank_spaces, Wb, Hws| |exact B].
  split; [|].
  - apply is_text_ascii. apply Forall_forall. intros c I. vm_compute in I. repeat (destruct I as [<-|I]; [lia|]). destruct I.
  - intros (x & y & Q). assert (I : In 62 (63 :: xml_declaration)) by (rewrite Q; apply in_or_app; right; right; left; reflexivity).
    vm_compute in I. repeat (destruct I as [I|I]; [discriminate|]). destruct I.
Qed.
Theorem written_bare t (nl : bool) : wf t -> (exists n a ks, t = Elem n a ks /\ name_ok n) ->
  exists t', document (save_text ws nl t) t' /\ same W t t'.
Proof.
  intros Ht (n & a & ks & -> & Hn). destruct (written_all _ Ht []) as (w1 & x & w2 & t' & W1 & W2 & E & I & Sm).
  assert (exists ks', t' = Elem n a ks') as (ks' & ->) by (inversion Sm; subst; eauto).
  eexists. split; [|exact Sm]. unfold save_text. rewrite E.
  replace ((w1 ++ x ++ w2) ++ (if nl then [10] else [])) with ([] ++ w1 ++ x ++ (w2 ++ (if nl then [10] else []))) by (cbn [app]; now rewrite <- !app_assoc).
  apply document_bare; [now left|now apply blank_spaces, Wb|exact I|now apply name_attr|].
  apply Forall_app. split; [now apply blank_spaces, Wb|]. apply blank_spaces. destruct nl; repeat constructor.
Qed.
End Written.
