(** Indentation does not change whether a saved tree conforms. *)
From Verif Require Import CBase CBaseProofs XmlModel SpecXml SpecGrammar SpecSchema SpecSchema2 SchemaProofs SchemaProofs2 XmlTermProofs XmlProofs XmlRound WrittenProofs WrittenProofs2
  TocModel SpecToc ValidProofs TocXmlModel TocXmlBase SpecTocXml TocXmlProofs TocXmlProofs2 TocXmlProofs3 TocXmlProofs5 WsModel WriterModel WriterProofs WriterProofs2 WriterProofs3.
Import SpecXml.

(** * Blanks *)
Lemma blank_xml w : blank w -> all_blanks w.
Proof. apply Forall_impl. unfold xml_blank. intros c H. cbn beta. lia. Qed.
Lemma drop_app w s : all_blanks w -> drop_blanks (w ++ s) = drop_blanks s.
Proof. induction 1 as [|c w H _ IH]; [reflexivity|]. cbn [app drop_blanks]. now rewrite H. Qed.
Lemma rev_blanks w : all_blanks w -> all_blanks (rev w).
Proof. unfold all_blanks. intro H. rewrite Forall_forall in *. intros c I. apply H. now apply in_rev. Qed.
Lemma drop_all w : all_blanks w -> drop_blanks w = [].
Proof. intro H. rewrite <- (app_nil_r w). now rewrite (drop_app w [] H). Qed.
Lemma drop_split s : exists w, all_blanks w /\ s = w ++ drop_blanks s.
Proof.
  induction s as [|c s (w & A & E)]; [exists []; split; [constructor|reflexivity]|]. cbn [drop_blanks]. destruct (xml_blank c) eqn:B.
  - exists (c :: w). split; [now constructor|]. cbn [app]. now rewrite <- E.
  - exists []. split; [constructor|reflexivity].
Qed.
Lemma drop_tail s w : all_blanks w -> drop_blanks (s ++ w) = match drop_blanks s with [] => [] | l => l ++ w end.
Proof.
  intro H. induction s as [|c s IH]; [cbn [app]; now rewrite drop_all|]. cbn [app drop_blanks]. destruct (xml_blank c); [exact IH|reflexivity].
Qed.
Lemma collapse_outer w s v : all_blanks w -> all_blanks v -> collapse (w ++ s ++ v) = collapse s.
Proof.
  intros W V. unfold collapse. rewrite drop_app, drop_tail by assumption. destruct (drop_blanks s) as [|c l]; [reflexivity|].
  rewrite rev_app_distr, drop_app by now apply rev_blanks. reflexivity.
Qed.
Lemma collapse_split s : exists w v, all_blanks w /\ all_blanks v /\ s = w ++ collapse s ++ v.
Proof.
  destruct (drop_split s) as (w & W & E). destruct (drop_split (rev (drop_blanks s))) as (v & V & F). exists w, (rev v). split; [exact W|]. split; [now apply rev_blanks|].
  rewrite E at 1. f_equal. unfold collapse. rewrite <- (rev_involutive (drop_blanks s)) at 1. rewrite F at 1. apply rev_app_distr.
Qed.
Lemma last_snoc (s : cstr) : s <> [] -> exists l c, s = l ++ [c].
Proof. intro N. destruct (exists_last N) as (l & c & E). eauto. Qed.
Lemma collapse_firm c l m d : xml_blank c = false -> xml_blank d = false -> c :: l = m ++ [d] -> collapse (c :: l) = c :: l.
Proof.
  intros C D E. unfold collapse. rewrite drop_blanks_head by exact C. rewrite E at 1. rewrite rev_app_distr. cbn [rev app]. rewrite drop_blanks_head by exact D.
  cbn [rev]. rewrite rev_involutive. symmetry. exact E.
Qed.
(** * Dates *)
Lemma digit_firm c : digitp c = true -> xml_blank c = false.
Proof. unfold digitp, xml_blank. lia. Qed.
Definition firm (s : cstr) : Prop := (exists c l, s = c :: l /\ xml_blank c = false) /\ (exists m d, s = m ++ [d] /\ xml_blank d = false).
Lemma firm_collapse s : firm s -> collapse s = s.
Proof. intros ((c & l & -> & C) & (m & d & E & D)). eapply collapse_firm; eassumption. Qed.
Lemma digits_ends n s : n_digits (S n) s -> firm s.
Proof.
  intros (L & F). split.
  - destruct s as [|c s]; [discriminate|]. inversion F; subst. exists c, s. split; [reflexivity|now apply digit_firm].
  - destruct (last_snoc s) as (m & d & ->); [destruct s; [discriminate|congruence]|]. apply Forall_app in F as (_ & F). inversion F; subst. exists m, d. split; [reflexivity|now apply digit_firm].
Qed.
Lemma firm_app a b : firm a -> firm b -> firm (a ++ b).
Proof. intros ((c & l & -> & C) & _) (_ & (m & d & -> & E)). split; [exists c, (l ++ m ++ [d]); auto|exists ((c :: l) ++ m), d; rewrite app_assoc; auto]. Qed.
Lemma firm_mid a b c : firm a -> firm c -> firm (a ++ b ++ c).
Proof. intros ((x & l & -> & C) & _) (_ & (m & d & -> & E)). split; [exists x, (l ++ b ++ m ++ [d]); auto|exists ((x :: l) ++ b ++ m), d; rewrite !app_assoc; auto]. Qed.
Lemma day_firm d : day d -> firm d.
Proof.
  intros (a & p & b & q & c & -> & _ & _ & [(A & _ & C)|(A & _ & C)]); apply digits_ends in A, C; replace (a ++ p ++ b ++ q ++ c) with (a ++ (p ++ b ++ q) ++ c) by (rewrite <- !app_assoc; reflexivity);
    now apply firm_mid.
Qed.
Lemma clock_firm d t : firm d -> clock t -> firm (d ++ t).
Proof.
  intros D [-> |(a & p & b & c & -> & _ & _ & _ & C)]; [now rewrite app_nil_r|]. apply digits_ends in C.
  replace (d ++ p ++ a ++ s2z ":" ++ b ++ s2z ":" ++ c) with (d ++ (p ++ a ++ s2z ":" ++ b ++ s2z ":") ++ c) by (rewrite <- !app_assoc; reflexivity). now apply firm_mid.
Qed.
Lemma date_core s : DateType s <-> exists d t, collapse s = d ++ t /\ day d /\ clock t.
Proof.
  split.
  - intros (w & d & t & v & -> & W & Hd & Ht & V). exists d, t. split; [|auto]. rewrite app_assoc with (l := d). rewrite collapse_outer by assumption.
    apply firm_collapse. apply clock_firm; [now apply day_firm|exact Ht].
  - intros (d & t & E & Hd & Ht). destruct (collapse_split s) as (w & v & W & V & F). exists w, d, t, v. rewrite F, E. rewrite <- app_assoc. auto.
Qed.
(** * Types that do not mind blanks around the text *)
Definition lenient (p : cstr -> Prop) : Prop := forall w s v, all_blanks w -> all_blanks v -> (p (w ++ s ++ v) <-> p s).
Lemma lenient_string : lenient xs_string. Proof. intros w s v _ _. unfold xs_string. tauto. Qed.
Lemma integer_outer w s v : all_blanks w -> all_blanks v -> integer_value (w ++ s ++ v) = integer_value s.
Proof. intros W V. unfold integer_value. now rewrite collapse_outer. Qed.
Lemma lenient_integer : lenient xs_integer. Proof. intros w s v W V. unfold xs_integer. rewrite integer_outer by assumption. tauto. Qed.
Lemma lenient_unsigned : lenient xs_unsignedInt. Proof. intros w s v W V. unfold xs_unsignedInt. rewrite integer_outer by assumption. tauto. Qed.
Lemma lenient_parent : lenient ParentIdType.
Proof. intros w s v W V. unfold ParentIdType. rewrite collapse_outer by assumption. rewrite (lenient_integer w s v W V). tauto. Qed.
Lemma lenient_date : lenient DateType.
Proof. intros w s v W V. rewrite !date_core. rewrite collapse_outer by assumption. tauto. Qed.
Definition DATA := s2z "data".
Inductive tolerant : cstr -> etype -> Prop :=
| tolerant_type n atts c : tolerant_content c -> (c = Empty -> n <> DATA) -> tolerant n (EType atts c)
with tolerant_content : content_model -> Prop :=
| tolerant_text p : lenient p -> tolerant_content (Text p)
| tolerant_seq l : tolerant_list l -> tolerant_content (Sequence l)
| tolerant_empty : tolerant_content Empty
with tolerant_list : list particle -> Prop :=
| tolerant_nil : tolerant_list []
| tolerant_part n lo hi t l : tolerant n t -> tolerant_list l -> tolerant_list (Part n lo hi t :: l).
Ltac tol := repeat first [apply tolerant_nil | apply tolerant_part | apply tolerant_type; [|discriminate || (intros _; vm_compute; discriminate)] | apply tolerant_seq | apply tolerant_empty
  | apply tolerant_text; first [exact lenient_string | exact lenient_integer | exact lenient_unsigned | exact lenient_parent | exact lenient_date]].
Lemma tolerant_file : tolerant (s2z "file") FileType. Proof. unfold FileType, one, optional. tol. Qed.
Lemma tolerant_index : tolerant (s2z "Index") IndexType. Proof. unfold IndexType, one, optional. tol. Qed.
(** * Tidy trees: text, one CDATA section in an element data, or elements only *)
Inductive tidy : node -> Prop :=
| tidy_text n a s : tidy (Elem n a (text_kids s))
| tidy_cdata a d : tidy (Elem DATA a [new_cdata d])
| tidy_elems n a ks : Forall proper ks -> Forall tidy ks -> tidy (Elem n a ks).
Fixpoint tidy_all (P : node -> Prop) (H1 : forall n a s, P (Elem n a (text_kids s))) (H2 : forall a d, P (Elem DATA a [new_cdata d]))
  (H3 : forall n a ks, Forall proper ks -> Forall tidy ks -> Forall P ks -> P (Elem n a ks)) (t : node) (T : tidy t) : P t :=
  match T in tidy t0 return P t0 with
  | tidy_text n a s => H1 n a s
  | tidy_cdata a d => H2 a d
  | tidy_elems n a ks F G => H3 n a ks F G
      ((fix go ks (G : Forall tidy ks) : Forall P ks :=
         match G with Forall_nil _ => Forall_nil P | Forall_cons x Hx Hl => Forall_cons x (tidy_all P H1 H2 H3 x Hx) (go _ Hl) end) ks G)
  end.
Definition alike (k k' : node) : Prop := exists n a ks ks', k = Elem n a ks /\ k' = Elem n a ks' /\ forall T, tolerant n T -> (conforms T k <-> conforms T k').
Lemma forall2_called n l l' : Forall2 alike l l' -> Forall (called n) l -> Forall (called n) l'.
Proof. induction 1 as [|k k' l l' (m & a & ks & ks' & -> & -> & _) _ IH]; intro F; [constructor|]. inversion F as [|? ? (b & r & E) F']; subst. injection E as -> -> ->. constructor; [now exists b, ks'|auto]. Qed.
Lemma forall2_conforms n T l l' : tolerant n T -> Forall2 alike l l' -> Forall (called n) l -> Forall (conforms T) l -> Forall (conforms T) l'.
Proof.
  intros H. induction 1 as [|k k' l l' (m & a & ks & ks' & -> & -> & K) _ IH]; intros F C; [constructor|]. inversion F as [|? ? (b & r & E) F']; subst. injection E as -> -> ->. inversion C; subst.
  constructor; [now apply K|auto].
Qed.
Lemma alike_sym k k' : alike k k' -> alike k' k.
Proof. intros (n & a & ks & ks' & -> & -> & K). exists n, a, ks', ks. split; [reflexivity|]. split; [reflexivity|]. intros T HT. symmetry. now apply K. Qed.
Lemma forall2_sym {X} (R : X -> X -> Prop) l l' : (forall x y, R x y -> R y x) -> Forall2 R l l' -> Forall2 R l' l.
Proof. intros H. induction 1; constructor; auto. Qed.
Lemma sequence_alike ps l l' : tolerant_list ps -> Forall2 alike l l' -> in_sequence ps l -> in_sequence ps l'.
Proof.
  intros Tp F H. revert l' F. induction H as [|n lo hi t ps l1 l2 Lo Hi O _ IH]; intros l' F; [inversion F; constructor|].
  inversion Tp as [|? ? ? ? ? Tt Tl]; subst. apply Forall2_app_inv_l in F as (m1 & m2 & F1 & F2 & ->).
  assert (L : List.length l1 = List.length m1) by (clear -F1; induction F1; cbn; congruence).
  apply occurrences_iff in O as (O1 & O2). constructor; [lia|intros m E; rewrite <- L; auto| |apply IH; assumption].
  apply occurrences_iff. split; [eapply forall2_called; eassumption|eapply forall2_conforms; eassumption].
Qed.
Lemma blanks_app a b : all_blanks (a ++ b) <-> all_blanks a /\ all_blanks b. Proof. apply Forall_app. Qed.
Lemma children_pend w l : children (pend w ++ l) = children l. Proof. destruct w; reflexivity. Qed.
Lemma text_pend w l : text_in (pend w ++ l) = w ++ text_in l. Proof. destruct w; [reflexivity|]. unfold pend, text_in. cbn [app flat_map own_text]. reflexivity. Qed.
Lemma pend_alone w : children (pend w) = [] /\ text_in (pend w) = w.
Proof. destruct w; [auto|]. split; [reflexivity|]. unfold pend, text_in. cbn [flat_map own_text]. apply app_nil_r. Qed.
Lemma same_proper k k' : same blank k k' -> proper k -> proper k'.
Proof. intros S0. inversion S0; subst; auto. Qed.
Lemma weave_proper ks ks' : weave blank ks ks' -> Forall proper ks -> (forall k k', In k ks -> same blank k k' -> alike k k') ->
  Forall2 alike ks (children ks') /\ all_blanks (text_in ks').
Proof.
  induction 1 as [w W|w k k' ks ks' W E S0 V IH]; intros P A.
  - destruct (pend_alone w) as (-> & ->). split; [constructor|now apply blank_xml].
  - inversion P as [|? ? Pk P']; subst. destruct (IH P') as (F & B); [intros; apply A; [now right|assumption]|]. rewrite children_pend, text_pend.
    pose proof (same_proper k k' S0 Pk) as Pk'. unfold children, text_in in *. cbn [filter flat_map]. rewrite (proper_own k' Pk').
    destruct k' as [n a l|s]; [|contradiction]. cbn in Pk'. rewrite Pk'. cbn [negb app]. split; [constructor; [|exact F]; apply A; [now left|exact S0]|].
    apply blanks_app. split; [now apply blank_xml|exact B].
Qed.
Lemma text_kids_proper s : text_kids s <> [] -> exists c l, s = c :: l /\ text_kids s = [Opaque s].
Proof. destruct s as [|c l]; [intro H; now contradiction H|]. intros _. exists c, l. auto. Qed.
Lemma elem_conforms atts c n a ks ks' : (content_conforms c ks <-> content_conforms c ks') -> (conforms (EType atts c) (Elem n a ks) <-> conforms (EType atts c) (Elem n a ks')).
Proof. intro H. rewrite !conforms_iff. tauto. Qed.
Lemma tidy_alike t : tidy t -> forall t', same blank t t' -> alike t t'.
Proof.
  intro T0. refine (tidy_all (fun t => forall t', same blank t t' -> alike t t') _ _ _ t T0); clear t T0.
  - intros n a s t' S0. inversion S0 as [n' a' E|n' a' s' w1 w2 W1 W2 E|n' a' ks ks' N V E]; subst.
    + destruct s; [|discriminate]. exists n, a, [], []. split; [reflexivity|]. split; [reflexivity|]. intros T _. tauto.
    + destruct s as [|c l]; [discriminate|]. cbn [text_kids] in *. assert (s' = c :: l) as -> by congruence.
      exists n, a, [Opaque (c :: l)], [Opaque (w1 ++ (c :: l) ++ w2)]. split; [reflexivity|]. split; [reflexivity|].
      intros T HT. inversion HT as [? atts ct Hc Hd]; subst. apply elem_conforms.
      assert (E1 : forall x, text_in [Opaque x] = x) by (intro; unfold text_in; cbn [flat_map own_text]; apply app_nil_r).
      apply blank_xml in W1, W2. inversion Hc as [p L|ps Lp|]; subst.
      * rewrite !text_iff, !E1. rewrite (L w1 (c :: l) w2 W1 W2). cbn [children filter]. tauto.
      * rewrite !sequence_iff, !E1. cbn [children filter]. rewrite !blanks_app. tauto.
      * rewrite !empty_iff, !E1. split; intros (_ & K); [discriminate|]. destruct w1; discriminate.
    + exfalso. destruct s as [|c l]; [contradiction|]. cbn [text_kids] in *. inversion V; subst. discriminate.
  - intros a d t' S0. inversion S0 as [| |n' a' ks ks' N V]; subst. inversion V as [|w k k' ks0 ks1 W E Sk V']; subst. inversion V' as [v Wv|]; subst.
    assert (k' = new_cdata d) as -> by (inversion Sk as [| |? ? ? ? N']; subst; [reflexivity|contradiction]).
    exists DATA, a, [new_cdata d], (pend w ++ new_cdata d :: pend v). split; [reflexivity|]. split; [reflexivity|].
    intros T HT. inversion HT as [? atts ct Hc Hd]; subst. apply elem_conforms. destruct (cdata_text d) as (Et & Ec).
    assert (Ec' : children (pend w ++ new_cdata d :: pend v) = []) by (rewrite children_pend; change (children (pend v) = []); apply pend_alone).
    assert (Et' : text_in (pend w ++ new_cdata d :: pend v) = w ++ d ++ v).
    { rewrite text_pend. f_equal. change (new_cdata d :: pend v) with ([new_cdata d] ++ pend v). unfold text_in. rewrite flat_map_app. fold (text_in [new_cdata d]). fold (text_in (pend v)). rewrite Et. now rewrite (proj2 (pend_alone v)). }
    apply blank_xml in W, Wv. inversion Hc as [p L|ps Lp|]; subst.
    + rewrite !text_iff, Ec, Ec', Et, Et'. rewrite (L w d v W Wv). tauto.
    + rewrite !sequence_iff, Ec, Ec', Et, Et', !blanks_app. tauto.
    + exfalso. now apply Hd.
  - intros n a ks P _ IH t' S0. destruct ks as [|k0 ks0].
    { inversion S0 as [| |? ? ? ? N]; subst; [|contradiction]. exists n, a, [], []. split; [reflexivity|]. split; [reflexivity|]. intros; tauto. }
    inversion S0 as [|? ? s ? ? ? ? E|? ? ? ks' N V]; subst.
    { inversion P; subst. contradiction. }
    remember (k0 :: ks0) as ks eqn:Ek. clear Ek k0 ks0. rewrite Forall_forall in IH.
    destruct (weave_proper ks ks' V P (fun k k' Ik => IH k Ik k')) as (F & B). exists n, a, ks, ks'. split; [reflexivity|]. split; [reflexivity|].
    destruct (children_proper ks P) as (Ec & Et).
    assert (Ln : ks <> [] -> children ks' <> []) by (intros _ K; rewrite K in F; inversion F; subst; contradiction).
    intros T HT. inversion HT as [? atts ct Hc Hd]; subst. apply elem_conforms. inversion Hc as [p L|ps Lp|]; subst.
    + rewrite !text_iff, Ec. split; intros (K & _); [contradiction|]. now specialize (Ln N).
    + rewrite !sequence_iff, Ec, Et. split; intros (_ & K).
      * split; [exact B|]. eapply sequence_alike; eassumption.
      * split; [constructor|]. eapply sequence_alike; [exact Lp|apply forall2_sym; [exact alike_sym|exact F]|exact K].
    + rewrite !empty_iff, Ec. split; intros (K & _); [contradiction|]. now specialize (Ln N).
Qed.
