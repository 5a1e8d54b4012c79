(** The indented strings. *)
From Verif Require Import CBase CBaseProofs XmlModel SpecXml XmlProofs XmlRound TocModel TocXmlModel ControlModel WsModel WsProofs WriterModel SpecWriter WriterProofs WriterProofs3 WrittenProofs WrittenProofs2 SpecPretty PrettyProofs.
Import SpecXml.

Lemma pretty_ends sh depth n a ks : is_special n = false -> style_of sh [] n <> Text \/ ks <> [] -> exists y, pretty sh false depth [] (Elem n a ks) = y ++ [62].
Proof.
  intros Sp H. cbn [pretty]. rewrite special_prefix by assumption. cbv zeta. set (st := style_of sh [] n) in *. destruct ks as [|k ks].
  - destruct H as [H|H]; [|congruence].
    assert (Q : forall x o, exists y, x ++ o ++ s2z " />" ++ [] = y ++ [62]) by (intros x o; exists (x ++ o ++ s2z " /"); rewrite app_nil_r, <- !app_assoc; reflexivity).
    destruct st; try congruence; apply Q.
  - assert (Q : forall x o i z b, exists y, x ++ o ++ s2z ">" ++ i ++ z ++ b ++ s2z "</" ++ n ++ s2z ">" = y ++ [62])
      by (intros x o i z b; exists (x ++ o ++ s2z ">" ++ i ++ z ++ b ++ s2z "</" ++ n); rewrite <- !app_assoc; reflexivity).
    apply Q.
Qed.
Lemma laid_string P p saved n a ks cb ws sh s : saved = ([Elem n a ks], true) -> WriterProofs3.fits p [Elem n a ks] -> wf (Elem n a ks) -> is_special n = false ->
  (forall path t q, path <> [] -> cb path t q = Ok (ws path t q)) -> (is_whole p = true -> forall t q, q = BeforeOpen \/ q = AfterOpen -> cb [] (new_xml [t]) q = Ok []) ->
  (forall path x, path <> [] -> write_checked cb path x = Ok (write_node ws path x)) ->
  by_names P ws -> shaped P s (Elem n a ks) -> style_of sh [] n <> Text -> agrees ws sh false 0 [XML_DECL] [] s = true ->
  indented_as sh (is_whole p) (as_string p true saved cb) (fst saved).
Proof.
  intros -> Ft W Sp C R Wc B F St A. cbn [fst]. set (t := Elem n a ks) in *.
  assert (E : write_node ws [XML_DECL] t = pretty sh false 0 [] t) by (eapply laid_node; try eassumption; discriminate).
  destruct (pretty_ends sh 0 n a ks Sp (or_introl St)) as (y & Ey). fold t in Ey.
  exists t. unfold as_string. cbn [negb fst snd]. destruct (part_text_spec p cb [t] Ft) as (nl & Ep & Ln).
  assert (X : save_indented (is_whole p) ([t], true) cb nl = Ok (Some ((if is_whole p then declaration_line else []) ++ pretty sh false 0 [] t ++ (if nl then [10] else [])))).
  { unfold save_indented. cbn [fst snd]. destruct (is_whole p) eqn:Ew.
    - unfold new_xml at 1. cbn [write_checked]. fold (new_xml [t]). rewrite !(R eq_refl) by auto. cbn [obind]. unfold ocat_map. rewrite Wc by discriminate. cbn [obind].
      change (is_special XML_DECL) with true. cbv iota. cbn [obind]. rewrite E.
      change (write_tag_name XML_DECL) with XML_DECL. set (z := pretty _ _ _ _ _). cbn [flat_map app]. rewrite !app_nil_r.
      change declaration_line with (60 :: XML_DECL ++ [62]). do 2 f_equal.
    - rewrite Wc by discriminate. cbn [obind]. rewrite E. reflexivity. }
  rewrite Ep, X in *. eexists. split; [reflexivity|]. split; [reflexivity|]. specialize (Ln _ eq_refl). unfold laid_out.
  destruct nl; [reflexivity|exfalso]. destruct Ln as (z & Ln). rewrite app_nil_r, Ey, app_assoc in Ln. apply app_inj_tail in Ln as (_ & Ln). discriminate Ln.
Qed.
Definition root_ok (sh : sheet) (t : node) : Prop := exists n a ks, t = Elem n a ks /\ is_special n = false /\ style_of sh [] n <> Text.
Lemma laid_guarded p saved t ws sh s : saved = ([t], true) -> WriterProofs3.fits p [t] -> wf t -> root_ok sh t ->
  (forall t q, q = BeforeOpen \/ q = AfterOpen -> ws [] (new_xml [t]) q = []) -> by_names (fun _ => True) ws -> shaped (fun _ => True) s t ->
  agrees ws sh false 0 [XML_DECL] [] s = true -> indented_as sh (is_whole p) (as_string p true saved (guarded ws)) (fst saved).
Proof.
  intros E Ft W (n & a & ks & -> & Sp & St) R B F A. eapply (laid_string (fun _ => True)); try eassumption; try reflexivity.
  - intros _ x q Hq. unfold guarded. now rewrite R.
  - intros path x _. apply write_guarded.
Qed.
