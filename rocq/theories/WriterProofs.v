(** The writer: its column, and its walk over linked nodes. *)
From Verif Require Import CBase CBaseProofs XmlEntity XmlModel SpecXml TocXmlModel WsModel WsProofs NodeModel SpecNode NodeBuild NodeProofs NodeProofs2 NodeProofs3 NodeProofs4 NodeProofs5 WriterModel SpecWriter.

Lemma obind_assoc {A B C} (x : outcome A) (f : A -> outcome B) (g : B -> outcome C) : obind (obind x f) g = obind x (fun a => obind (f a) g).
Proof. destruct x; reflexivity. Qed.
Definition kids_col (cb : checked_cb) (path : list cstr) : list node -> put :=
  fix go l := match l with [] => pnil | k :: l' => write_col cb path k ;; go l' end.
Lemma write_col_elem cb path n attrs kids : write_col cb path (Elem n attrs kids) =
  (open_tag (cb path (Elem n attrs kids)) n attrs (match kids with [] => false | _ => true end) ;;
   match kids with [] => pnil | _ => kids_col cb (n :: path) kids ;; close_tag (cb path (Elem n attrs kids)) n end).
Proof. reflexivity. Qed.

(** * The text is that of [write_checked] *)
Definition writes (f : put) (w : outcome cstr) : Prop := forall col, obind (f col) (fun r => Ok (fst r)) = w.
Lemma writes_seq f g a b : writes f a -> writes g b -> writes (f ;; g) (obind a (fun x => obind b (fun y => Ok (x ++ y)))).
Proof.
  intros F G col. specialize (F col). unfold pseq. destruct (f col) as [(s, c)|]; cbn in F |- *; subst a; [|reflexivity].
  specialize (G c). destruct (g c) as [(s', c')|]; cbn in G |- *; subst b; reflexivity.
Qed.
Lemma writes_eq f a b : writes f a -> a = b -> writes f b. Proof. now intros ? <-. Qed.
Lemma writes_text s k : writes (ptext s k) (Ok s). Proof. intro. reflexivity. Qed.
Lemma writes_nil : writes pnil (Ok []). Proof. intro. reflexivity. Qed.
Lemma writes_attrs l : writes (pattrs l) (Ok (flat_map write_attr l)). Proof. intro. reflexivity. Qed.
Lemma writes_ws w : writes (pws w) w. Proof. intro. unfold pws. destruct w; reflexivity. Qed.
Ltac wr := first [apply writes_seq; wr | apply writes_text | apply writes_nil | apply writes_attrs | apply writes_ws | idtac].
Lemma col_writes cb : forall t path, writes (write_col cb path t) (write_checked cb path t).
Proof.
  induction t as [n attrs kids IH|s] using node_ind4; intro path; [|apply writes_text].
  rewrite write_col_elem.
  assert (K : writes (kids_col cb (n :: path) kids) (ocat_map (write_checked cb (n :: path)) kids)).
  { clear - IH. induction IH as [|k l Hk _ IHl]; cbn [kids_col ocat_map]; [apply writes_nil|]. apply writes_seq; auto. }
  cbn [write_checked]. unfold open_tag, close_tag. destruct kids as [|k kids].
  - destruct (is_special n); cbn [orb]; (eapply writes_eq; [wr|]); destruct (cb path (Elem n attrs []) BeforeOpen) as [w1|]; cbn [obind]; try reflexivity; destruct (cb path (Elem n attrs []) AfterOpen) as [w2|]; cbn [obind]; try reflexivity; f_equal; rewrite ?app_nil_r, <- ?app_assoc; cbn; rewrite <- ?app_assoc; reflexivity.
  - cbn [orb]. revert K. generalize (kids_col cb (n :: path) (k :: kids)) (ocat_map (write_checked cb (n :: path)) (k :: kids)). intros kc oc K.
    destruct (is_special n); (eapply writes_eq; [wr; apply K|]); set (q := Elem n attrs (k :: kids));
      destruct (cb path q BeforeOpen) as [w1|]; cbn [obind]; try reflexivity; destruct (cb path q AfterOpen) as [w2|]; cbn [obind]; try reflexivity;
      destruct oc as [b|]; cbn [obind]; try reflexivity.
    + f_equal. rewrite app_nil_r, <- ?app_assoc. cbn. rewrite <- ?app_assoc. reflexivity.
    + destruct (cb path q BeforeClose) as [w3|]; cbn [obind]; try reflexivity; destruct (cb path q AfterClose) as [w4|]; cbn [obind]; try reflexivity.
      f_equal. rewrite <- ?app_assoc. cbn. rewrite <- ?app_assoc. cbn. rewrite <- ?app_assoc. reflexivity.
Qed.

(** * The column is 0 only at the beginning of a line *)
Definition tracks (f : put) : Prop := forall col s c, f col = Ok (s, c) -> 0 <= col -> 0 <= c /\ (c = 0 -> (s = [] /\ col = 0) \/ ends_line s).
Lemma tracks_seq f g : tracks f -> tracks g -> tracks (f ;; g).
Proof.
  intros F G col s c E P. unfold pseq in E. destruct (f col) as [(s1, c1)|] eqn:E1; [|discriminate]. cbn [obind fst snd] in E.
  destruct (g c1) as [(s2, c2)|] eqn:E2; [|discriminate]. cbn [obind fst snd] in E. injection E as <- <-.
  destruct (F _ _ _ E1 P) as (P1 & Z1). destruct (G _ _ _ E2 P1) as (P2 & Z2). split; [exact P2|]. intro X.
  destruct (Z2 X) as [(-> & Y)|(s' & ->)].
  - rewrite app_nil_r. apply Z1, Y.
  - right. exists (s1 ++ s'). now rewrite app_assoc.
Qed.
Lemma tracks_text s k : (0 < k \/ (k = 0 /\ s = [])) -> tracks (ptext s k).
Proof. intros H col s' c E P. injection E as <- <-. split; [lia|]. intro X. left. destruct H as [H|(H & ->)]; [lia|]. split; [reflexivity|lia]. Qed.
Lemma tracks_nil : tracks pnil.
Proof. intros col s c E P. injection E as <- <-. auto. Qed.
Lemma zlen_pos s : 0 <= zlen s. Proof. unfold zlen. lia. Qed.
Lemma tracks_attrs l : tracks (pattrs l).
Proof.
  intros col s c E P. injection E as <- <-. assert (G : forall l col, 0 <= col -> col <= fold_left attr_col l col /\ (fold_left attr_col l col = 0 -> l = [] /\ col = 0)).
  { clear. induction l as [|a l IH]; intros col P; cbn [fold_left]; [split; [lia|auto]|].
    assert (B : col < attr_col col a) by (unfold attr_col; pose proof (zlen_pos (fst a)); destruct (snd a) as [v|]; [pose proof (zlen_pos v)|]; lia).
    destruct (IH (attr_col col a)) as (X & Y); [lia|]. split; [lia|]. intro Z0. lia. }
  destruct (G l col P) as (X & Y). split; [lia|]. intro Z0. left. destruct (Y Z0) as (-> & ->). auto.
Qed.
Lemma ws_col_pos col c : 0 <= col -> 0 <= ws_col col c /\ (ws_col col c = 0 -> c = 10).
Proof.
  intro P. unfold ws_col. destruct (c =? 10) eqn:E; [apply Z.eqb_eq in E; lia|]. destruct (c =? 9); [|lia].
  assert (8 <= col + 8 - (col + 8) mod 8); [|lia]. rewrite Z.mod_eq by lia. pose proof (Z.div_le_lower_bound (col + 8) 8 1). lia.
Qed.
Lemma tracks_ws w : tracks (pws w).
Proof.
  intros col s c E P. unfold pws in E. destruct w as [w|]; [|discriminate]. cbn [obind] in E. injection E as <- <-.
  assert (G : forall w, 0 <= ws_cols col w /\ (ws_cols col w = 0 -> (w = [] /\ col = 0) \/ ends_line w)).
  { clear w. intro w. induction w as [|x w IH] using rev_ind; [cbn; auto|]. unfold ws_cols. rewrite fold_left_app. cbn [fold_left].
    destruct (ws_col_pos (fold_left ws_col w col) x) as (A1 & A2); [apply IH|]. split; [exact A1|]. intro Z0. right. exists w. now rewrite (A2 Z0). }
  apply G.
Qed.
Ltac tr := first [apply tracks_seq; tr | apply tracks_nil | apply tracks_attrs | apply tracks_ws | apply tracks_text; left; unfold zlen; lia | idtac].
Lemma col_tracks cb : forall t path, tracks (write_col cb path t).
Proof.
  induction t as [n attrs kids IH|s] using node_ind4; intro path.
  - rewrite write_col_elem. unfold open_tag, close_tag. apply tracks_seq; [destruct (_ || _); tr|]. destruct kids as [|k kids]; [tr|].
    apply tracks_seq; [|destruct (is_special n); tr].
    clear - IH. induction IH as [|x l Hx _ IHl]; cbn [kids_col]; [apply tracks_nil|]. apply tracks_seq; auto.
  - cbn [write_col]. apply tracks_text. destruct s; [right; auto|left; unfold zlen; cbn [List.length]; lia].
Qed.
Lemma elem_nonempty cb path n a k s : write_checked cb path (Elem n a k) = Ok s -> s <> [].
Proof.
  cbn [write_checked]. destruct (cb path (Elem n a k) BeforeOpen) as [w1|]; [|discriminate]. cbn [obind]. destruct (cb path (Elem n a k) AfterOpen) as [w2|]; [|discriminate]. cbn [obind].
  assert (G : forall x : cstr, (w1 ++ 60 :: write_tag_name n ++ flat_map write_attr a) ++ x <> []) by (intros x E; apply app_eq_nil in E as (E & _); apply app_eq_nil in E as (_ & E); discriminate).
  destruct k as [|k ks]; [intros [= <-]; apply G|]. destruct (ocat_map (write_checked cb (n :: path)) (k :: ks)) as [b|]; [|discriminate]. cbn [obind].
  destruct (is_special n); [intros [= <-]; apply G|]. destruct (cb path _ BeforeClose); [|discriminate]. cbn [obind]. destruct (cb path _ AfterClose); [|discriminate]. cbn [obind]. intros [= <-]; apply G.
Qed.
(** The saved text of an element: what [write_checked] gives, with a line feed added when it does not
    end with one (or when the column is not 0 nevertheless). *)
Definition is_elem (t : node) : Prop := match t with Elem _ _ _ => True | Opaque _ => False end.
Lemma saved_text_spec cb path t : is_elem t -> exists nl : bool,
  saved_text cb path t = obind (write_checked cb path t) (fun s => Ok (s ++ (if nl then [10] else []))) /\
  (forall s, saved_text cb path t = Ok s -> ends_line s).
Proof.
  intro IE. unfold saved_text. pose proof (col_writes cb t path 0) as W. pose proof (col_tracks cb t path 0) as T.
  destruct (write_col cb path t 0) as [(s, c)|]; cbn [obind fst] in W |- *.
  - exists (c >? 0). rewrite <- W. cbn [obind]. split; [reflexivity|]. intros s' [= <-]. unfold finish_line. cbn [fst snd].
    destruct (T _ _ eq_refl ltac:(lia)) as (P & Z0). destruct (c >? 0) eqn:E.
    + exists s. reflexivity.
    + rewrite app_nil_r. destruct Z0 as [(-> & _)|H]; [lia| |exact H]. exfalso. destruct t as [n a k|]; [|destruct IE].
      symmetry in W. now apply elem_nonempty in W.
  - exists false. rewrite <- W. split; [reflexivity|discriminate].
Qed.

(** * The line feed does not depend on the column before the element *)
Definition steady (f : put) : Prop := forall c1 c2, 0 <= c1 -> 0 <= c2 ->
  match f c1, f c2 with
  | Ok (s1, d1), Ok (s2, d2) => s1 = s2 /\ 0 <= d1 /\ 0 <= d2 /\ (s1 = [] -> d1 = c1 /\ d2 = c2) /\ (s1 <> [] -> (d1 = 0 <-> d2 = 0))
  | UB, UB => True
  | _, _ => False
  end.
Lemma steady_seq f g : steady f -> steady g -> steady (f ;; g).
Proof.
  intros F G c1 c2 P1 P2. specialize (F c1 c2 P1 P2). unfold pseq. destruct (f c1) as [(s1, d1)|], (f c2) as [(s2, d2)|]; try contradiction; [|exact Logic.I].
  destruct F as (<- & Q1 & Q2 & E1 & E2). cbn [obind fst snd]. specialize (G d1 d2 Q1 Q2).
  destruct (g d1) as [(t1, e1)|], (g d2) as [(t2, e2)|]; try contradiction; [|exact Logic.I]. destruct G as (<- & R1 & R2 & H1 & H2). cbn [obind fst snd].
  split; [reflexivity|]. split; [exact R1|]. split; [exact R2|]. split.
  - intro X. apply app_eq_nil in X as (-> & ->). destruct (E1 eq_refl), (H1 eq_refl). split; congruence.
  - intro X. destruct t1 as [|z t1].
    + destruct (H1 eq_refl) as (-> & ->). apply E2. rewrite app_nil_r in X. exact X.
    + apply H2. discriminate.
Qed.
Lemma steady_text s k : (s <> [] /\ 0 < k \/ s = [] /\ k = 0) -> steady (ptext s k).
Proof. intros H c1 c2 P1 P2. unfold ptext. destruct H as [(H & Q)|(-> & ->)]; (split; [reflexivity|]); (split; [lia|]); (split; [lia|]); (split; [|]). - contradiction. - intros _. lia. - intros _. lia. - contradiction. Qed.
Lemma steady_nil : steady pnil.
Proof. intros c1 c2 P1 P2. unfold pnil. split; [reflexivity|]. split; [lia|]. split; [lia|]. split; [auto|contradiction]. Qed.
Lemma steady_ws w : steady (pws w).
Proof.
  intros c1 c2 P1 P2. unfold pws. destruct w as [w|]; [|exact Logic.I]. cbn [obind]. split; [reflexivity|].
  assert (G : forall w c, 0 <= c -> 0 <= ws_cols c w).
  { clear. intro w. induction w as [|x w IH] using rev_ind; intros c P; [exact P|]. unfold ws_cols. rewrite fold_left_app. cbn [fold_left]. apply ws_col_pos, IH, P. }
  split; [apply G, P1|]. split; [apply G, P2|]. split; [intros ->; auto|]. intro N. destruct w as [|x w] using rev_ind; [congruence|]. clear IHw.
  unfold ws_cols. rewrite !fold_left_app. cbn [fold_left]. fold (ws_cols c1 w). fold (ws_cols c2 w).
  destruct (ws_col_pos (ws_cols c1 w) x (G _ _ P1)) as (_ & A1). destruct (ws_col_pos (ws_cols c2 w) x (G _ _ P2)) as (_ & A2).
  assert (T : forall c, ws_col c 10 = 0) by reflexivity. split; intro X; [rewrite (A1 X)|rewrite (A2 X)]; apply T.
Qed.
Lemma steady_attrs l : steady (pattrs l).
Proof.
  intros c1 c2 P1 P2. unfold pattrs. split; [reflexivity|].
  assert (G : forall l c, 0 <= c -> 0 <= fold_left attr_col l c /\ (l <> [] -> 0 < fold_left attr_col l c)).
  { clear. intro l. induction l as [|a l IH] using rev_ind; intros c P; [cbn; split; [exact P|congruence]|]. rewrite fold_left_app. cbn [fold_left]. destruct (IH c P) as (Q & _).
    revert Q. generalize (fold_left attr_col l c). intros z0 Q. assert (0 < attr_col z0 a) by (unfold attr_col; pose proof (zlen_pos (fst a)); destruct (snd a) as [v|]; [pose proof (zlen_pos v)|]; lia). split; [lia|auto]. }
  split; [apply G, P1|]. split; [apply G, P2|]. split.
  - destruct l as [|a l]; [auto|]. cbn [flat_map]. intro X. exfalso. revert X. unfold write_attr. cbn. discriminate.
  - intro N. assert (L : l <> []) by (intros ->; apply N; reflexivity). pose proof (proj2 (G l c1 P1) L). pose proof (proj2 (G l c2 P2) L). lia.
Qed.
Lemma escape_empty s : escape s = [] -> s = [].
Proof. destruct s as [|c s]; [reflexivity|]. cbn. unfold escape_char. destruct (entity_name c); discriminate. Qed.
Ltac st := first [apply steady_seq; st | apply steady_nil | apply steady_attrs | apply steady_ws | apply steady_text; left; split; [discriminate|unfold zlen; lia] | idtac].
Lemma col_steady cb : forall t path, steady (write_col cb path t).
Proof.
  induction t as [n attrs kids IH|s] using node_ind4; intro path.
  - rewrite write_col_elem. unfold open_tag, close_tag. apply steady_seq; [destruct (_ || _); st|]. destruct kids as [|k kids]; [st|].
    apply steady_seq; [|destruct (is_special n); st].
    clear - IH. induction IH as [|x l Hx _ IHl]; cbn [kids_col]; [apply steady_nil|]. apply steady_seq; auto.
  - cbn [write_col]. apply steady_text. destruct s as [|c s]; [right; auto|]. left. split; [intro X; apply escape_empty in X; discriminate|unfold zlen; cbn [List.length]; lia].
Qed.
(** A document with one element: its text is the declaration, blanks of the callback, and the text of
    the element. *)
Lemma document_text cb n a k : let t := Elem n a k in let doc := new_xml [t] in
  saved_text cb [] doc = obind (cb [] doc BeforeOpen) (fun w1 => obind (cb [] doc AfterOpen) (fun w2 =>
    obind (saved_text cb [XML_DECL] t) (fun s => Ok ((w1 ++ 60 :: XML_DECL ++ 62 :: w2) ++ s)))).
Proof.
  intros t doc. unfold saved_text, doc, new_xml. rewrite write_col_elem. fold (new_xml [t]). cbn [kids_col].
  unfold open_tag, close_tag. change (is_special XML_DECL) with true. cbn [orb].
  set (q := new_xml [t]). unfold pseq at 1 2 3 4 5, pws, ptext, pattrs. destruct (cb [] q BeforeOpen) as [w1|]; [|reflexivity]. cbn [obind fst snd flat_map fold_left].
  destruct (cb [] q AfterOpen) as [w2|]; [|reflexivity]. cbn [obind fst snd].
  set (c0 := ws_cols (ws_cols 0 w1 + (zlen XML_DECL + 1) + 1) w2).
  assert (P : 0 <= c0).
  { assert (G : forall w c, 0 <= c -> 0 <= ws_cols c w).
    { clear. intro w. induction w as [|x w IH] using rev_ind; intros c P; [exact P|]. unfold ws_cols. rewrite fold_left_app. cbn [fold_left]. apply ws_col_pos, IH, P. }
    apply G. pose proof (G w1 0). pose proof (zlen_pos XML_DECL). lia. }
  pose proof (col_steady cb t [XML_DECL] c0 0 P ltac:(lia)) as St. pose proof (col_writes cb t [XML_DECL] 0) as W.
  unfold pseq, pnil. destruct (write_col cb [XML_DECL] t c0) as [(s1, d1)|], (write_col cb [XML_DECL] t 0) as [(s2, d2)|]; try contradiction; [|reflexivity].
  destruct St as (<- & P1 & P2 & _ & E). cbn [obind fst snd] in W |- *. assert (NE : s1 <> []) by (symmetry in W; apply elem_nonempty in W; exact W).
  specialize (E NE). unfold finish_line. cbn [fst snd]. replace (d1 >? 0) with (d2 >? 0) by (destruct (Z.gtb_spec d1 0), (Z.gtb_spec d2 0); auto; lia).
  f_equal. rewrite !app_nil_r. change (write_tag_name XML_DECL) with XML_DECL. repeat (rewrite <- app_assoc || cbn [app]). reflexivity.
Qed.
