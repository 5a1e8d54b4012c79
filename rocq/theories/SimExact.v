(** The same view with comments counted: what the save functions write has none, and none appear. *)
From Verif Require Import CBase CBaseProofs XmlEntity XmlModel SpecXml TrimProofs XmlProofs XmlRound.

Lemma esim_ind2 (P : node -> node -> Prop) :
  (forall n a ks ks', Forall2 esim (elements ks) (elements ks') -> Forall2 P (elements ks) (elements ks') ->
     (elements ks = [] -> node_text (Elem n a ks) = node_text (Elem n a ks')) -> P (Elem n a ks) (Elem n a ks')) ->
  forall t t', esim t t' -> P t t'.
Proof.
  intro H. fix IH 3. intros t t' [n a ks ks' F T]. apply H; [exact F| |exact T].
  revert F. generalize (elements ks) as l. generalize (elements ks') as l'.
  fix IHl 3. intros l' l [|x y m m' S F]; constructor; [apply IH; exact S|apply IHl; exact F].
Qed.
Lemma esim_elem_r t t' : esim t t' -> is_element t = true /\ is_element t' = true.
Proof. intros []. auto. Qed.
Definition eelem_descendants (t : node) : list node := elements (descendants t).
Lemma eelems_kids ks : elements (flat_map (fun k => k :: descendants k) ks) = flat_map (fun k => k :: eelem_descendants k) (elements ks).
Proof.
  induction ks as [|k ks IH]; [reflexivity|]. cbn [flat_map]. unfold elements in *. rewrite !filter_app. cbn [filter].
  destruct k as [n a l|s]; cbn [is_element]; [|cbn [descendants filter]; exact IH]. cbn [flat_map]. rewrite IH. reflexivity.
Qed.
Lemma esim_descendants t t' : esim t t' -> Forall2 esim (eelem_descendants t) (eelem_descendants t').
Proof.
  revert t t'. apply esim_ind2. intros n a ks ks' F IH _. unfold eelem_descendants at 1 2. cbn [descendants]. rewrite !eelems_kids.
  revert F IH. generalize (elements ks) as l. generalize (elements ks') as l'. intros l' l F. induction F as [|x y m m' S F IHm]; intro G.
  - constructor.
  - inversion G; subst. cbn [flat_map app]. constructor; [exact S|]. apply Forall2_app; [assumption|]. now apply IHm.
Qed.
Lemma enamed_elems n l : filter (named n) l = filter (named n) (elements l).
Proof. induction l as [|x l IH]; [reflexivity|]. cbn. destruct x as [m a k|s]; cbn; [|exact IH]. destruct (str_eqb m n); now rewrite IH. Qed.
Lemma efind_elems n l : List.find (named n) l = List.find (named n) (elements l).
Proof. induction l as [|x l IH]; [reflexivity|]. cbn. destruct x as [m a k|s]; cbn; [|exact IH]. destruct (str_eqb m n); [reflexivity|exact IH]. Qed.
Lemma esim_named n x y : esim x y -> named n x = named n y.
Proof. now intros []. Qed.
Lemma eforall2_filter (f : node -> bool) l l' : (forall x y, esim x y -> f x = f y) -> Forall2 esim l l' -> Forall2 esim (filter f l) (filter f l').
Proof. intros H F. induction F as [|x y l l' S F IH]; cbn; [constructor|]. rewrite <- (H x y S). destruct (f x); [constructor|]; assumption. Qed.
Lemma esim_find_all n t t' : esim t t' -> Forall2 esim (find_all n t) (find_all n t').
Proof.
  intro S. unfold find_all. rewrite (enamed_elems n (descendants t)), (enamed_elems n (descendants t')).
  apply eforall2_filter; [apply esim_named|now apply esim_descendants].
Qed.
Definition esim_opt (a b : option node) : Prop :=
  match a, b with Some x, Some y => esim x y | None, None => True | _, _ => False end.
Lemma esim_find n t t' : esim t t' -> esim_opt (find_elem n t) (find_elem n t').
Proof.
  intro S. unfold find_elem. rewrite (efind_elems n (descendants t)), (efind_elems n (descendants t')).
  pose proof (esim_descendants t t' S) as F. unfold eelem_descendants in F. induction F as [|x y l l' Sx F IH]; cbn; [exact I|].
  rewrite <- (esim_named n x y Sx). destruct (named n x); [exact Sx|exact IH].
Qed.
Lemma esim_attrs t t' n : esim t t' -> node_attr t n = node_attr t' n.
Proof. now intros []. Qed.
Lemma esim_node_name t t' : esim t t' -> node_name t = node_name t'.
Proof. now intros []. Qed.
(** Text elements. *)
Definition eonly_text (t : node) : Prop := elements (node_kids t) = [].
Lemma esim_text t t' : esim t t' -> eonly_text t -> node_text t = node_text t'.
Proof. intros [n a ks ks' F T] O. cbn in O. now apply T. Qed.
Lemma esim_kids t t' : esim t t' -> Forall2 esim (elements (node_kids t)) (elements (node_kids t')).
Proof. now intros []. Qed.
Lemma etext_node_only n a s : eonly_text (Elem n a (text_kids s)).
Proof. destruct s; reflexivity. Qed.
Lemma same_esim t t' : same blank t t' -> esim t t'.
Proof.
  apply (same_mut blank esim (fun ks ks' => Forall2 esim ks (elements ks') /\ elements ks = ks)).
  - intros. constructor; [constructor|reflexivity].
  - intros n a s w1 w2 B1 B2. constructor; [constructor|]. intros _. cbn. now rewrite trim_blanks.
  - intros n a ks ks' N V (F & E). constructor; [now rewrite E|]. rewrite E. contradiction.
  - intros w B. split; [destruct w; constructor|reflexivity].
  - intros w k k' ks ks' B _ S Sk V (F & E). destruct (esim_elem_r _ _ Sk) as (K & K').
    split.
    + unfold elements. rewrite filter_app. cbn [filter]. rewrite K'.
      replace (filter is_element (pend w)) with (@nil node) by (destruct w; reflexivity). cbn. constructor; assumption.
    + cbn. rewrite K. f_equal. exact E.
Qed.
Theorem save_load_document_e ws nl t : indenting ws -> wf t ->
  exists t', load_string (save_text ws nl (new_xml [t])) = Ret (Some t') /\ esim (new_xml [t]) t'.
Proof.
  intros Hi Ht. destruct (load_document blank ws nl t closed_blank Hi Ht) as (t' & E & w & k & B & S & ->).
  exists (Elem XML_DECL [] (pend w ++ [k])). split; [exact E|]. apply same_esim.
  apply same_elems; [discriminate|]. apply (weave_cons blank w t k [] []); auto; [now apply wf_is_elem|]. apply (weave_nil blank []). constructor.
Qed.
Theorem save_load_bare_e ws nl t : indenting ws -> wf t ->
  exists t', load_string (save_text ws nl t) = Ret (Some t') /\ esim t t'.
Proof.
  intros Hi Ht. destruct (load_bare blank ws nl t closed_blank Hi Ht) as (t' & E & S). exists t'. split; [exact E|now apply same_esim].
Qed.
