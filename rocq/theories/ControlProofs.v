(** Control data: the saved trees load back. *)
From Verif Require Import CBase CBaseProofs XmlEntity XmlModel SpecXml EntityProofs Utf8Proofs TrimProofs XmlProofs XmlRound SimProofs
  TocModel SpecToc ValidProofs EqualProofs TocXmlModel TocXmlBase SpecTocXml TocXmlProofs TocXmlProofs2 TocXmlProofs3 TocXmlProofs4 TocXmlProofs5 TocXmlNorm
  TocXmlRound XmlRoots ControlModel SpecControl.

(** * Configuration tables *)
Lemma lookup_none {V} k (l : table V) : lookup k l = None <-> ~ In k (map fst l).
Proof.
  induction l as [|(k', v) l IH]; cbn; [tauto|]. destruct (str_eqb k' k) eqn:E.
  - apply str_eqb_eq in E. subst. split; [discriminate|]. intro H. exfalso. apply H. now left.
  - rewrite IH. split; [intros H [->|I]; [now rewrite str_eqb_refl in E|tauto]|tauto].
Qed.
Lemma put_fresh {V} k (v : V) l : lookup k l = None -> put k v l = l ++ [(k, v)].
Proof.
  induction l as [|(k', v') l IH]; cbn; [reflexivity|]. destruct (str_eqb k' k); [discriminate|]. intro H. now rewrite IH.
Qed.
Definition with_props (acc : table (table cstr)) (cls : cstr) (q : table cstr) : table (table cstr) :=
  match q with [] => acc | _ => acc ++ [(cls, q)] end.
Lemma lookup_app {V} k (a b : table V) : lookup k (a ++ b) = match lookup k a with Some v => Some v | None => lookup k b end.
Proof. induction a as [|(k', v) a IH]; cbn; [reflexivity|]. destruct (str_eqb k' k); [reflexivity|exact IH]. Qed.
Lemma put_last {V} k (v w : V) a : lookup k a = None -> put k v (a ++ [(k, w)]) = a ++ [(k, v)].
Proof.
  induction a as [|(k', v') a IH]; cbn; [now rewrite str_eqb_refl|]. destruct (str_eqb k' k); [discriminate|]. intro H. now rewrite IH.
Qed.
Lemma put_nonempty {V} k (v : V) l : exists x l', put k v l = x :: l'.
Proof. destruct l as [|(k', v') l]; cbn; [eauto|]. destruct (str_eqb k' k); eauto. Qed.
Lemma set_with acc cls q k v : lookup cls acc = None -> set_property (with_props acc cls q) cls k v = with_props acc cls (put k v q).
Proof.
  intro H. unfold set_property. destruct q as [|p q].
  - cbn [with_props]. rewrite H. cbn [put]. now rewrite put_fresh.
  - cbn [with_props]. rewrite lookup_app, H. cbn [lookup]. rewrite str_eqb_refl. rewrite put_last by exact H.
    destruct (put_nonempty k v (p :: q)) as (x & l' & ->). reflexivity.
Qed.
Definition kept (p : cstr * cstr) : bool := negb (str_eqb (fst p) VERSION) && negb (str_eqb (fst p) []) && negb (str_eqb (snd p) []).
Lemma nonempty_some s : nonempty (Some s) = if str_eqb s [] then None else Some s.
Proof. destruct s; reflexivity. Qed.
Lemma load_property_saved acc cls q k v : lookup cls acc = None -> str_eqb k VERSION = false ->
  load_property cls (with_props acc cls q) (Elem (s2z "property") [(s2z "key", Some k); (s2z "value", Some v)] []) =
  with_props acc cls (if kept (k, v) then put k v q else q).
Proof.
  intros H N. unfold load_property. change (named (s2z "property") _) with true. cbv iota.
  change (node_attr _ (s2z "key")) with (Some k). change (node_attr _ (s2z "value")) with (Some v).
  rewrite !nonempty_some. unfold kept. cbn [fst snd]. rewrite N. cbn [negb andb].
  destruct (str_eqb k []); [reflexivity|]. destruct (str_eqb v []); [reflexivity|]. cbn [negb andb]. now apply set_with.
Qed.
Lemma load_properties acc cls ps : lookup cls acc = None -> forall q, is_table ps ->
  (forall k, In k (map fst ps) -> str_eqb k VERSION = false -> lookup k q = None) ->
  fold_left (load_property cls) (flat_map save_property ps) (with_props acc cls q) = with_props acc cls (q ++ filter kept ps).
Proof.
  intro H. induction ps as [|(k, v) ps IH]; intros q T F; [now rewrite app_nil_r|].
  inversion T as [|? ? N T']; subst. cbn [flat_map]. unfold save_property at 1. cbn [fst snd].
  destruct (str_eqb k VERSION) eqn:E.
  - cbn [app filter]. unfold kept at 1. cbn [fst]. rewrite E. cbn [negb andb]. apply IH; [exact T'|].
    intros k' I. apply F. now right.
  - cbn [app fold_left filter]. rewrite load_property_saved by assumption. destruct (kept (k, v)) eqn:K.
    + rewrite put_fresh by (apply F; [now left|exact E]). rewrite IH; [now rewrite <- app_assoc|exact T'|].
      intros k' I V. rewrite lookup_app, (F k' (or_intror I) V). cbn [lookup]. destruct (str_eqb k k') eqn:Q; [|reflexivity].
      apply str_eqb_eq in Q. subst k'. contradiction.
    + apply IH; [exact T'|]. intros k' I. apply F. now right.
Qed.
Lemma load_class_saved acc cls ps : lookup cls acc = None -> is_table ps ->
  load_class acc (save_class [] (cls, ps)) = if str_eqb cls [] then acc else with_props acc cls (props_back ps).
Proof.
  intros H T. unfold save_class. cbn [fst snd get_key_by_value]. unfold load_class. change (named (s2z "class") _) with true. cbv iota.
  change (node_attr _ (s2z "key")) with (Some cls). rewrite nonempty_some. destruct (str_eqb cls []); [reflexivity|]. cbn [node_kids].
  set (E := match lookup VERSION ps with Some v => [(VERSION, Some v)] | None => [] end).
  assert (A : node_attr (Elem (s2z "class") ((s2z "key", Some cls) :: E) (flat_map save_property ps)) VERSION = lookup VERSION ps).
  { unfold E. destruct (lookup VERSION ps); reflexivity. }
  rewrite A. unfold props_back. fold kept.
  destruct (lookup VERSION ps) as [v|] eqn:L.
  - change acc with (with_props acc cls []) at 1. rewrite set_with by exact H. cbn [put].
    rewrite load_properties; auto. intros k _ N. cbn [lookup]. destruct (str_eqb VERSION k) eqn:Q; [|reflexivity].
    apply str_eqb_eq in Q. subst k. rewrite str_eqb_refl in N. discriminate.
  - change acc with (with_props acc cls []) at 1. rewrite load_properties; auto.
Qed.
Lemma load_classes gs : forall acc, is_table gs -> Forall (fun g => is_table (snd g)) gs ->
  (forall k, In k (map fst gs) -> lookup k acc = None) ->
  fold_left load_class (map (save_class []) gs) acc = acc ++ cf_groups (config_back (mkConfig gs [])).
Proof.
  induction gs as [|(cls, ps) gs IH]; intros acc T F N; [now rewrite app_nil_r|].
  inversion T as [|? ? N1 T']; subst. inversion F as [|? ? F1 F']; subst. cbn [map fold_left].
  rewrite load_class_saved; [|apply N; now left|exact F1]. unfold config_back. cbn [cf_groups filter fst].
  destruct (str_eqb cls []) eqn:E; cbn [negb].
  - apply IH; auto. intros k I. apply N. now right.
  - cbn [map filter fst snd]. destruct (props_back ps) as [|p q] eqn:P.
    + cbn [with_props]. apply IH; auto. intros k I. apply N. now right.
    + cbn [with_props]. rewrite IH; auto.
      * rewrite <- app_assoc. reflexivity.
      * intros k I. rewrite lookup_app, (N k (or_intror I)). cbn [lookup]. destruct (str_eqb cls k) eqn:Q; [|reflexivity].
        apply str_eqb_eq in Q. subst k. contradiction.
Qed.
(** The loader sees only the elements, their names and attributes. *)
Lemma fold_elems {S} (f : S -> node -> S) : (forall s x, is_elem x = false -> f s x = s) -> forall l s, fold_left f l s = fold_left f (elems l) s.
Proof.
  intro H. induction l as [|x l IH]; intro s; [reflexivity|]. cbn. destruct (is_elem x) eqn:E; cbn; [apply IH|]. rewrite (H s x E). apply IH.
Qed.
Lemma fold_sim {S} (f : S -> node -> S) : (forall s x y, sim x y -> f s x = f s y) -> forall l l', Forall2 sim l l' -> forall s, fold_left f l s = fold_left f l' s.
Proof. intros H l l' F. induction F as [|x y l l' Sx F IH]; intro s; [reflexivity|]. cbn. now rewrite (H s x y Sx), IH. Qed.
Lemma fold_sim_kids {S} (f : S -> node -> S) t t' s : (forall s x, is_elem x = false -> f s x = s) -> (forall s x y, sim x y -> f s x = f s y) ->
  sim t t' -> fold_left f (node_kids t) s = fold_left f (node_kids t') s.
Proof.
  intros H1 H2 S0. rewrite (fold_elems f H1 (node_kids t)), (fold_elems f H1 (node_kids t')). apply fold_sim; [exact H2|]. now apply sim_kids.
Qed.
Lemma load_property_sim cls c x y : sim x y -> load_property cls c x = load_property cls c y.
Proof. intro S. unfold load_property. now rewrite (sim_named _ _ _ S), !(sim_attrs _ _ _ S). Qed.
Lemma not_elem_named n x : plain n -> is_elem x = false -> named n x = false.
Proof. intros P E. destruct (named n x) eqn:N; [|reflexivity]. rewrite (named_is_elem n x P N) in E. discriminate. Qed.
Lemma load_property_opaque cls c x : is_elem x = false -> load_property cls c x = c.
Proof. intro E. unfold load_property. now rewrite not_elem_named by (reflexivity || assumption). Qed.
Lemma load_class_sim c x y : sim x y -> load_class c x = load_class c y.
Proof.
  intro S. unfold load_class. rewrite (sim_named _ _ _ S), !(sim_attrs _ _ _ S). destruct (named _ y); [|reflexivity].
  destruct (nonempty _); [|reflexivity]. apply fold_sim_kids; [apply load_property_opaque|apply load_property_sim|exact S].
Qed.
Lemma load_class_opaque c x : is_elem x = false -> load_class c x = c.
Proof. intro E. unfold load_class. now rewrite not_elem_named by (reflexivity || assumption). Qed.
(** * The format *)
Definition tree_format (f : bformat) : node := match bf_config f with None => Elem (s2z "NULL") [] [] | Some c => save_config c end.
Definition tree_boxer (f : bformat) : node := Elem (s2z "BoxerFormat") [] [tree_format f].
Definition NFMT := [s2z "work"; s2z "class"; s2z "property"].
Lemma within_props L ps : in_names L (s2z "property") = true -> forallb (within L) (flat_map save_property ps) = true.
Proof.
  intro H. induction ps as [|p ps IH]; [reflexivity|]. cbn [flat_map]. rewrite forallb_app, IH, andb_true_r. unfold save_property.
  destruct (str_eqb (fst p) VERSION); [reflexivity|]. cbn [forallb]. rewrite within_elem; auto.
Qed.
Lemma within_config c : within NFMT (save_config c) = true.
Proof.
  apply within_elem; [reflexivity|]. rewrite forallb_map. apply forallb_true. intro g. apply within_elem; [reflexivity|].
  destruct (get_key_by_value _ _); [reflexivity|]. now apply within_props.
Qed.
Lemma find_other n a t : str_eqb a n = false -> find_elem n (Elem a [] [t]) = if named n t then Some t else find_elem n t.
Proof. intros _. rewrite find_elem_in, find_in_cons. destruct (named n t); [reflexivity|]. destruct (find_elem n t); reflexivity. Qed.
Lemma load_format_sim f b : format_carried f -> (exists m a, sim (Elem m a [tree_format f]) b) -> load_format b = Some (format_back f).
Proof.
  intros C (m & a & S). unfold load_format. pose proof (sim_find (s2z "NULL") _ _ S) as F1. pose proof (sim_find (s2z "work") _ _ S) as F2.
  rewrite find_elem_in, find_in_cons in F1, F2. unfold tree_format in *. destruct f as [[c|]]; cbn [bf_config] in *.
  - rewrite (within_find NFMT (s2z "NULL") _ (within_config c)) in F1 by reflexivity. change (named (s2z "NULL") (save_config c)) with false in F1.
    change (named (s2z "work") (save_config c)) with true in F2. cbv iota in F1, F2. change (find_in (s2z "NULL") []) with (@None node) in F1.
    destruct (find_elem (s2z "NULL") b); [destruct F1|]. destruct (find_elem (s2z "work") b) as [w|]; [|destruct F2]. cbn [sim_opt] in F2.
    rewrite <- (fold_sim_kids load_class _ _ [] load_class_opaque load_class_sim F2). unfold save_config. cbn [node_kids].
    destruct (C c eq_refl) as ((T & Fo) & A). destruct c as [gs al]. cbn [cf_groups cf_aliases] in *. subst al.
    rewrite load_classes; [reflexivity|exact T| |reflexivity].
    eapply Forall_impl; [|exact Fo]. cbv beta. tauto.
  - change (named (s2z "NULL") (Elem (s2z "NULL") [] [])) with true in F1. cbv iota in F1. destruct (find_elem (s2z "NULL") b); [|destruct F1]. reflexivity.
Qed.
Lemma wf_config c : config_carried c -> cf_aliases c = [] -> wf (save_config c).
Proof.
  intros (T & F) A. unfold save_config. apply wf_build; [name| |].
  - apply attrs_cons; [name|apply ascii_text; cbv [s2z]; cbn; repeat (constructor; [lia|]); constructor|reflexivity|apply no_attrs].
  - rewrite A. apply Forall_forall. intros x I. apply in_map_iff in I as (g & <- & I). rewrite Forall_forall in F. destruct (F g I) as (Tk & Tt & Fp).
    unfold save_class. cbn [get_key_by_value]. apply wf_build; [name| |].
    + apply attrs_cons; [name|exact Tk| |].
      * destruct (lookup VERSION (snd g)); reflexivity.
      * destruct (lookup VERSION (snd g)) as [v|] eqn:L; [|apply no_attrs]. apply attrs_cons; [name| |reflexivity|apply no_attrs].
        clear -L Fp. induction (snd g) as [|(k, w) l IH]; [discriminate|]. inversion Fp as [|? ? Hp Fp']; subst. cbn [lookup] in L.
        destruct (str_eqb k VERSION); [injection L as ->; apply Hp|now apply IH].
    + apply Forall_forall. intros x J. apply in_flat_map in J as (p & Ip & J). unfold save_property in J.
      destruct (str_eqb (fst p) VERSION); [destruct J|]. destruct J as [<-|[]]. rewrite Forall_forall in Fp. destruct (Fp p Ip) as (T1 & T2).
      apply wf_leaf; [name|]. apply attrs_cons; [name|exact T1|reflexivity|]. apply attrs_cons; [name|exact T2|reflexivity|apply no_attrs].
Qed.
Lemma wf_format f : format_carried f -> wf (tree_format f).
Proof. intro C. unfold tree_format. destruct (bf_config f) as [c|] eqn:E; [destruct (C c E); now apply wf_config|]. apply wf_leaf; [name|apply no_attrs]. Qed.
