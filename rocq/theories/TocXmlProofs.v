(** Save and load of sections, layouts, pages and previews. *)
From Verif Require Import CBase CBaseProofs XmlEntity XmlModel SpecXml EntityProofs Utf8Proofs TrimProofs XmlProofs XmlRound SimProofs
  TocModel SpecToc ValidProofs TocXmlModel TocXmlBase SpecTocXml.

(** * Strings *)
Lemma drop_blank_split s : exists p, blank p /\ s = p ++ drop_blank s.
Proof.
  induction s as [|c l (p & B & E)]; [exists []; split; [constructor|reflexivity]|]. cbn.
  destruct ((c =? 10) || (c =? 13) || (c =? 32)) eqn:D.
  - exists (c :: p). split; [constructor; [lia|exact B]|]. cbn. now rewrite <- E.
  - exists []. split; [constructor|reflexivity].
Qed.
Lemma drop_blank_head s c l : drop_blank s = c :: l -> ~ (c = 10 \/ c = 13 \/ c = 32).
Proof.
  induction s as [|d s IH]; cbn; [discriminate|]. destruct ((d =? 10) || (d =? 13) || (d =? 32)) eqn:D; [exact IH|].
  intro E. inversion E; subst. lia.
Qed.
Lemma drop_blank_id s : (forall c l, s = c :: l -> ~ (c = 10 \/ c = 13 \/ c = 32)) -> drop_blank s = s.
Proof. destruct s as [|c l]; [reflexivity|]. intro H. cbn. specialize (H c l eq_refl). destruct ((c =? 10) || (c =? 13) || (c =? 32)) eqn:D; [lia|reflexivity]. Qed.
Lemma strip_bare s : bare (strip s).
Proof.
  unfold strip. destruct (drop_blank_split (rev (drop_blank s))) as (p & B & E).
  apply (f_equal (@rev Z)) in E. rewrite rev_involutive, rev_app_distr in E.
  set (u := rev (drop_blank (rev (drop_blank s)))) in *. split.
  - intros c l Eu. rewrite Eu in E. cbn in E. eapply drop_blank_head. exact E.
  - intros c l Eu. apply (f_equal (@rev Z)) in Eu. unfold u in Eu. rewrite rev_involutive, rev_app_distr in Eu. cbn in Eu.
    eapply drop_blank_head. exact Eu.
Qed.
Lemma strip_trim s : string_trim s = strip s.
Proof.
  destruct (string_trim_spec s) as (p & q & Bp & Bq & E & B).
  destruct (drop_blank_split s) as (p' & Bp' & E').
  destruct (drop_blank_split (rev (drop_blank s))) as (q' & Bq' & E2).
  apply (f_equal (@rev Z)) in E2. rewrite rev_involutive, rev_app_distr in E2. change (drop_blank s = strip s ++ rev q') in E2.
  apply (bare_unique _ p q p' (rev q')); auto.
  - unfold blank in *. apply Forall_rev. exact Bq'.
  - apply strip_bare.
  - rewrite <- E, <- E2. exact E'.
Qed.
Lemma read_back_text n a s : node_text (Elem n a (text_kids s)) = read_back (Some s).
Proof. destruct s as [|c l]; [reflexivity|]. cbn [text_kids node_text read_back]. now rewrite strip_trim. Qed.
Lemma strip_id s : bare s -> strip s = s.
Proof. rewrite <- strip_trim. apply trim_bare. Qed.
Lemma carried_text s : carried s -> opt_is_text s.
Proof. destruct s; cbn; auto. Qed.

(** * Searching with the parent's name *)
Definition elemp (p : cstr * node) : bool := is_elem (snd p).
Lemma elemp_kids n ks : filter elemp (flat_map (fun k => (n, k) :: descendants_p k) ks) =
  flat_map (fun k => (n, k) :: filter elemp (descendants_p k)) (elems ks).
Proof.
  induction ks as [|k ks IH]; [reflexivity|]. cbn [flat_map]. rewrite filter_app. cbn [filter]. unfold elemp at 1. cbn [snd].
  cbn [elems filter]. fold (elems ks). destruct k as [m [|x a] [|y l]|s]; try (cbn [is_elem flat_map]; now rewrite IH).
  - cbn [is_elem]. destruct (negb (note_name m)); [cbn [flat_map]; now rewrite IH|exact IH].
Qed.
Definition sim_p (p q : cstr * node) : Prop := fst p = fst q /\ sim (snd p) (snd q).
Lemma sim_descendants_p t t' : sim t t' -> Forall2 sim_p (filter elemp (descendants_p t)) (filter elemp (descendants_p t')).
Proof.
  revert t t'. apply sim_ind2. intros n a a' ks ks' _ F IH _. cbn [descendants_p]. rewrite !elemp_kids.
  revert F IH. generalize (elems ks) as l. generalize (elems ks') as l'. intros l' l F. induction F as [|x y m m' S F IHm]; intro G.
  - constructor.
  - inversion G; subst. cbn [flat_map app]. constructor; [now split|]. apply Forall2_app; [assumption|]. now apply IHm.
Qed.
Lemma find_elemp n {P : plain n} parent l : List.find (fun p : cstr * node => named n (snd p) && str_eqb (fst p) parent) l =
  List.find (fun p => named n (snd p) && str_eqb (fst p) parent) (filter elemp l).
Proof.
  induction l as [|(m, x) l IH]; [reflexivity|]. cbn [List.find filter]. unfold elemp. cbn [fst snd].
  pose proof (named_is_elem n x P) as H. destruct (is_elem x); cbn [List.find fst snd].
  - destruct (named n x && str_eqb m parent); [reflexivity|exact IH].
  - destruct (named n x); [discriminate (H eq_refl)|exact IH].
Qed.
Lemma sim_find_below parent n {P : plain n} t t' : sim t t' -> sim_opt (find_below parent n t) (find_below parent n t').
Proof.
  intro S. unfold find_below. rewrite (find_elemp n parent (descendants_p t)), (find_elemp n parent (descendants_p t')).
  pose proof (sim_descendants_p t t' S) as F. induction F as [|(a, x) (b, y) l l' (E & Sx) F IH]; cbn [List.find option_map]; [exact I|].
  cbn [fst snd] in *. subst b. rewrite <- (sim_named n x y Sx). destruct (named n x && str_eqb a parent); [exact Sx|exact IH].
Qed.
(** In the list of children of an element. *)
Definition below_in (parent n m : cstr) (ks : list node) : option node :=
  option_map snd (List.find (fun p : cstr * node => named n (snd p) && str_eqb (fst p) parent) (flat_map (fun k => (m, k) :: descendants_p k) ks)).
Lemma find_below_in parent n m a ks : find_below parent n (Elem m a ks) = below_in parent n m ks.
Proof. reflexivity. Qed.
Lemma below_app parent n m k1 k2 : below_in parent n m (k1 ++ k2) =
  match below_in parent n m k1 with Some x => Some x | None => below_in parent n m k2 end.
Proof. unfold below_in. rewrite flat_map_app, find_app_opt. destruct (List.find _ (flat_map _ k1)); reflexivity. Qed.
Lemma below_cons parent n m k ks : below_in parent n m (k :: ks) =
  if named n k && str_eqb m parent then Some k else match find_below parent n k with Some x => Some x | None => below_in parent n m ks end.
Proof.
  unfold below_in, find_below. cbn [flat_map app List.find fst snd]. destruct (named n k && str_eqb m parent); [reflexivity|].
  rewrite find_app_opt. destruct (List.find _ (descendants_p k)); reflexivity.
Qed.
(** No element of the subtree has the parent's name. *)
Lemma below_none parent n L : in_names L parent = false -> is_special parent = false ->
  forall t, within L t = true -> find_below parent n t = None.
Proof.
  intros A B t. induction t as [m a ks IH|s] using node_ind2; [|reflexivity]. cbn [within]. intro H. apply andb_prop in H as (H1 & H2).
  rewrite find_below_in. assert (E : str_eqb m parent = false).
  { destruct (str_eqb m parent) eqn:E; [|reflexivity]. apply str_eqb_eq in E. subst m. rewrite A, B in H1. discriminate. }
  induction ks as [|k ks IHk]; [reflexivity|]. cbn in H2. apply andb_prop in H2 as (Hk & H2). inversion IH; subst.
  rewrite below_cons, E, andb_false_r, H3 by assumption. auto.
Qed.
Lemma below_in_none parent n m L ks : in_names L parent = false -> is_special parent = false -> in_names L n = false -> is_special n = false ->
  forallb (within L) ks = true -> below_in parent n m ks = None.
Proof.
  intros A B C D H. induction ks as [|k ks IH]; [reflexivity|]. cbn in H. apply andb_prop in H as (Hk & H).
  rewrite below_cons, (within_named L n k Hk C D), (below_none parent n L A B k Hk). auto.
Qed.
Lemma below_text parent n m q s : str_eqb q n && str_eqb m parent = false -> below_in parent n m (text_node q s) = None.
Proof. intro E. destruct s as [s|]; [|reflexivity]. cbn [text_node]. rewrite below_cons. cbn [named]. rewrite E. destruct s; reflexivity. Qed.
Lemma below_int parent n m q z : str_eqb q n && str_eqb m parent = false -> below_in parent n m (int_node q z) = None.
Proof. intro E. unfold int_node. rewrite below_cons. cbn [named]. rewrite E. destruct (print_dec z); reflexivity. Qed.

(** Comparison of literal names. *)
Ltac lits := repeat match goal with
  | |- context [str_eqb (s2z ?a) (s2z ?b)] =>
      let v := eval vm_compute in (str_eqb (s2z a) (s2z b)) in change (str_eqb (s2z a) (s2z b)) with v
  end; cbv iota.
Ltac name := apply name_by; vm_compute; reflexivity.

(** * Sections *)
Definition tree_section (s : section) : node :=
  Elem (s2z "section") [uattr "id" (s_id s); uattr "x" (s_x s); uattr "y" (s_y s); uattr "w" (s_width s);
                        uattr "h" (s_height s); uattr "rotation" (s_rotation s)] [].
Lemma save_section_ok s : section_is_valid s = true -> save_section s = ([tree_section s], true).
Proof. intro H. unfold save_section. now rewrite H. Qed.
Lemma attrs_u n z a : name_ok (s2z n) -> is_u32 z -> existsb (fun p => str_eqb (s2z n) (fst p)) a = false -> attrs_ok a -> attrs_ok (uattr n z :: a).
Proof. intros N R E A. apply attrs_cons; auto. apply print_nonneg_text. destruct R. assumption. Qed.
Lemma wf_section s : section_range s -> wf (tree_section s).
Proof.
  intros (R1 & R2 & R3 & R4 & R5 & R6). apply wf_build; [name| |constructor].
  repeat (apply attrs_u; [name|assumption|reflexivity|]). apply no_attrs.
Qed.
Lemma uattr_get t z n : is_u32 z -> node_attr t n = Some (print_nonneg z) -> uint_attr t n = Some z.
Proof. intros R E. unfold uint_attr. rewrite E. cbn [option_map]. now rewrite atoi_print_unsigned. Qed.
Lemma load_section_sim s t : section_range s -> section_is_valid s = true -> sim (tree_section s) t -> load_section t = Some s.
Proof.
  intros (R1 & R2 & R3 & R4 & R5 & R6) V S. unfold load_section. rewrite (sim_self _ _ _ _ S).
  rewrite (uattr_get t (s_id s)), (uattr_get t (s_x s)), (uattr_get t (s_y s)), (uattr_get t (s_width s)), (uattr_get t (s_height s)),
    (uattr_get t (s_rotation s)); auto; try (rewrite <- (sim_attrs _ _ _ S); reflexivity).
  destruct s as [i x y w h r]. cbn [s_id s_x s_y s_width s_height s_rotation]. now rewrite V.
Qed.
Definition tree_sections (l : list section) : node := Elem (s2z "sections") [] (map tree_section l).
Lemma save_sections_ok l : sections_is_valid (Some (Some l)) = true -> save_sections (Some (Some l)) = ([tree_sections l], true).
Proof.
  intro H. unfold save_sections. rewrite H. cbn [negb vec_list]. rewrite (save_list_ok save_section tree_section); [reflexivity|].
  assert (C : sections_check l = true) by (destruct l; [discriminate|exact H]). clear H.
  induction l as [|s l IH]; constructor; cbn in C; destruct (section_is_valid s) eqn:V; try discriminate.
  - now apply save_section_ok.
  - cbn in C. destruct (existsb (section_is_overlap s) l); [discriminate|]. auto.
Qed.
Lemma wf_sections l : Forall section_range l -> wf (tree_sections l).
Proof. intro H. apply wf_build; [name|apply no_attrs|]. apply Forall_map. eapply Forall_impl; [|exact H]. apply wf_section. Qed.
Definition NSECT := [s2z "section"].
Lemma within_sections l : forallb (within NSECT) (map tree_section l) = true.
Proof. rewrite forallb_map. apply forallb_true. reflexivity. Qed.
Lemma sections_check_valid l : sections_check l = true -> Forall (fun s => section_is_valid s = true) l.
Proof.
  induction l as [|s l IH]; intro C; constructor; cbn in C; destruct (section_is_valid s) eqn:V; try discriminate; auto.
  cbn in C. destruct (existsb (section_is_overlap s) l); [discriminate|]. auto.
Qed.
(** Appending the sections of a valid list one by one. *)
Definition app_ok (v : sections) (l : list section) : Prop := sections_check (vec_list v ++ l) = true /\ NoDup (map s_id (vec_list v ++ l)).
Lemma check_prefix l s m : sections_check (l ++ s :: m) = true -> section_is_valid s = true /\ existsb (fun c => section_is_overlap c s) l = false.
Proof.
  induction l as [|x l IH]; cbn; intro C.
  - destruct (section_is_valid s); [auto|discriminate].
  - destruct (section_is_valid x); [|discriminate]. cbn in C. rewrite existsb_app in C. cbn in C.
    destruct (existsb (section_is_overlap x) l); [discriminate|]. cbn in C. destruct (section_is_overlap x s); [discriminate|]. cbn in C |- *. destruct (existsb (section_is_overlap x) m); [discriminate|]. now apply IH.
Qed.
Lemma app_ok_step v s l : app_ok v (s :: l) -> sections_append v s = (vec_append v s, true) /\ app_ok (vec_append v s) l.
Proof.
  intros (C & D). destruct (check_prefix _ _ _ C) as (V & O). split.
  - unfold sections_append. rewrite V. cbn [negb].
    assert (E : existsb (fun c => (s_id c =? s_id s) || section_is_overlap c s) (vec_list v) = false).
    { apply not_true_is_false. intro H. apply existsb_exists in H as (c & I & H). apply orb_prop in H as [H|H].
      - apply Z.eqb_eq in H. rewrite map_app in D. cbn in D. apply NoDup_remove_2 in D. apply D, in_or_app. left. rewrite <- H. now apply in_map.
      - assert (existsb (fun c => section_is_overlap c s) (vec_list v) = true) by (apply existsb_exists; eauto). congruence. }
    now rewrite E.
  - unfold app_ok, vec_append. cbn [vec_list]. rewrite <- app_assoc. now split.
Qed.
Lemma load_sections_self l t : sections_is_valid (Some (Some l)) = true -> sections_carried l -> sim (tree_sections l) t -> load_sections t = Some (Some l).
Proof.
  intros V (R & D) S. unfold load_sections. rewrite (sim_self _ _ _ _ S).
  assert (C : sections_check l = true) by (destruct l; [discriminate|exact V]).
  pose proof (sim_find_all (s2z "section") _ _ S) as F. unfold tree_sections in F. rewrite find_all_in in F.
  rewrite (all_in_same (s2z "section") tree_section []) in F by reflexivity.
  rewrite (load_list_ok load_section sections_append tree_section (fun s => section_range s /\ section_is_valid s = true) (fun s => s)
    (fun v s => vec_append v s) l) with (I := app_ok); auto.
  - rewrite (fold_vec_append (fun s => s)), map_id. destruct l; [discriminate V|reflexivity].
  - intros x u (Rx & Vx) Sx. now apply load_section_sim.
  - intros s x l'. apply app_ok_step.
  - pose proof (sections_check_valid l C) as Q. apply Forall_forall. intros x I. rewrite Forall_forall in Q, R. auto.
  - now split.
Qed.
Lemma load_sections_at t t' : at_or_below (s2z "sections") t = Some t' -> at_or_below (s2z "sections") t' = Some t' -> load_sections t = load_sections t'.
Proof. intros A B. unfold load_sections. now rewrite A, B. Qed.

(** * Layout definitions *)
Definition tree_layout (d : layout_def) : node :=
  Elem (s2z "previewLayout") [] (text_node (s2z "id") (ld_id d) ++ text_node (s2z "name") (ld_name d) ++ [tree_sections (def_sections d)]).
Lemma layout_sections d : layout_def_is_valid d = true -> ld_sections d = Some (Some (def_sections d)) /\ sections_is_valid (Some (Some (def_sections d))) = true.
Proof.
  unfold layout_def_is_valid. intro H. apply andb_prop in H as (_ & H). unfold def_sections. destruct (ld_sections d) as [[l|]|]; try discriminate. auto.
Qed.
Lemma save_layout_ok d : layout_def_is_valid d = true -> save_layout_def d = ([tree_layout d], true).
Proof.
  intro H. unfold save_layout_def. rewrite H. cbn [negb]. destruct (layout_sections d H) as (E & V). rewrite E, (save_sections_ok _ V). reflexivity.
Qed.
Lemma wf_layout d : layout_carried d -> wf (tree_layout d).
Proof.
  intros (C1 & C2 & R & _). apply wf_build; [name|apply no_attrs|]. rewrite !Forall_app. repeat split.
  - apply wf_text_node; [name|now apply carried_text].
  - apply wf_text_node; [name|now apply carried_text].
  - constructor; [now apply wf_sections|constructor].
Qed.
Definition NLAY := [s2z "id"; s2z "name"; s2z "sections"; s2z "section"].
Lemma within_layout_kids d : forallb (within NLAY) (node_kids (tree_layout d)) = true.
Proof.
  cbn [tree_layout node_kids]. rewrite !forallb_app, !within_text_node by reflexivity. cbn [forallb andb].
  rewrite andb_true_r. cbn [tree_sections within]. change (in_names NLAY (s2z "sections")) with true. cbn [orb andb].
  apply forallb_forall. intros x I. apply within_incl with (L := NSECT); [reflexivity|]. pose proof (within_sections (def_sections d)) as H.
  rewrite forallb_forall in H. auto.
Qed.
Lemma get_text_sim n {P_n : plain n} m ks s t : sim (Elem m [] ks) t -> find_in n ks = option_map (fun x => Elem n [] (text_kids x)) s -> get_text n t = read_back s.
Proof.
  intros S E. rewrite (sim_get_text n _ _ S).
  - unfold get_text. rewrite find_elem_in, E. destruct s as [s|]; [|reflexivity]. apply read_back_text.
  - rewrite find_elem_in, E. intros x. destruct s as [s|]; [|discriminate]. intro H. inversion H. apply text_node_only.
Qed.
Lemma find_text_same n s : is_special n = false -> find_in n (text_node n s) = option_map (fun x => Elem n [] (text_kids x)) s.
Proof. intro B. rewrite find_in_text, str_eqb_refl by assumption. destruct s; reflexivity. Qed.
Lemma load_layout_self d t : layout_def_is_valid d = true -> layout_carried d -> sim (tree_layout d) t -> load_layout_def t = Some (layout_back d).
Proof.
  intros V (C1 & C2 & C3) S. unfold load_layout_def. rewrite (sim_self _ _ _ _ S). destruct (layout_sections d V) as (E & Vs).
  assert (Q : load_sections t = Some (Some (def_sections d))).
  { pose proof (sim_find (s2z "sections") _ _ S) as F. unfold tree_layout in F. rewrite find_elem_in in F.
    rewrite !find_in_app, !find_in_text, find_in_cons in F by reflexivity.
    change (named (s2z "sections") (tree_sections (def_sections d))) with true in F.
    change (str_eqb (s2z "id") (s2z "sections")) with false in F. change (str_eqb (s2z "name") (s2z "sections")) with false in F. cbv iota in F.
    destruct (find_elem (s2z "sections") t) as [u|] eqn:Eu; [|destruct F]. cbn [sim_opt] in F.
    rewrite (load_sections_at t u).
    - now apply load_sections_self.
    - unfold at_or_below. rewrite <- (sim_named _ _ _ S). exact Eu.
    - apply (sim_self _ _ _ _ F). }
  rewrite Q. unfold layout_back. rewrite E. unfold tree_layout in S. f_equal. f_equal.
  - apply (get_text_sim _ _ _ _ _ S). rewrite !find_in_app, find_text_same by reflexivity. destruct (ld_id d); [reflexivity|].
    cbn [option_map]. rewrite find_in_text by reflexivity. lits. rewrite (within_find_in (s2z "sections" :: NSECT)); try reflexivity.
    cbn [forallb tree_sections within]. rewrite andb_true_r. change (in_names (s2z "sections" :: NSECT) (s2z "sections")) with true. cbn [orb andb].
    rewrite forallb_map. apply forallb_true. reflexivity.
  - apply (get_text_sim _ _ _ _ _ S). rewrite !find_in_app, find_in_text by reflexivity. lits. rewrite find_text_same by reflexivity.
    destruct (ld_name d); [reflexivity|]. cbn [option_map]. rewrite (within_find_in (s2z "sections" :: NSECT)); try reflexivity.
    cbn [forallb tree_sections within]. rewrite andb_true_r. change (in_names (s2z "sections" :: NSECT) (s2z "sections")) with true. cbn [orb andb].
    rewrite forallb_map. apply forallb_true. reflexivity.
Qed.
(** * Collections of layouts *)
Definition tree_layouts (l : list layout_def) : node := Elem (s2z "layoutDefinitions") [] (map tree_layout l).
Lemma save_layouts_ok v : layout_defs_is_valid (Some v) = true -> save_layout_defs (Some v) = ([tree_layouts (vec_list v)], true).
Proof.
  intro H. unfold save_layout_defs. rewrite H. cbn [negb]. rewrite (save_list_ok save_layout_def tree_layout); [reflexivity|].
  cbn in H. rewrite forallb_forall in H. apply Forall_forall. intros x I. apply save_layout_ok, H, I.
Qed.
Lemma wf_layouts l : Forall layout_carried l -> wf (tree_layouts l).
Proof. intro H. apply wf_build; [name|apply no_attrs|]. apply Forall_map. eapply Forall_impl; [|exact H]. apply wf_layout. Qed.
Lemma read_back_some s : nonempty s -> solid s -> nonempty (read_back s).
Proof.
  intros (c & l & ->) H. specialize (H _ eq_refl). cbn [read_back]. destruct (strip (c :: l)) as [|d m] eqn:E; [congruence|]. now exists d, m.
Qed.
Lemma nonempty_iff s : nonempty s <-> null_or_empty s = false.
Proof. split; [intros (c & l & ->); reflexivity|]. destruct s as [[|c l]|]; try discriminate. intros _. now exists c, l. Qed.
Lemma layout_back_valid d : layout_def_is_valid d = true -> solid (ld_id d) -> solid (ld_name d) -> layout_def_is_valid (layout_back d) = true.
Proof.
  unfold layout_def_is_valid, layout_back. cbn [ld_id ld_name ld_sections]. intros H S1 S2. apply andb_prop in H as (H & ->). apply andb_prop in H as (H1 & H2).
  apply negb_true_iff in H1, H2. apply nonempty_iff in H1, H2. apply (read_back_some _ H1), nonempty_iff in S1. apply (read_back_some _ H2), nonempty_iff in S2.
  now rewrite S1, S2.
Qed.
Definition defs_ok (v : layout_defs) (l : list layout_def) : Prop :=
  Forall (fun d => ld_id d <> None) (vec_list v) /\ NoDup (map ld_id (vec_list v ++ map layout_back l)) /\
  Forall (fun d => layout_def_is_valid (layout_back d) = true) l.
Lemma find_by_str_none {A} (key : A -> option cstr) k l : Forall (fun x => key x <> None) l -> ~ In (Some k) (map key l) -> find_by_str key k l = Ok None.
Proof.
  induction 1 as [|x l H F IH]; intro N; [reflexivity|]. cbn. destruct (key x) as [q|] eqn:E; [|congruence].
  destruct (str_eqb q k) eqn:Q; [apply str_eqb_eq in Q; subst q; exfalso; apply N; left; exact E|]. apply IH. intro I. apply N. now right.
Qed.
Lemma defs_ok_step v d l : defs_ok v (d :: l) -> defs_add v (layout_back d) = (vec_append v (layout_back d), true) /\ defs_ok (vec_append v (layout_back d)) l.
Proof.
  intros (K & N & V). inversion V as [|? ? Vd Vl]; subst.
  assert (NE : exists k, ld_id (layout_back d) = Some k /\ k <> []).
  { unfold layout_def_is_valid in Vd. destruct (ld_id (layout_back d)) as [[|c k]|]; try discriminate. eexists. split; [reflexivity|discriminate]. }
  destruct NE as (k & Ek & Nk). split.
  - unfold defs_add, layout_defs_add. rewrite Vd. cbn [negb]. unfold layout_defs_has, layout_defs_by_id. rewrite Ek.
    destruct k as [|c k]; [congruence|]. rewrite find_by_str_none; [reflexivity|exact K|]. intro I. cbn [map] in N. rewrite map_app in N. cbn [map] in N.
    apply NoDup_remove_2 in N. apply N, in_or_app. left. now rewrite Ek.
  - repeat split.
    + unfold vec_append. cbn [vec_list]. apply Forall_app. split; [exact K|]. constructor; [congruence|constructor].
    + unfold vec_append. cbn [vec_list]. rewrite <- app_assoc. exact N.
    + exact Vl.
Qed.
Lemma load_layouts_self l t : Forall (fun d => layout_def_is_valid d = true) l -> layouts_carried l -> sim (tree_layouts l) t ->
  load_layout_defs t = Some (back_list layout_back l).
Proof.
  intros V (C & Sd & N) S. unfold load_layout_defs. rewrite (sim_self _ _ _ _ S).
  pose proof (sim_find_all (s2z "previewLayout") _ _ S) as F. unfold tree_layouts in F. rewrite find_all_in in F.
  rewrite (all_in_same (s2z "previewLayout") tree_layout NLAY) in F; try reflexivity; try (intro; apply within_layout_kids).
  rewrite (load_list_ok load_layout_def defs_add tree_layout (fun d => layout_carried d /\ layout_def_is_valid d = true) layout_back
    (fun v d => vec_append v (layout_back d)) l) with (I := defs_ok); auto.
  - rewrite fold_vec_append. unfold back_list. destruct l; reflexivity.
  - intros x u (Rx & Vx) Sx. now apply load_layout_self.
  - intros s x l'. apply defs_ok_step.
  - apply Forall_forall. intros x I. rewrite Forall_forall in V, C. auto.
  - repeat split; [constructor| |].
    + cbn [vec_list app]. rewrite map_map. exact N.
    + apply Forall_forall. intros x I. rewrite Forall_forall in V, Sd. destruct (Sd x I). apply layout_back_valid; auto.
Qed.
