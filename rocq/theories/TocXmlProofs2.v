(** Save and load of pages, previews, metadata sources and metadata. *)
From Verif Require Import CBase CBaseProofs XmlEntity XmlModel SpecXml EntityProofs Utf8Proofs TrimProofs XmlProofs XmlRound SimProofs
  TocModel SpecToc ValidProofs TocXmlModel TocXmlBase SpecTocXml TocXmlProofs.

(** * Pages *)
Definition tree_page (p : page) : node :=
  Elem (s2z "pages")
      (opt_attr "layoutId" (pg_layout_id p) ++
       [uattr "frame" (pg_start_frame p); uattr "section" (pg_start_section p); uattr "count" (pg_section_count p)] ++
       xy_attr "dimension" (pg_dimension_x p) (pg_dimension_y p) ++ xy_attr "overlap" (pg_overlap_x p) (pg_overlap_y p)) [].
Lemma save_page_ok p : save_page p = ([tree_page p], true).
Proof. reflexivity. Qed.
Lemma attrs_opt n s a : name_ok (s2z n) -> carried s -> existsb (fun p => str_eqb (s2z n) (fst p)) a = false -> attrs_ok a -> attrs_ok (opt_attr n s ++ a).
Proof. intros N C E A. destruct s as [s|]; [|exact A]. apply attrs_cons; auto. Qed.
Lemma xy_text x y : is_u32 x -> is_u32 y -> is_text (print_nonneg x ++ s2z "x" ++ print_nonneg y).
Proof.
  intros (X & _) (Y & _). apply is_text_app; [now apply print_nonneg_text|]. apply is_text_app; [|now apply print_nonneg_text].
  apply ascii_text. repeat constructor; discriminate.
Qed.
Lemma attrs_xy n x y a : name_ok (s2z n) -> is_u32 x -> is_u32 y -> existsb (fun p => str_eqb (s2z n) (fst p)) a = false -> attrs_ok a -> attrs_ok (xy_attr n x y ++ a).
Proof.
  intros N X Y E A. unfold xy_attr. destruct (negb (x =? 0) && negb (y =? 0)); [|exact A]. apply attrs_cons; auto. now apply xy_text.
Qed.
Lemma existsb_opt n m s a : str_eqb (s2z n) (s2z m) = false -> existsb (fun p => str_eqb (s2z n) (fst p)) a = false ->
  existsb (fun p => str_eqb (s2z n) (fst p)) (opt_attr m s ++ a) = false.
Proof. intros E H. destruct s; [|exact H]. cbn [opt_attr app existsb fst]. now rewrite E. Qed.
Lemma existsb_xy n m x y a : str_eqb (s2z n) (s2z m) = false -> existsb (fun p => str_eqb (s2z n) (fst p)) a = false ->
  existsb (fun p => str_eqb (s2z n) (fst p)) (xy_attr m x y ++ a) = false.
Proof. intros E H. unfold xy_attr. destruct (negb (x =? 0) && negb (y =? 0)); [|exact H]. cbn [app existsb fst]. now rewrite E. Qed.
Lemma existsb_u n m z a : str_eqb (s2z n) (s2z m) = false -> existsb (fun p => str_eqb (s2z n) (fst p)) a = false ->
  existsb (fun p => str_eqb (s2z n) (fst p)) (uattr m z :: a) = false.
Proof. intros E H. cbn [existsb uattr fst]. now rewrite E. Qed.
Ltac fresh_name := repeat first [apply existsb_opt; [reflexivity|] | apply existsb_xy; [reflexivity|] | apply existsb_u; [reflexivity|]]; reflexivity.
Lemma wf_page p : page_carried p -> wf (tree_page p).
Proof.
  intros (C & R1 & R2 & R3 & R4 & R5 & R6 & R7). apply wf_build; [name| |constructor].
  cbn [app].
  rewrite <- (app_nil_r (xy_attr "overlap" _ _)).
  apply attrs_opt; [name|exact C|fresh_name|].
  repeat (apply attrs_u; [name|assumption|fresh_name|]).
  apply attrs_xy; [name|assumption|assumption|fresh_name|].
  apply attrs_xy; [name|assumption|assumption|reflexivity|]. apply no_attrs.
Qed.
Lemma get_attr_app a b n : get_attr (a ++ b) n = if existsb (fun p => str_eqb (fst p) n) a then get_attr a n else get_attr b n.
Proof. induction a as [|(m, v) a IH]; [reflexivity|]. cbn [app get_attr existsb fst]. destruct (str_eqb m n); [reflexivity|exact IH]. Qed.
Lemma get_opt_attr n m s a : get_attr (opt_attr n s ++ a) m = if str_eqb (s2z n) m then match s with Some x => Some x | None => get_attr a m end else get_attr a m.
Proof. destruct s; cbn [opt_attr app get_attr]; destruct (str_eqb (s2z n) m); reflexivity. Qed.
Lemma get_u_attr n m z a : get_attr (uattr n z :: a) m = if str_eqb (s2z n) m then Some (print_nonneg z) else get_attr a m.
Proof. reflexivity. Qed.
Lemma get_d_attr n m z a : get_attr (dattr n z :: a) m = if str_eqb (s2z n) m then Some (print_dec z) else get_attr a m.
Proof. reflexivity. Qed.
Definition xy_value (x y : Z) : option cstr := if negb (x =? 0) && negb (y =? 0) then Some (print_nonneg x ++ s2z "x" ++ print_nonneg y) else None.
Lemma get_xy_attr n m x y a : get_attr (xy_attr n x y ++ a) m = if str_eqb (s2z n) m then match xy_value x y with Some v => Some v | None => get_attr a m end else get_attr a m.
Proof. unfold xy_attr, xy_value. destruct (negb (x =? 0) && negb (y =? 0)); cbn [app get_attr]; destruct (str_eqb (s2z n) m); reflexivity. Qed.
Ltac attr S := rewrite <- (sim_attrs _ _ _ S); cbn [node_attr app]; 
  repeat first [rewrite get_opt_attr | rewrite get_u_attr | rewrite get_d_attr | rewrite get_xy_attr]; lits.
(** The pair notation. *)
Lemma scan_print x r : is_u32 x -> no_digit_head r -> scan_uint (print_nonneg x ++ r) = Some (x, r).
Proof.
  intros R N. pose proof (print_nonneg_digits x (proj1 R)) as D. pose proof (print_nonneg_nonempty x) as E.
  destruct (head_digit _ E D) as (c & l & Ec & Hc). unfold scan_uint. rewrite Ec. cbn [app].
  assert (Sp : skip_space (c :: l ++ r) = c :: l ++ r).
  { cbn [skip_space]. unfold c_isspace. destruct (((9 <=? c) && (c <=? 13)) || (c =? 32)) eqn:Q; [lia|reflexivity]. }
  rewrite Sp. assert (Q : c_isdigit c = true) by (unfold c_isdigit; lia).
  assert (G : (if c_isdigit c then let (v, r0) := read_digits (c :: l ++ r) 0 in Some (u32 (clamp_u64 v), r0) else None) = Some (x, r)).
  { rewrite Q. change (c :: l ++ r) with ((c :: l) ++ r). rewrite <- Ec, read_print_nonneg0; [|apply R|exact N].
    f_equal. f_equal. unfold is_u32 in R. unfold clamp_u64. rewrite Z.min_r by lia. now apply u32_small. }
  assert (H45 : c <> 45) by lia. assert (H43 : c <> 43) by lia.
  revert G. clear - H45 H43. intro G.
  destruct c as [|p|p]; try exact G.
  do 7 (try (destruct p as [p|p|]; try exact G; try congruence)).
Qed.
Lemma extract_value x y : is_u32 x -> is_u32 y -> extract_xy (xy_value x y) = Some (pair_back x y).
Proof.
  intros X Y. unfold xy_value, pair_back. destruct (x =? 0) eqn:Ex; [reflexivity|]. destruct (y =? 0) eqn:Ey; [reflexivity|]. cbn [negb andb orb].
  unfold extract_xy. destruct (print_nonneg x ++ s2z "x" ++ print_nonneg y) eqn:Q.
  - apply app_eq_nil in Q as (_ & Q). discriminate.
  - rewrite <- Q, scan_print by (auto; reflexivity || exact I). cbn [s2z list_ascii_of_string map app].
    rewrite <- (app_nil_r (print_nonneg y)). change (Z.of_N (N_of_ascii "x")) with 120. cbv iota. rewrite scan_print by (auto; exact I). reflexivity.
Qed.
Lemma get_u t n z : is_u32 z -> node_attr t n = Some (print_nonneg z) -> get_uattr n t = z.
Proof. intros R E. unfold get_uattr. now rewrite (uattr_get t z n R E). Qed.
Lemma some_or_none {A} (x : option A) : match x with Some v => Some v | None => None end = x.
Proof. destruct x; reflexivity. Qed.
Lemma load_page_self p t : page_carried p -> sim (tree_page p) t -> load_page t = Some (page_back p).
Proof.
  intros (C & R1 & R2 & R3 & R4 & R5 & R6 & R7) S. unfold load_page. rewrite (sim_self _ _ _ _ S).
  unfold tree_page in S. rewrite <- (app_nil_r (xy_attr "overlap" _ _)) in S.
  assert (E1 : node_attr t (s2z "dimension") = xy_value (pg_dimension_x p) (pg_dimension_y p)).
  { attr S. cbn [get_attr]. apply some_or_none. }
  assert (E2 : node_attr t (s2z "overlap") = xy_value (pg_overlap_x p) (pg_overlap_y p)).
  { attr S. cbn [get_attr]. apply some_or_none. }
  rewrite E1, E2, !extract_value by assumption.
  rewrite (get_u t (s2z "frame") (pg_start_frame p)), (get_u t (s2z "section") (pg_start_section p)), (get_u t (s2z "count") (pg_section_count p));
    auto; try (attr S; reflexivity).
  assert (E3 : node_attr t (s2z "layoutId") = pg_layout_id p). { attr S. cbn [get_attr]. apply some_or_none. }
  rewrite E3. unfold page_back. destruct (pair_back (pg_dimension_x p) (pg_dimension_y p)), (pair_back (pg_overlap_x p) (pg_overlap_y p)). reflexivity.
Qed.
Lemma page_back_valid p : page_carried p -> page_is_valid p = true -> page_is_valid (page_back p) = true.
Proof.
  intros (C & R1 & R2 & R3 & R4 & R5 & R6 & R7) V. apply page_valid_iff in V. apply page_valid_iff. destruct V as (V1 & V2 & V3 & V4).
  unfold is_u32 in *. unfold page_ok, page_back, pair_back. cbn [pg_layout_id pg_section_count pg_overlap_x pg_overlap_y pg_dimension_x pg_dimension_y].
  destruct (pg_dimension_x p =? 0) eqn:A, (pg_dimension_y p =? 0) eqn:B, (pg_overlap_x p =? 0) eqn:D, (pg_overlap_y p =? 0) eqn:E;
    cbn [orb fst snd]; repeat split; auto; lia.
Qed.
(** * Previews *)
Definition tree_preview (p : preview) : node :=
  Elem (s2z "preview") [] ((if 0 <=? pv_dpi p then int_node (s2z "dpi") (pv_dpi p) else []) ++ map tree_page (pages_of p)).
Lemma save_preview_ok p : preview_is_valid (Some p) = true -> save_preview (Some p) = ([tree_preview p], true).
Proof.
  intro V. unfold save_preview. rewrite V. cbn [negb]. rewrite (save_list_ok save_page tree_page); [reflexivity|].
  apply Forall_forall. intros x _. reflexivity.
Qed.
Lemma wf_preview p : preview_carried p -> wf (tree_preview p).
Proof.
  intros (C & _). apply wf_build; [name|apply no_attrs|]. apply Forall_app. split.
  - destruct (0 <=? pv_dpi p); [apply wf_int_node; name|constructor].
  - apply Forall_map. eapply Forall_impl; [|exact C]. apply wf_page.
Qed.
Definition NPREV := [s2z "dpi"; s2z "pages"].
Lemma within_preview_kids p : forallb (within NPREV) (node_kids (tree_preview p)) = true.
Proof.
  cbn [tree_preview node_kids]. rewrite forallb_app. apply andb_true_intro. split.
  - destruct (0 <=? pv_dpi p); [now apply within_int_node|reflexivity].
  - rewrite forallb_map. apply forallb_true. reflexivity.
Qed.
Lemma within_preview p : within (s2z "preview" :: NPREV) (tree_preview p) = true.
Proof.
  unfold tree_preview. cbn [within]. change (in_names (s2z "preview" :: NPREV) (s2z "preview")) with true. cbn [orb andb].
  apply forallb_forall. intros x I. apply within_incl with (L := NPREV); [reflexivity|]. pose proof (within_preview_kids p) as H.
  rewrite forallb_forall in H. auto.
Qed.
Lemma named_elems_kids n {P : plain n} t t' : sim t t' -> Forall2 sim (filter (named n) (node_kids t)) (filter (named n) (node_kids t')).
Proof.
  intro S. rewrite (named_elems n (node_kids t)), (named_elems n (node_kids t')). apply forall2_filter; [apply sim_named|now apply sim_kids].
Qed.
Lemma int_elem_sim n {P_n : plain n} m a ks z t : is_i32 z -> sim (Elem m a ks) t -> find_in n ks = Some (Elem n [] (text_kids (print_dec z))) -> int_elem t n = Some z.
Proof.
  intros R S E. rewrite (sim_int_elem n _ _ S).
  - unfold int_elem. rewrite find_elem_in, E, int_node_text. cbn [option_map]. now rewrite atoi_print_dec.
  - rewrite find_elem_in, E. intros x H. inversion H. apply text_node_only.
Qed.
Lemma int_elem_none n {P_n : plain n} m a ks t : sim (Elem m a ks) t -> find_in n ks = None -> int_elem t n = None.
Proof.
  intros S E. rewrite (sim_int_elem n _ _ S).
  - unfold int_elem. now rewrite find_elem_in, E.
  - rewrite find_elem_in, E. discriminate.
Qed.
Lemma find_int_same n z : is_special n = false -> find_in n (int_node n z) = Some (Elem n [] (text_kids (print_dec z))).
Proof. intro B. rewrite find_in_int, str_eqb_refl by assumption. reflexivity. Qed.
Lemma preview_pages p : preview_is_valid (Some p) = true -> pv_pages p = Some (pages_of p) /\ pages_of p <> [] /\ Forall (fun g => page_is_valid g = true) (pages_of p).
Proof.
  unfold preview_is_valid, pages_of. destruct (pv_pages p) as [[|g l]|]; try discriminate. intro H. repeat split; [discriminate|].
  rewrite forallb_forall in H. now apply Forall_forall.
Qed.
Lemma load_preview_self p t : preview_is_valid (Some p) = true -> preview_carried p -> sim (tree_preview p) t -> load_preview t = Some (preview_back p).
Proof.
  intros V (C & R) S. unfold load_preview. rewrite (sim_self _ _ _ _ S). destruct (preview_pages p V) as (E & NE & VP).
  assert (D : get_int (-1) (s2z "dpi") t = if pv_dpi p <? 0 then -1 else pv_dpi p).
  { unfold get_int, tree_preview in *. destruct (0 <=? pv_dpi p) eqn:Q.
    - rewrite (int_elem_sim (s2z "dpi") _ _ _ (pv_dpi p) t R S).
      + destruct (pv_dpi p <? 0) eqn:Q2; [lia|reflexivity].
      + now rewrite find_in_app, find_int_same.
    - rewrite (int_elem_none (s2z "dpi") _ _ _ t S).
      + destruct (pv_dpi p <? 0) eqn:Q2; [reflexivity|lia].
      + cbn [app]. apply (within_find_in [s2z "pages"]); try reflexivity. rewrite forallb_map. apply forallb_true. reflexivity. }
  rewrite D. pose proof (named_elems_kids (s2z "pages") _ _ S) as F. unfold tree_preview in F at 1. cbn [node_kids] in F. rewrite filter_app in F.
  assert (Q : filter (named (s2z "pages")) (if 0 <=? pv_dpi p then int_node (s2z "dpi") (pv_dpi p) else []) = []) by (destruct (0 <=? pv_dpi p); reflexivity).
  rewrite Q in F. cbn [app] in F.
  assert (Q2 : filter (named (s2z "pages")) (map tree_page (pages_of p)) = map tree_page (pages_of p)).
  { clear. induction (pages_of p) as [|g l IH]; [reflexivity|]. cbn [map filter]. change (named (s2z "pages") (tree_page g)) with true. cbv iota. now rewrite IH. }
  rewrite Q2 in F.
  set (d := if pv_dpi p <? 0 then -1 else pv_dpi p). unfold preview_back. fold d.
  rewrite (load_list_ok load_page preview_add_page tree_page (fun g => page_carried g /\ page_is_valid g = true) page_back
    (fun v g => mkPreview (vec_append (pv_pages v) (page_back g)) (pv_dpi v)) (pages_of p)) with (I := fun _ l => Forall (fun g => page_carried g /\ page_is_valid g = true) l); auto.
  - f_equal. unfold back_list. destruct (pages_of p) as [|g l]; [congruence|]. clear.
    assert (G : forall l v, fold_left (fun v g => mkPreview (vec_append (pv_pages v) (page_back g)) (pv_dpi v)) l v =
      mkPreview (fold_left (fun v g => vec_append v (page_back g)) l (pv_pages v)) (pv_dpi v)).
    { intro l0. induction l0 as [|x l0 IH]; intros [? ?]; [reflexivity|]. cbn [fold_left]. rewrite IH. reflexivity. }
    rewrite G, fold_vec_append. reflexivity.
  - intros x u (Cx & _) Sx. now apply load_page_self.
  - intros s x l' H. inversion H as [|? ? (Cx & Vx) Hl]; subst. split; [|exact Hl]. unfold preview_add_page. now rewrite page_back_valid.
  - apply Forall_forall. intros x I. rewrite Forall_forall in VP, C. auto.
  - apply Forall_forall. intros x I. rewrite Forall_forall in VP, C. auto.
Qed.

(** * File metadata sources *)
Definition tree_fsource (s : fsource) : node :=
  Elem (s2z "source") [dattr "fileId" (fs_file_id s); dattr "sourceId" (fs_source_id s)]
          (match fs_data s with
           | Some d => [Elem (s2z "data") (opt_attr "formatId" (fs_format_id s)) [new_cdata d]]
           | None => []
           end).
Lemma save_fsource_ok s : fsource_is_valid s = true -> save_fsource s = ([tree_fsource s], true).
Proof. intro V. unfold save_fsource. now rewrite V. Qed.
Lemma attrs_d n z a : name_ok (s2z n) -> existsb (fun p => str_eqb (s2z n) (fst p)) a = false -> attrs_ok a -> attrs_ok (dattr n z :: a).
Proof. intros N E A. apply attrs_cons; auto using print_dec_text. Qed.
Lemma wf_fsource s : fsource_carried s -> wf (tree_fsource s).
Proof.
  intros (P & C & _ & _). apply wf_build; [name| |].
  - repeat (apply attrs_d; [name|reflexivity|]). apply no_attrs.
  - destruct (fs_data s) as [d|]; [|constructor]. constructor; [|constructor]. apply wf_build; [name| |].
    + rewrite <- (app_nil_r (opt_attr _ _)). apply attrs_opt; [name|exact C|reflexivity|apply no_attrs].
    + constructor; [|constructor]. apply wf_cdata. now apply P.
Qed.
Lemma iattr_get t z n : is_i32 z -> node_attr t n = Some (print_dec z) -> int_attr t n = Some z.
Proof. intros R E. unfold int_attr. rewrite E. cbn [option_map]. now rewrite atoi_print_dec. Qed.
Lemma strip_cdata_app p : strip_cdata (p ++ s2z "]]") = p.
Proof. unfold strip_cdata. rewrite rev_app_distr. cbn. apply rev_involutive. Qed.
Lemma get_cdata_new p : get_cdata (new_cdata p) = Some (p ++ s2z "]]").
Proof. reflexivity. Qed.
Lemma prefix_cdata n : has_prefix CDATA n = true -> note_name n = false.
Proof.
  intro H. assert (E : firstn 8 n = CDATA).
  { unfold CDATA in *. cbn [s2z list_ascii_of_string map has_prefix] in *. do 8 (destruct n as [|? n]; [discriminate H|]; apply andb_prop in H as (E & H); apply Z.eqb_eq in E; rewrite <- E; clear E). reflexivity. }
  unfold note_name. destruct n as [|c n]; [reflexivity|]. rewrite E. change (str_eqb CDATA (s2z "![CDATA[")) with true. cbn [negb]. rewrite andb_false_r, orb_false_r.
  unfold CDATA in H. cbn [s2z list_ascii_of_string map has_prefix] in H. apply andb_prop in H as (H & _). apply Z.eqb_eq in H. rewrite <- H. reflexivity.
Qed.
Lemma not_elem_cdata k : is_elem k = false -> get_cdata k = None.
Proof.
  destruct k as [n [|] [|]|]; try discriminate; [|reflexivity]. cbn [is_elem get_cdata]. intro H. destruct (has_prefix CDATA n) eqn:P; [|reflexivity].
  rewrite (prefix_cdata n P) in H. discriminate.
Qed.
Lemma first_cdata_sim p ks : Forall2 sim [new_cdata p] (elems ks) -> first_cdata ks = Some p.
Proof.
  induction ks as [|k ks IH]; cbn [elems filter]; intro F; [inversion F|]. fold (elems ks) in F. destruct (is_elem k) eqn:K.
  - inversion F as [|? ? ? ? S F']; subst. inversion S; subst.
    cbn [first_cdata]. match goal with |- context [get_cdata ?x] => change (get_cdata x) with (get_cdata (new_cdata p)) end. rewrite get_cdata_new. now rewrite strip_cdata_app.
  - cbn [first_cdata]. rewrite (not_elem_cdata k K). apply IH. exact F.
Qed.
Lemma data_text_sim a p t : sim (Elem (s2z "data") a [new_cdata p]) t -> data_text t = Some p.
Proof. intro S. unfold data_text. pose proof (sim_kids _ _ S) as F. cbn [node_kids elems filter is_elem new_cdata] in F. now rewrite (first_cdata_sim p). Qed.
Lemma fsource_back_valid s : fsource_is_valid s = true -> fsource_is_valid (fsource_back s) = true.
Proof. exact (fun H => H). Qed.
Lemma load_fsource_self s t : fsource_is_valid s = true -> fsource_carried s -> sim (tree_fsource s) t -> load_fsource t = Some (fsource_back s).
Proof.
  intros V (P & C & R1 & R2) S. unfold load_fsource. rewrite (sim_self _ _ _ _ S). unfold tree_fsource in S.
  rewrite (iattr_get t (fs_file_id s)), (iattr_get t (fs_source_id s)); auto; try (attr S; reflexivity).
  pose proof (sim_find (s2z "data") _ _ S) as F. rewrite find_elem_in in F. unfold fsource_back.
  destruct (fs_data s) as [d|] eqn:E.
  - rewrite find_in_cons in F. cbn [named] in F. change (str_eqb (s2z "data") (s2z "data")) with true in F. cbv iota in F.
    destruct (find_elem (s2z "data") t) as [u|]; [|destruct F]. cbn [sim_opt] in F. rewrite (data_text_sim _ _ _ F).
    assert (Q : node_attr u (s2z "formatId") = fs_format_id s).
    { rewrite <- (sim_attrs _ _ _ F). cbn [node_attr]. rewrite <- (app_nil_r (opt_attr _ _)), get_opt_attr. lits. destruct (fs_format_id s); reflexivity. }
    rewrite Q. assert (V' : fsource_is_valid (mkFsource (Some d) (fs_format_id s) (fs_file_id s) (fs_source_id s)) = true).
    { unfold fsource_is_valid in *. cbn [fs_data fs_file_id]. now rewrite E in V. }
    now rewrite V'.
  - rewrite find_in_nil in F. destruct (find_elem (s2z "data") t) as [u|]; [destruct F|].
    assert (V' : fsource_is_valid (mkFsource None None (fs_file_id s) (fs_source_id s)) = true).
    { unfold fsource_is_valid in *. cbn [fs_data fs_file_id]. now rewrite E in V. }
    now rewrite V'.
Qed.
(** * File metadata *)
Definition tree_fmetadata (l : list fsource) : node := Elem (s2z "metadata") [] (map tree_fsource l).
Lemma save_fmetadata_ok m : fmetadata_is_valid (Some m) = true -> short (fmetadata_list m) -> save_fmetadata (Some m) = ([tree_fmetadata (fmetadata_list m)], true).
Proof.
  intros V Sh. unfold save_fmetadata. rewrite V. cbn [negb]. cbn [fmetadata_is_valid] in V. rewrite forallb_forall in V.
  assert (SL : save_list save_fsource (vec_list m) = (map tree_fsource (fmetadata_list m), true)).
  { apply save_list_ok. apply Forall_forall. intros x I. now apply save_fsource_ok, V. }
  destruct (fmetadata_count (Some m) =? 0) eqn:Q; [|rewrite SL; reflexivity].
  unfold fmetadata_count in Q. rewrite u32_small in Q.
  - destruct m as [[|x l]|]; try reflexivity. cbn in Q. discriminate.
  - unfold short in Sh. unfold vec_size, fmetadata_list, vec_list in *. lia.
Qed.
Lemma wf_fmetadata l : Forall fsource_carried l -> wf (tree_fmetadata l).
Proof. intro H. apply wf_build; [name|apply no_attrs|]. apply Forall_map. eapply Forall_impl; [|exact H]. apply wf_fsource. Qed.
Definition NSRC := [s2z "data"].
Lemma within_fsource_kids s : forallb (within NSRC) (node_kids (tree_fsource s)) = true.
Proof. unfold tree_fsource. destruct (fs_data s); reflexivity. Qed.
Definition NMETA := [s2z "metadata"; s2z "source"; s2z "data"].
Lemma within_fmetadata l : within NMETA (tree_fmetadata l) = true.
Proof.
  unfold tree_fmetadata. cbn [within]. change (in_names NMETA (s2z "metadata")) with true. cbn [orb andb]. rewrite forallb_map. apply forallb_true.
  intro s. unfold tree_fsource. cbn [within]. destruct (fs_data s); reflexivity.
Qed.
Lemma load_fmetadata_self l t : Forall (fun s => fsource_is_valid s = true) l -> Forall fsource_carried l -> sim (tree_fmetadata l) t ->
  load_fmetadata t = Some (back_list fsource_back l).
Proof.
  intros V C S. unfold load_fmetadata. rewrite (sim_self _ _ _ _ S).
  pose proof (sim_find_all (s2z "source") _ _ S) as F. unfold tree_fmetadata in F. rewrite find_all_in in F.
  rewrite (all_in_same (s2z "source") tree_fsource NSRC) in F; try reflexivity; try (intro; apply within_fsource_kids).
  apply (load_list_vec load_fsource fmetadata_add_source tree_fsource (fun s => fsource_is_valid s = true /\ fsource_carried s) fsource_back); auto.
  - intros x u (Vx & Cx) Sx. now apply load_fsource_self.
  - intros v x (Vx & _). unfold fmetadata_add_source. now rewrite fsource_back_valid.
  - apply Forall_forall. intros x I. rewrite Forall_forall in V, C. auto.
Qed.

(** * TOC metadata sources *)
Definition tree_msource (s : msource) : node :=
  Elem (s2z "source") (opt_attr "formatId" (ms_format s) ++ [dattr "id" (ms_id s); dattr "fileId" (ms_file_id s)])
          ((match ms_data s with Some d => [Elem (s2z "data") [] [new_cdata d]] | None => [] end) ++
           text_node (s2z "tags") (option_map tags_string (ms_tags s))).
Lemma join_tags_string l : join_tags l = tags_string l.
Proof. induction l as [|x l IH]; [reflexivity|]. destruct l; [reflexivity|]. cbn [join_tags tags_string] in *. now rewrite IH. Qed.
Lemma save_msource_ok s : msource_is_valid s = true -> save_msource s = ([tree_msource s], true).
Proof.
  intro V. unfold save_msource. rewrite V. cbn [negb]. unfold get_tags, tree_msource.
  replace (option_map join_tags (ms_tags s)) with (option_map tags_string (ms_tags s)); [reflexivity|].
  destruct (ms_tags s); [|reflexivity]. cbn [option_map]. f_equal; symmetry; apply join_tags_string.
Qed.
Lemma wf_msource s : msource_carried s -> wf (tree_msource s).
Proof.
  intros (C & P & _ & _ & T). apply wf_build; [name| |].
  - apply attrs_opt; [name|exact C|reflexivity|]. repeat (apply attrs_d; [name|reflexivity|]). apply no_attrs.
  - apply Forall_app. split.
    + destruct (ms_data s) as [d|]; [|constructor]. constructor; [|constructor]. apply wf_build; [name|apply no_attrs|].
      constructor; [|constructor]. apply wf_cdata. now apply P.
    + apply wf_text_node; [name|]. destruct (ms_tags s) as [l|]; [|exact I]. cbn. now apply T.
Qed.
Lemma msource_valid_tags f i j d t1 t2 : msource_is_valid (mkMsource f i j d t1) = msource_is_valid (mkMsource f i j d t2).
Proof. reflexivity. Qed.
Lemma load_msource_self split s t : msource_is_valid s = true -> msource_carried s -> sim (tree_msource s) t -> load_msource split t = Some (msource_back split s).
Proof.
  intros V (C & P & R1 & R2 & T) S. unfold load_msource. rewrite (sim_self _ _ _ _ S). unfold tree_msource in S.
  rewrite (iattr_get t (ms_id s)), (iattr_get t (ms_file_id s)); auto; try (attr S; reflexivity).
  assert (Ef : node_attr t (s2z "formatId") = ms_format s).
  { attr S. cbn [get_attr]. destruct (ms_format s); reflexivity. }
  rewrite Ef.
  assert (Ed : match find_elem (s2z "data") t with Some x => data_text x | None => None end = ms_data s).
  { pose proof (sim_find (s2z "data") _ _ S) as F. rewrite find_elem_in, find_in_app in F. destruct (ms_data s) as [d|].
    - rewrite find_in_cons in F. cbn [named] in F. change (str_eqb (s2z "data") (s2z "data")) with true in F. cbv iota in F.
      destruct (find_elem (s2z "data") t) as [u|]; [|destruct F]. now apply (data_text_sim [] d).
    - rewrite find_in_nil, find_in_text in F by reflexivity. change (str_eqb (s2z "tags") (s2z "data")) with false in F. cbv iota in F.
      destruct (find_elem (s2z "data") t); [destruct F|reflexivity]. }
  rewrite Ed. set (s0 := mkMsource (ms_format s) (ms_id s) (ms_file_id s) (ms_data s) None).
  assert (Et : match find_elem (s2z "tags") t with Some x => set_tags split s0 (node_text x) | None => s0 end = msource_back split s).
  { pose proof (sim_find (s2z "tags") _ _ S) as F. rewrite find_elem_in, find_in_app in F.
    assert (Q : find_in (s2z "tags") (match ms_data s with Some d => [Elem (s2z "data") [] [new_cdata d]] | None => [] end) = None)
      by (destruct (ms_data s); reflexivity).
    rewrite Q, find_text_same in F by reflexivity. unfold msource_back, tags_back. destruct (ms_tags s) as [l|]; cbn [option_map] in F.
    - destruct (find_elem (s2z "tags") t) as [u|]; [|destruct F]. cbn [sim_opt] in F.
      rewrite <- (sim_text _ _ F), read_back_text by apply text_node_only. destruct (tags_string l) as [|c j] eqn:Ej; [reflexivity|].
      cbn [read_back]. unfold set_tags. destruct (strip (c :: j)); reflexivity.
    - destruct (find_elem (s2z "tags") t); [destruct F|reflexivity]. }
  rewrite Et. assert (V' : msource_is_valid (msource_back split s) = true).
  { unfold msource_back. rewrite (msource_valid_tags _ _ _ _ _ (ms_tags s)). destruct s. exact V. }
  now rewrite V'.
Qed.
(** * TOC metadata *)
Definition tree_metadata (l : list msource) : node := Elem (s2z "metadata") [] (map tree_msource l).
Lemma save_metadata_ok l : metadata_is_valid (Some (Some l)) = true -> save_metadata (Some (Some l)) = ([tree_metadata l], true).
Proof.
  intro V. unfold save_metadata. rewrite V. cbn [negb vec_list]. rewrite (save_list_ok save_msource tree_msource); [reflexivity|].
  destruct l; [discriminate|]. cbn [metadata_is_valid] in V. rewrite forallb_forall in V. apply Forall_forall. intros x I. now apply save_msource_ok, V.
Qed.
Lemma wf_metadata l : Forall msource_carried l -> wf (tree_metadata l).
Proof. intro H. apply wf_build; [name|apply no_attrs|]. apply Forall_map. eapply Forall_impl; [|exact H]. apply wf_msource. Qed.
Definition NMSRC := [s2z "data"; s2z "tags"].
Lemma within_msource_kids s : forallb (within NMSRC) (node_kids (tree_msource s)) = true.
Proof.
  unfold tree_msource. cbn [node_kids]. rewrite forallb_app, within_text_node by reflexivity. rewrite andb_true_r. destruct (ms_data s); reflexivity.
Qed.
Lemma load_metadata_self split l t : Forall (fun s => msource_is_valid s = true) l -> Forall msource_carried l -> sim (tree_metadata l) t ->
  load_metadata split t = Some (back_list (msource_back split) l).
Proof.
  intros V C S. unfold load_metadata. rewrite (sim_self _ _ _ _ S).
  pose proof (sim_find_all (s2z "source") _ _ S) as F. unfold tree_metadata in F. rewrite find_all_in in F.
  rewrite (all_in_same (s2z "source") tree_msource NMSRC) in F; try reflexivity; try (intro; apply within_msource_kids).
  apply (load_list_vec (load_msource split) metadata_add_source tree_msource (fun s => msource_is_valid s = true /\ msource_carried s) (msource_back split)); auto.
  - intros x u (Vx & Cx) Sx. now apply load_msource_self.
  - intros v x (Vx & _). unfold metadata_add_source. unfold msource_back at 1. rewrite (msource_valid_tags _ _ _ _ _ (ms_tags x)). replace (mkMsource _ _ _ _ _) with x by (destruct x; reflexivity). now rewrite Vx.
  - apply Forall_forall. intros x I. rewrite Forall_forall in V, C. auto.
Qed.
