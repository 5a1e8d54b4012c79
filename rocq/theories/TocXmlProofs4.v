(** Save and load of files: the data part and the whole. *)
From Verif Require Import CBase CBaseProofs XmlEntity XmlModel SpecXml EntityProofs Utf8Proofs TrimProofs XmlProofs XmlRound SimProofs
  TocModel SpecToc ValidProofs TocXmlModel TocXmlBase SpecTocXml TocXmlProofs TocXmlProofs2 TocXmlProofs3.

Definition text_back (s : option cstr) : cstr := match read_back s with Some x => x | None => [] end.
Lemma load_size_sim m a ks z t : is_i64 z -> sim (Elem m a ks) t -> find_in (s2z "size") ks = Some (Elem (s2z "size") [] (text_kids (print_dec z))) -> load_size t = z.
Proof.
  intros R S E. unfold load_size. pose proof (sim_find (s2z "size") _ _ S) as F. rewrite find_elem_in, E in F.
  destruct (find_elem (s2z "size") t) as [u|]; [|destruct F]. cbn [sim_opt] in F. unfold text_safe.
  rewrite <- (sim_text _ _ F (text_node_only _ _ _)), int_node_text. now apply atoll_print_dec.
Qed.
Lemma find_attr_sim n {P : plain n} m a ks b t k : sim (Elem m a ks) t -> find_in n ks = Some (Elem n b []) ->
  match find_elem n t with Some x => get_iattr (-1) k x | None => -1 end = match get_attr b k with Some s => atoi s | None => -1 end.
Proof.
  intros S E. pose proof (sim_find n _ _ S) as F. rewrite find_elem_in, E in F.
  destruct (find_elem n t) as [u|]; [|destruct F]. cbn [sim_opt] in F. unfold get_iattr, int_attr. rewrite <- (sim_attrs _ _ _ F). cbn [node_attr].
  destruct (get_attr b k); reflexivity.
Qed.
Definition data_of (f : toc_file) (c : cstr) : file_data :=
  mkData (Some c) (f_size f) (f_start_frame f) (f_start_byte f) (f_end_frame f) (f_end_byte f).
Lemma load_data_v2_self f d : file_carried f -> sim (hd (Opaque []) (save_data_v2 f)) d -> load_data_v2 d = data_of f (text_back (f_checksum f)).
Proof.
  intros (_ & _ & C3 & _ & _ & _ & _ & R0 & R1 & R2 & R3 & R4 & _) S. cbn [save_data_v2 hd] in S. unfold load_data_v2, data_of.
  rewrite (load_size_sim _ _ _ (f_size f) d R0 S).
  2:{ rewrite !find_in_app, find_in_text by reflexivity. lits. now rewrite find_int_same. }
  rewrite !(find_attr_sim (s2z "start") _ _ _ [(s2z "frame", Some (print_dec_pad 6 (f_start_frame f))); dattr "byte" (f_start_byte f)] d _ S).
  2,3:  rewrite !find_in_app, find_in_text, find_in_int by reflexivity; lits; rewrite find_in_cons; cbn [named]; lits; reflexivity.
  rewrite !(find_attr_sim (s2z "end") _ _ _ [(s2z "frame", Some (print_dec_pad 6 (f_end_frame f))); dattr "byte" (f_end_byte f)] d _ S).
  2,3:  rewrite !find_in_app, find_in_text, find_in_int by reflexivity; lits; rewrite find_in_cons; cbn [named]; lits; reflexivity.
  cbn [get_attr dattr]. lits. rewrite !atoi_print_dec_pad, !atoi_print_dec by assumption. f_equal. f_equal.
  pose proof (sim_find (s2z "checksum") _ _ S) as F. rewrite find_elem_in, find_in_app, find_text_same in F by reflexivity. unfold text_safe, text_back.
  destruct (f_checksum f) as [c|]; cbn [option_map] in F.
  - destruct (find_elem (s2z "checksum") d) as [u|]; [|destruct F]. cbn [sim_opt] in F. now rewrite <- (sim_text _ _ F (text_node_only _ _ _)), read_back_text.
  - rewrite find_in_app, find_in_int in F by reflexivity. change (str_eqb (s2z "size") (s2z "checksum")) with false in F. cbv iota in F.
    rewrite (within_find_in [s2z "start"; s2z "end"]) in F by reflexivity.
    destruct (find_elem (s2z "checksum") d); [destruct F|reflexivity].
Qed.
Lemma find_sub_sim n {P : plain n} m a ks b sub t k {P' : plain k} z : is_i32 z -> sim (Elem m a ks) t -> find_in n ks = Some (Elem n b sub) ->
  find_in k sub = Some (Elem k [] (text_kids (print_dec z))) ->
  match find_elem n t with Some x => get_int (-1) k x | None => -1 end = z.
Proof.
  intros R S E K. pose proof (sim_find n _ _ S) as F. rewrite find_elem_in, E in F.
  destruct (find_elem n t) as [u|]; [|destruct F]. cbn [sim_opt] in F. unfold get_int. now rewrite (int_elem_sim k _ _ _ z u R F K).
Qed.
(** The older form inside a file. *)
Section v1.
Variables (f : toc_file) (t : node).
Hypothesis C : file_carried f.
Hypothesis S : sim (tree_file true f) t.
Hypothesis D : digitalb f = true.
Lemma find_v1 n r : in_names [s2z "id"; s2z "uniqueId"; s2z "name"; s2z "date"; s2z "parentId"] n = false -> is_special n = false ->
  find_in n (save_data_v1 f) = Some r -> find_in n (node_kids (tree_file true f)) = Some r.
Proof.
  intros A B E. unfold tree_file. cbn [node_kids]. rewrite !app_assoc, find_in_app. rewrite <- app_assoc. rewrite find_in_app. 
  rewrite (within_find_in [s2z "id"; s2z "uniqueId"; s2z "name"; s2z "date"; s2z "parentId"] n) by
    (auto; rewrite !forallb_app, !within_text_node, within_int_node by reflexivity;
     now rewrite (within_all_incl [s2z "parentId"] [s2z "id"; s2z "uniqueId"; s2z "name"; s2z "date"; s2z "parentId"] _ eq_refl (within_tail_parent f))).
  rewrite find_in_app. unfold tail_data. rewrite D, E. reflexivity.
Qed.
Lemma load_data_v1_self : load_data_v1 t = data_of f [].
Proof.
  destruct C as (_ & _ & C3 & _ & _ & _ & _ & R0 & R1 & R2 & R3 & R4 & _). unfold load_data_v1, data_of.
  assert (Fs : find_in (s2z "start") (node_kids (tree_file true f)) =
     Some (Elem (s2z "start") [] (int_node (s2z "frame") (f_start_frame f) ++ int_node (s2z "byte") (f_start_byte f)))).
  { apply find_v1; [reflexivity|reflexivity|]. unfold save_data_v1. rewrite find_in_app, find_in_int by reflexivity. lits. rewrite find_in_cons. reflexivity. }
  assert (Fe : find_in (s2z "end") (node_kids (tree_file true f)) =
     Some (Elem (s2z "end") [] (int_node (s2z "frame") (f_end_frame f) ++ int_node (s2z "byte") (f_end_byte f)))).
  { apply find_v1; [reflexivity|reflexivity|]. unfold save_data_v1. rewrite find_in_app, find_in_int by reflexivity. lits. rewrite !find_in_cons. cbn [named]. lits.
    rewrite find_elem_in, find_in_app, !find_in_int by reflexivity. lits. reflexivity. }
  assert (Fz : find_in (s2z "size") (node_kids (tree_file true f)) = Some (Elem (s2z "size") [] (text_kids (print_dec (f_size f))))).
  { apply find_v1; [reflexivity|reflexivity|]. unfold save_data_v1. now rewrite find_in_app, find_int_same. }
  unfold tree_file in Fs, Fe, Fz. cbn [node_kids] in Fs, Fe, Fz. unfold tree_file in S.
  rewrite (load_size_sim _ _ _ (f_size f) t R0 S Fz).
  rewrite (find_sub_sim _ _ _ _ _ _ _ (s2z "frame") (f_start_frame f) R1 S Fs) by (now rewrite find_in_app, find_int_same).
  rewrite (find_sub_sim _ _ _ _ _ _ _ (s2z "byte") (f_start_byte f) R2 S Fs) by (rewrite find_in_app, find_in_int by reflexivity; lits; now rewrite find_int_same).
  rewrite (find_sub_sim _ _ _ _ _ _ _ (s2z "frame") (f_end_frame f) R3 S Fe) by (now rewrite find_in_app, find_int_same).
  rewrite (find_sub_sim _ _ _ _ _ _ _ (s2z "byte") (f_end_byte f) R4 S Fe) by (rewrite find_in_app, find_in_int by reflexivity; lits; now rewrite find_int_same).
  f_equal. f_equal. pose proof (sim_find (s2z "checksum") _ _ S) as F. rewrite find_elem_in in F. unfold text_safe.
  rewrite !find_in_app, find_in_int, !find_in_text, find_parent_none, find_preview_none, find_meta_none in F by reflexivity.
  unfold tail_data in F. rewrite D in F. unfold save_data_v1 in F. rewrite find_in_app, find_in_int, !find_in_cons in F by reflexivity. cbn [named] in F.
  rewrite !find_elem_in, !find_in_app, !find_in_int in F by reflexivity.
  repeat match type of F with context [str_eqb (s2z ?a) (s2z ?b)] => change (str_eqb (s2z a) (s2z b)) with false in F end. cbv iota in F.
  rewrite find_in_nil in F. destruct (find_elem (s2z "checksum") t); [destruct F|reflexivity].
Qed.
Lemma size_v1 : present t (s2z "size") = true.
Proof.
  unfold present. pose proof (sim_find (s2z "size") _ _ S) as F. unfold tree_file in F at 1. rewrite find_elem_in in F.
  assert (Fz : find_in (s2z "size") (node_kids (tree_file true f)) = Some (Elem (s2z "size") [] (text_kids (print_dec (f_size f))))).
  { apply find_v1; [reflexivity|reflexivity|]. unfold save_data_v1. now rewrite find_in_app, find_int_same. }
  unfold tree_file in Fz. cbn [node_kids] in Fz. rewrite Fz in F. destruct (find_elem (s2z "size") t); [reflexivity|destruct F].
Qed.
End v1.

(** * The whole file *)
Definition blank_text (f : toc_file) : bool :=
  match read_back (f_name f), read_back (f_date f) with Some (_ :: _), Some (_ :: _) => false | _, _ => true end.
Definition built (f : toc_file) (d : file_data) (types : Z) : toc_file :=
  mkFile (read_back (f_name f)) (read_back (f_date f)) (fd_checksum d) (fd_size d) (f_id f) (fd_sf d) (fd_sb d) (fd_ef d) (fd_eb d)
         (read_back (f_unique_id f)) (f_parent_id f) types (if previewedb f then option_map preview_back (f_preview f) else None)
         (Some (match f_file_format f with Some x => x | None => s2z "undefined" end))
         (match fsources_of f with [] => None | l => Some (Some (map fsource_back l)) end).
Definition ptype (f : toc_file) : Z := if previewedb f then 2 else 0.
Lemma preview_back_ok p : preview_carried p -> preview_ok p -> preview_ok (preview_back p).
Proof.
  intros (C & _) (N & V). unfold preview_back, preview_ok, pages_of at 1 3. cbn [pv_pages]. unfold back_list. destruct (pages_of p) as [|g l] eqn:E; [congruence|].
  split; [discriminate|]. apply Forall_map. apply Forall_forall. intros x I. rewrite Forall_forall in C, V. apply page_valid_iff, page_back_valid; auto. apply page_valid_iff. auto.
Qed.
Lemma fsource_back_ok l : Forall fsource_ok l -> Forall fsource_ok (map fsource_back l).
Proof. intro H. apply Forall_map. eapply Forall_impl; [|exact H]. intros x. exact (fun K => K). Qed.
Lemma built_small f d z : short (fsources_of f) -> small (fsources_of (built f d z)).
Proof.
  intro Sh. unfold small, short in *. unfold built. unfold fsources_of at 1. cbn [f_metadata]. destruct (fsources_of f) as [|x l]; [cbn; lia|]. now rewrite map_length.
Qed.
(** The loaded file is valid exactly when its name and date are not blank. *)
Lemma built_valid f d z : file_carried f -> file_ok f ->
  Z.testbit z 1 = previewedb f -> Z.testbit z 0 = digitalb f -> (digitalb f = true -> exists c, d = data_of f c) ->
  file_is_valid (built f d z) = negb (blank_text f).
Proof.
  intros (_ & _ & _ & _ & _ & _ & _ & _ & _ & _ & _ & _ & P & _ & Sh) (V1 & V2 & V3 & V4 & V5 & V6) B1 B0 Dd.
  apply eq_true_iff_eq. rewrite (file_valid_iff (built f d z) (built_small f d z Sh)). unfold blank_text. split.
  - intros (_ & (c1 & l1 & E1) & (c2 & l2 & E2) & _). cbn [built f_name f_date] in E1, E2. rewrite E1, E2. reflexivity.
  - intro NB. unfold file_ok. split; [exact V1|]. cbn [built f_name f_date].
    destruct (read_back (f_name f)) as [[|c1 l1]|] eqn:E1; try discriminate. destruct (read_back (f_date f)) as [[|c2 l2]|] eqn:E2; try discriminate.
    split; [now exists c1, l1|]. split; [now exists c2, l2|]. split; [|split].
    + unfold digital. change (f_types (built f d z)) with z. rewrite B0. intro Hd. destruct (Dd Hd) as (c & ->). unfold built. cbn [data_of fd_checksum f_checksum fd_sf fd_sb fd_ef fd_eb f_start_frame f_start_byte f_end_frame f_end_byte].
      destruct (V4 Hd) as (W1 & W2 & _ & W3). repeat split; auto; try lia. discriminate.
    + unfold previewed. change (f_types (built f d z)) with z. rewrite B1. intro Hp. unfold built. cbn [f_preview]. destruct (V5 Hp) as (p & Ep & Pk). rewrite Hp, Ep. cbn [option_map].
      exists (preview_back p). split; [reflexivity|]. apply preview_back_ok; auto.
    + unfold fsources_of at 1. unfold built. cbn [f_metadata]. destruct (fsources_of f) as [|x l]; [constructor|]. now apply fsource_back_ok.
Qed.
Lemma load_file_self v1 f t : file_is_valid f = true -> file_carried f -> sim (tree_file v1 f) t ->
  load_file t = Some (if v1 then file_back_v1 f else file_back f).
Proof.
  intros V C S. assert (Sh : short (fsources_of f)) by apply C. apply (file_valid_iff f Sh) in V as Vk.
  unfold load_file. rewrite (sim_self _ _ _ _ S), (file_format v1 f t S), (file_parent v1 f t C S), (file_preview v1 f t C S Vk), (file_meta v1 f t C S Vk),
    (file_name v1 f t S), (file_date v1 f t S), (file_uid v1 f t S), (file_id v1 f t C S).
  set (pv := if previewedb f then option_map preview_back (f_preview f) else None).
  assert (Ept : (match pv with Some _ => TYPE_PREVIEW | None => TYPE_UNDEFINED end) = ptype f).
  { unfold pv, ptype. destruct (previewedb f) eqn:B; [|reflexivity]. destruct Vk as (_ & _ & _ & _ & Vp & _). destruct (Vp B) as (p & -> & _). reflexivity. }
  cbv zeta. rewrite Ept. clear Ept.
  assert (T : forall d z, mkFile (read_back (f_name f)) (read_back (f_date f)) (fd_checksum d) (fd_size d) (f_id f) (fd_sf d) (fd_sb d) (fd_ef d) (fd_eb d)
         (read_back (f_unique_id f)) (f_parent_id f) z pv
         (Some (match f_file_format f with Some x => x | None => s2z "undefined" end))
         (match fsources_of f with [] => None | l => Some (Some (map fsource_back l)) end) = built f d z) by reflexivity.
  rewrite !T. clear T. destruct (digitalb f) eqn:D.
  - destruct v1.
    + rewrite (not_digital_data true f t S) by auto. rewrite (load_data_v1_self f t C S D), (size_v1 f t S D). cbn [orb].
      rewrite built_valid; auto.
      * unfold file_back_v1, file_back. rewrite D. cbv zeta. fold (blank_text f). unfold built, set_types, data_of, ptype. cbn [f_name f_date f_checksum f_size f_id f_start_frame f_start_byte f_end_frame f_end_byte f_unique_id f_parent_id f_preview f_file_format f_metadata fd_checksum fd_size fd_sf fd_sb fd_ef fd_eb].
        destruct (blank_text f); cbn [negb]; [reflexivity|]. destruct (previewedb f); reflexivity.
      * unfold ptype. destruct (previewedb f); reflexivity.
      * rewrite D. unfold ptype. destruct (previewedb f); reflexivity.
      * intros _. eauto.
    + pose proof (sim_find_below (s2z "file") (s2z "data") _ _ S) as F. unfold tree_file at 1 in F. rewrite find_below_in in F.
      pose proof (below_head false f) as H. unfold tree_file in H at 1. cbn [node_kids] in H. rewrite H in F. clear H.
      unfold tail_data in F. rewrite D in F. unfold save_data_v2 in F. rewrite below_cons in F. cbn [named] in F.
      change (str_eqb (s2z "data") (s2z "data") && str_eqb (s2z "file") (s2z "file")) with true in F. cbv iota in F.
      destruct (find_below (s2z "file") (s2z "data") t) as [d|]; [|destruct F]. cbn [sim_opt] in F.
      rewrite (load_data_v2_self f d C F). unfold file_back. rewrite D. cbn [negb andb]. unfold built, data_of, ptype, text_back. cbn [fd_checksum fd_size fd_sf fd_sb fd_ef fd_eb].
      f_equal. destruct (previewedb f); reflexivity.
  - rewrite (not_digital_data v1 f t S) by auto.
    assert (Z1 : forall n, In n [s2z "size"; s2z "start"; s2z "end"; s2z "checksum"] -> find_elem n t = None) by (intros n I; exact (not_digital_absent v1 f t S n D I)).
    unfold present. rewrite !(Z1 (s2z "size")), !(Z1 (s2z "start")), !(Z1 (s2z "end")) by (cbn; tauto). cbn [orb].
    assert (L : load_data_v1 t = mkData (Some []) 0 (-1) (-1) (-1) (-1)).
    { unfold load_data_v1, load_size, text_safe. rewrite !(Z1 (s2z "size")), !(Z1 (s2z "start")), !(Z1 (s2z "end")), (Z1 (s2z "checksum")) by (cbn; tauto). reflexivity. }
    rewrite L, built_valid; auto.
    + destruct v1; unfold file_back_v1, file_back; rewrite D; cbn [negb andb]; cbv zeta; fold (blank_text f); unfold built, set_types, ptype;
        cbn [f_name f_date f_checksum f_size f_id f_start_frame f_start_byte f_end_frame f_end_byte f_unique_id f_parent_id f_preview f_file_format f_metadata fd_checksum fd_size fd_sf fd_sb fd_ef fd_eb];
        destruct (blank_text f); cbn [negb]; try reflexivity; destruct (previewedb f); reflexivity.
    + unfold ptype. destruct (previewedb f); reflexivity.
    + rewrite D. unfold ptype. destruct (previewedb f); reflexivity.
    + congruence.
Qed.
