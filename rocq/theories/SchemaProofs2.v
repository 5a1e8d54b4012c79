(** The saved trees against the schemas. *)
From Verif Require Import CBase CBaseProofs XmlModel SpecXml SpecSchema SpecSchema2 SchemaProofs TocModel SpecToc ValidProofs TocXmlModel TocXmlBase SpecTocXml TocXmlProofs TocXmlProofs2 TocXmlProofs3 TocXmlProofs5.

(** * Attributes *)
Definition declared (atts : list attribute) (b : cstr * option cstr) : Prop := exists r (p : cstr -> Prop) x, In (fst b, r, p) atts /\ snd b = Some x /\ p x.
Lemma attributes_iff atts a : attributes_conform atts a <-> Forall (declared atts) a /\ forall n p, In (n, true, p) atts -> exists v, In (n, v) a.
Proof.
  unfold attributes_conform. split; intros (A & B); (split; [|exact B]).
  - apply Forall_forall. intros (n, v) I. exact (A n v I).
  - intros n v I. rewrite Forall_forall in A. exact (A (n, v) I).
Qed.
Definition attribute_name (t : attribute) : cstr := fst (fst t).
Lemma declared_iff atts n x r p : NoDup (map attribute_name atts) -> In (n, r, p) atts -> (declared atts (n, Some x) <-> p x).
Proof.
  intros N I. unfold declared. cbn [fst snd]. split; [|eauto 6].
  intros (r' & p' & y & J & [= <-] & P). enough (E : (n, r', p') = (n, r, p)) by (injection E as _ ->; exact P).
  clear P. induction atts as [|t atts IH]; [contradiction|]. cbn [map] in N. inversion N as [|? ? Nt N']; subst.
  destruct I as [-> |I], J as [E|J]; [congruence| | |auto].
  - exfalso. apply Nt. apply (in_map attribute_name) in J. exact J.
  - subst t. exfalso. apply Nt. apply (in_map attribute_name) in I. exact I.
Qed.
Fixpoint distinct (l : list cstr) : bool := match l with [] => true | x :: r => negb (existsb (str_eqb x) r) && distinct r end.
Lemma distinct_NoDup l : distinct l = true -> NoDup l.
Proof.
  induction l as [|x l IH]; cbn; intro H; constructor; apply andb_prop in H as (H1 & H2); [|auto].
  intro I. apply negb_true_iff in H1. assert (existsb (str_eqb x) l = true) by (apply existsb_exists; exists x; split; [exact I|now apply str_eqb_eq]). congruence.
Qed.
Ltac dis := apply distinct_NoDup; vm_compute; reflexivity.
Ltac inl := repeat (first [left; reflexivity | right]).
Ltac decl p := rewrite (declared_iff _ _ _ false p); [|dis|inl].
Lemma no_required atts a : forallb (fun t : attribute => negb (snd (fst t))) atts = true -> (attributes_conform atts a <-> Forall (declared atts) a).
Proof.
  intro H. rewrite attributes_iff. split; [tauto|]. intro F. split; [exact F|]. intros n p I. rewrite forallb_forall in H. specialize (H _ I). discriminate.
Qed.
Lemma none_conform atts : forallb (fun t : attribute => negb (snd (fst t))) atts = true -> attributes_conform atts [].
Proof. intro H. apply no_required; [exact H|constructor]. Qed.
Ltac cald := repeat first [apply Forall_nil | apply called_text | apply Forall_cons; [eexists _, _; reflexivity|]].
Lemma opt_string atts n s : NoDup (map attribute_name atts) -> In (s2z n, false, xs_string) atts -> Forall (declared atts) (opt_attr n s).
Proof. intros N I. destruct s as [s|]; [|constructor]. constructor; [|constructor]. apply (declared_iff _ _ _ _ _ N I). exact Logic.I. Qed.
Lemma forall_map_iff {X Y} (f : X -> Y) (P : Y -> Prop) (Q : X -> Prop) l : Forall (fun x => P (f x) <-> Q x) l -> (Forall P (map f l) <-> Forall Q l).
Proof. induction 1 as [|x l H _ IH]; [split; constructor|]. cbn [map]. split; intro F; inversion F; subst; constructor; tauto. Qed.
Lemma called_map {X} n (f : X -> node) l : (forall x, called n (f x)) -> Forall (called n) (map f l).
Proof. intro H. apply Forall_forall. intros k I. apply in_map_iff in I as (x & <- & _). apply H. Qed.
Lemma proper_called n l : is_markup_name n = false -> Forall (called n) l -> Forall proper l.
Proof. intros B. apply Forall_impl. intros k (a & ks & ->). exact B. Qed.
Lemma single_group n ks (lo : nat) hi t : is_markup_name n = false -> Forall (called n) ks ->
  (content_conforms (Sequence [Part n lo hi t]) ks <-> in_bounds (Part n lo hi t) ks).
Proof.
  intros B F. rewrite (groups_iff _ [ks]); [|cbn; now rewrite app_nil_r|eapply proper_called; eassumption|repeat constructor; intros []|repeat constructor; exact F].
  split; [intro H; now inversion H|intro H; constructor; [exact H|constructor]].
Qed.
(** * Sections and layouts: always *)
Lemma section_conforms s : section_range s -> conforms SectionType (tree_section s).
Proof.
  intros (R1 & R2 & R3 & R4 & R5 & R6). unfold tree_section, SectionType. apply conforms_iff. split.
  - apply attributes_iff. split.
    + repeat apply Forall_cons; try apply Forall_nil; unfold uattr; (rewrite (declared_iff _ _ _ true xs_unsignedInt); [now apply unsigned_u32|dis|inl]).
    + intros n p I. repeat (destruct I as [I|I]; [injection I as <- <-; eexists; inl|]). contradiction.
  - apply text_iff. split; [reflexivity|exact Logic.I].
Qed.
Lemma sections_conform l : l <> [] -> Forall section_range l -> conforms SectionsType (tree_sections l).
Proof.
  intros N F. unfold tree_sections, SectionsType. apply conforms_iff. split; [now apply none_conform|].
  apply single_group; [reflexivity|apply called_map; intro; eexists _, _; reflexivity|]. apply bounds_some. split; [destruct l; [congruence|discriminate]|].
  apply Forall_map. eapply Forall_impl; [|exact F]. intro s. apply section_conforms.
Qed.
Lemma f2_cons {X Y} (R : X -> Y -> Prop) a l b k : Forall2 R (a :: l) (b :: k) <-> R a b /\ Forall2 R l k.
Proof. split; [intro H; inversion H; auto|intros (A & B); now constructor]. Qed.
Lemma f2_nil {X Y} (R : X -> Y -> Prop) : Forall2 R [] [] <-> True.
Proof. split; auto. Qed.
Lemma called_proper n k : is_markup_name n = false -> called n k -> proper k.
Proof. intros B (a & l & ->). exact B. Qed.
(** The groups of the children with their names. *)
Lemma grouped ps gs ks : ks = List.concat gs -> NoDup (map part_name ps) -> forallb (fun p => negb (is_markup_name (part_name p))) ps = true ->
  Forall2 (fun p g => Forall (called (part_name p)) g) ps gs -> (content_conforms (Sequence ps) ks <-> Forall2 in_bounds ps gs).
Proof.
  intros E N B F. apply groups_iff; auto. subst ks. clear N. induction F as [|p g ps gs Hg F IH]; [constructor|]. cbn [List.concat forallb] in *.
  apply andb_prop in B as (B1 & B2). apply Forall_app. split; [|auto]. eapply Forall_impl; [|exact Hg]. intros k. apply called_proper. now apply negb_true_iff.
Qed.
Lemma some_text n s : nonempty s -> in_bounds (Part n 1 (Some 1%nat) (simple xs_string)) (text_node n s).
Proof. intros (c & t & ->). apply one_text. eexists. split; [reflexivity|exact Logic.I]. Qed.
Definition layout_whole (d : layout_def) : Prop := nonempty (ld_id d) /\ nonempty (ld_name d) /\ def_sections d <> [].
Lemma layout_valid_whole d : layout_def_is_valid d = true -> layout_whole d.
Proof.
  unfold layout_def_is_valid. intro V. apply andb_prop in V as (V & V3). apply andb_prop in V as (V1 & V2). apply negb_true_iff in V1, V2. apply nonempty_iff in V1, V2.
  split; [exact V1|]. split; [exact V2|]. unfold def_sections. destruct (ld_sections d) as [[[|x l]|]|]; try discriminate.
Qed.
Lemma layout_conforms d : layout_whole d -> layout_carried d -> conforms previewLayoutType (tree_layout d).
Proof.
  intros (I & N & S0) (_ & _ & (R & _)). unfold tree_layout, previewLayoutType. apply conforms_iff. split; [now apply none_conform|].
  apply (grouped _ [text_node (s2z "id") (ld_id d); text_node (s2z "name") (ld_name d); [tree_sections (def_sections d)]]); [reflexivity|dis|reflexivity| |].
  - rewrite !f2_cons, f2_nil. repeat (split; [cald|]). exact Logic.I.
  - rewrite !f2_cons, f2_nil. split; [now apply some_text|]. split; [now apply some_text|]. split; [|exact Logic.I]. apply bounds_one. now apply sections_conform.
Qed.
Lemma layouts_conform l : Forall layout_whole l -> Forall layout_carried l -> conforms LayoutDefinitionsType (tree_layouts l).
Proof.
  intros F C. unfold tree_layouts, LayoutDefinitionsType. apply conforms_iff. split; [now apply none_conform|].
  apply single_group; [reflexivity|apply called_map; intro; eexists _, _; reflexivity|]. apply bounds_many. apply Forall_map.
  rewrite Forall_forall in *. intros d I. apply layout_conforms; auto.
Qed.
(** * Pages and previews *)
Lemma page_conforms p : page_ok p -> page_carried p -> (conforms PagesType (tree_page p) <-> page_fits p).
Proof.
  intros ((c & t & E) & _) (_ & R1 & R2 & R3 & R4 & R5 & R6 & R7). unfold tree_page, PagesType. rewrite conforms_iff, empty_iff, no_required by reflexivity.
  set (atts := [may "layoutId" xs_unsignedInt; may "frame" xs_unsignedInt; may "section" xs_unsignedInt; may "count" xs_unsignedInt; may "dimension" DimensionType; may "overlap" xs_string]).
  assert (N : NoDup (map attribute_name atts)) by dis.
  assert (U : forall n z, is_u32 z -> In (s2z n, false, xs_unsignedInt) atts -> declared atts (uattr n z)) by (intros n z Hz I; apply (declared_iff _ _ _ _ _ N I); now apply unsigned_u32).
  rewrite !Forall_app, E. cbn [opt_attr]. unfold page_fits. rewrite E. split.
  - intros ((A & _) & _). inversion A as [|? ? D _]; subst. exists (c :: t). split; [reflexivity|]. revert D. apply (declared_iff _ _ _ false _ N). inl.
  - intros (l & [= <-] & L). split; [|split; reflexivity]. repeat split.
    + constructor; [|constructor]. apply (declared_iff _ _ _ false xs_unsignedInt N); [inl|exact L].
    + repeat apply Forall_cons; try apply Forall_nil; apply U; try assumption; inl.
    + unfold xy_attr. destruct (negb _ && _); [|constructor]. constructor; [|constructor]. apply (declared_iff _ _ _ false DimensionType N); [inl|]. apply dimension_ok; [apply R4|apply R5].
    + unfold xy_attr. destruct (negb _ && _); [|constructor]. constructor; [|constructor]. apply (declared_iff _ _ _ false xs_string N); [inl|exact Logic.I].
Qed.
Lemma preview_conforms p : preview_ok p -> preview_carried p -> (conforms PreviewType (tree_preview p) <-> Forall page_fits (pages_of p)).
Proof.
  intros (_ & V) (C & D). unfold tree_preview, PreviewType. rewrite conforms_iff.
  rewrite (grouped _ [(if 0 <=? pv_dpi p then int_node (s2z "dpi") (pv_dpi p) else []); map tree_page (pages_of p)]); [|cbn [List.concat]; now rewrite app_nil_r|dis|reflexivity|].
  - rewrite !f2_cons, f2_nil. unfold many, optional. rewrite bounds_many, (forall_map_iff tree_page _ page_fits).
    + split; [tauto|]. intro H. split; [now apply none_conform|]. split; [|tauto]. destruct (Z.leb_spec 0 (pv_dpi p)) as [L|L]; [|apply bounds_opt_none].
      unfold int_node. apply bounds_opt, simple_iff, unsigned_dec. unfold is_i32 in D. lia.
    + rewrite Forall_forall in *. intros x I. apply page_conforms; auto.
  - rewrite !f2_cons, f2_nil. split; [destruct (0 <=? pv_dpi p); unfold int_node; cald|]. split; [|exact Logic.I]. apply called_map. intro. eexists _, _. reflexivity.
Qed.
(** * Metadata *)
Lemma cdata_text d : text_in [new_cdata d] = d /\ children [new_cdata d] = [].
Proof.
  split; [|reflexivity]. unfold text_in. cbn [flat_map]. rewrite app_nil_r. unfold new_cdata, own_text. change CDATA with (s2z "![CDATA[").
  change (str_eqb (firstn 8 (s2z "![CDATA[" ++ d ++ s2z "]]")) (s2z "![CDATA[")) with true. cbv iota.
  change (skipn 8 (s2z "![CDATA[" ++ d ++ s2z "]]")) with (d ++ s2z "]]"). rewrite app_length, app_length.
  change (List.length (s2z "![CDATA[")) with 8%nat. change (List.length (s2z "]]")) with 2%nat.
  replace (8 + (List.length d + 2) - 10)%nat with (List.length d) by lia. rewrite firstn_app, firstn_all, Nat.sub_diag. cbn. apply app_nil_r.
Qed.
Lemma fsource_conforms s : fsource_carried s -> (conforms FileMetadataSourceType (tree_fsource s) <-> fsource_fits s).
Proof.
  intros (_ & _ & R1 & R2). unfold tree_fsource, FileMetadataSourceType, one. rewrite conforms_iff, no_required by reflexivity.
  rewrite (single_group (s2z "data")); [|reflexivity|destruct (fs_data s); cald].
  set (atts := [may "fileId" xs_unsignedInt; may "sourceId" xs_unsignedInt]). assert (N : NoDup (map attribute_name atts)) by dis.
  assert (A : Forall (declared atts) [dattr "fileId" (fs_file_id s); dattr "sourceId" (fs_source_id s)] <-> 0 <= fs_file_id s /\ 0 <= fs_source_id s).
  { unfold is_i32 in *. rewrite !Forall_cons_iff. unfold dattr. rewrite (declared_iff atts _ _ false xs_unsignedInt N) by inl. rewrite (declared_iff atts _ _ false xs_unsignedInt N) by inl.
    rewrite !unsigned_dec. split; [intros (? & ? & _); lia|]. intros. repeat split; try lia. constructor. }
  rewrite A. unfold fsource_fits. destruct (fs_data s) as [d|].
  - rewrite bounds_one. split; [intros (? & _); split; [discriminate|assumption]|]. intros (_ & H). split; [exact H|]. unfold FileMetadataSourceDataType. apply conforms_iff. split.
    + apply no_required; [reflexivity|]. apply opt_string; [dis|inl].
    + apply text_iff. destruct (cdata_text d) as (_ & ->). split; [reflexivity|exact Logic.I].
  - split; [intros (_ & H); now apply bounds_one_none in H|]. intros (H & _). congruence.
Qed.
Lemma fmetadata_conforms l : Forall fsource_carried l -> (conforms FileMetadataType (tree_fmetadata l) <-> Forall fsource_fits l).
Proof.
  intros C. unfold tree_fmetadata, FileMetadataType, many. rewrite conforms_iff.
  rewrite (single_group (s2z "source")); [|reflexivity|apply called_map; intro; eexists _, _; reflexivity]. rewrite bounds_many.
  rewrite (forall_map_iff tree_fsource _ fsource_fits). { split; [tauto|]. intro. split; [now apply none_conform|assumption]. }
  eapply Forall_impl; [|exact C]. intro. apply fsource_conforms.
Qed.
Lemma msource_conforms s : msource_carried s -> (conforms SourceType (tree_msource s) <-> msource_fits s).
Proof.
  intros (_ & _ & _ & R & _). unfold tree_msource, SourceType, one. rewrite conforms_iff, no_required by reflexivity.
  set (atts := [may "id" xs_string; may "formatId" xs_string; may "fileId" xs_unsignedInt]). assert (N : NoDup (map attribute_name atts)) by dis.
  assert (A : Forall (declared atts) (opt_attr "formatId" (ms_format s) ++ [dattr "id" (ms_id s); dattr "fileId" (ms_file_id s)]) <-> 0 <= ms_file_id s).
  { unfold is_i32 in *. rewrite Forall_app, !Forall_cons_iff. unfold dattr. rewrite (declared_iff atts (s2z "fileId") _ false xs_unsignedInt N) by inl.
    rewrite (declared_iff atts (s2z "id") _ false xs_string N) by inl. rewrite unsigned_dec. split; [intros (_ & _ & ? & _); lia|]. intros. split; [apply opt_string; [exact N|inl]|].
    split; [exact Logic.I|]. split; [lia|constructor]. }
  rewrite A. unfold msource_fits. destruct (ms_data s) as [d|].
  - split; [|intros (H & _); discriminate]. intros (_ & H). exfalso. apply sequence_iff in H as (_ & H). apply sequence_names in H.
    match type of H with Forall _ (children ([?x] ++ ?l)) => change (children ([x] ++ l)) with (x :: children l) in H end.
    inversion H as [|? ? (p & [<- | []] & (a & k & Ek)) _]; subst. discriminate.
  - cbn [app]. rewrite (single_group (s2z "tags")) by (reflexivity || apply called_text). rewrite one_text. destruct (ms_tags s) as [l|]; cbn [option_map].
    + split; [intros (? & _); repeat split; [discriminate|assumption]|]. intros (_ & _ & H). split; [exact H|]. eexists. split; [reflexivity|exact Logic.I].
    + split; [intros (_ & x & H & _); discriminate|]. intros (_ & H & _). congruence.
Qed.
Lemma metadata_conforms l : Forall msource_carried l -> (conforms MetadataType (tree_metadata l) <-> Forall msource_fits l).
Proof.
  intros C. unfold tree_metadata, MetadataType, many. rewrite conforms_iff.
  rewrite (single_group (s2z "source")); [|reflexivity|apply called_map; intro; eexists _, _; reflexivity]. rewrite bounds_many.
  rewrite (forall_map_iff tree_msource _ msource_fits). { split; [tauto|]. intro. split; [now apply none_conform|assumption]. }
  eapply Forall_impl; [|exact C]. intro. apply msource_conforms.
Qed.
(** * Files *)
Lemma location_conforms n a b : conforms LocationType (Elem n [(s2z "frame", Some (print_dec_pad 6 a)); dattr "byte" b] []) <-> 0 <= a < 2^32 /\ 0 <= b < 2^32.
Proof.
  unfold LocationType. rewrite conforms_iff, empty_iff, no_required by reflexivity.
  set (atts := [may "frame" xs_unsignedInt; may "byte" xs_unsignedInt]). assert (N : NoDup (map attribute_name atts)) by dis.
  rewrite !Forall_cons_iff. unfold dattr. rewrite (declared_iff atts (s2z "frame") _ false xs_unsignedInt N) by inl. rewrite (declared_iff atts (s2z "byte") _ false xs_unsignedInt N) by inl.
  rewrite unsigned_pad, unsigned_dec. split; [intros ((? & ? & _) & _); auto|]. intros (? & ?). repeat split; tauto || constructor.
Qed.
Lemma data_conforms f : conforms DataType (Elem (s2z "data") []
     (text_node (s2z "checksum") (f_checksum f) ++ int_node (s2z "size") (f_size f) ++
      [Elem (s2z "start") [(s2z "frame", Some (print_dec_pad 6 (f_start_frame f))); dattr "byte" (f_start_byte f)] [];
       Elem (s2z "end") [(s2z "frame", Some (print_dec_pad 6 (f_end_frame f))); dattr "byte" (f_end_byte f)] []])) <->
  f_checksum f <> None /\ 0 <= f_size f < 2^32 /\ (0 <= f_start_frame f < 2^32 /\ 0 <= f_start_byte f < 2^32) /\ (0 <= f_end_frame f < 2^32 /\ 0 <= f_end_byte f < 2^32).
Proof.
  unfold DataType, one. rewrite conforms_iff.
  rewrite (grouped _ [text_node (s2z "checksum") (f_checksum f); int_node (s2z "size") (f_size f);
     [Elem (s2z "start") [(s2z "frame", Some (print_dec_pad 6 (f_start_frame f))); dattr "byte" (f_start_byte f)] []];
     [Elem (s2z "end") [(s2z "frame", Some (print_dec_pad 6 (f_end_frame f))); dattr "byte" (f_end_byte f)] []]]);
    [|reflexivity|dis|reflexivity|rewrite !f2_cons, f2_nil; unfold int_node; repeat (split; [cald|]); exact Logic.I].
  rewrite !f2_cons, f2_nil, one_text, one_int, !bounds_one, !location_conforms, unsigned_dec. split.
  - intros (_ & (x & E & _) & H1 & H2 & H3 & _). rewrite E. split; [discriminate|]. auto.
  - intros (E & H1 & H2 & H3). split; [now apply none_conform|]. destruct (f_checksum f) as [x|]; [|congruence]. split; [exists x; split; [reflexivity|exact Logic.I]|]. auto.
Qed.
Lemma file_conforms f : file_ok f -> file_carried f -> (conforms FileType (tree_file false f) <-> file_fits f).
Proof.
  intros (V1 & V2 & V3 & V4 & V5 & V6) (C1 & C2 & C3 & C4 & C5 & R1 & R2 & R3 & R4 & R5 & R6 & R7 & Cp & Cm & _).
  unfold tree_file, FileType, one, optional. rewrite conforms_iff.
  rewrite (grouped _ [int_node (s2z "id") (f_id f); text_node (s2z "uniqueId") (f_unique_id f); text_node (s2z "name") (f_name f); text_node (s2z "date") (f_date f);
     tail_parent f; tail_data false f; tail_preview f; tail_meta f]);
    [|cbn [List.concat]; now rewrite app_nil_r|dis|reflexivity|].
  2:{ rewrite !f2_cons, f2_nil. unfold int_node, tail_parent, tail_data, tail_preview, tail_meta. repeat (split; [try (cald; fail)|]); [| | | |exact Logic.I].
      - destruct (f_parent_id f =? FILE_NO_PARENT); unfold int_node; cald.
      - destruct (digitalb f); unfold save_data_v2; cald.
      - destruct (previewedb f); [destruct (f_preview f)|]; cald.
      - destruct (fsources_of f); cald. }
  rewrite !f2_cons, f2_nil, !one_text, one_int.
  assert (A : attributes_conform [may "formatId" xs_string] (opt_attr "formatId" (f_file_format f))) by (apply no_required; [reflexivity|]; apply opt_string; [dis|inl]).
  assert (Pp : in_bounds (Part (s2z "parentId") 0 (Some 1%nat) (simple ParentIdType)) (tail_parent f) <-> -2 <= f_parent_id f).
  { unfold tail_parent, FILE_NO_PARENT. destruct (Z.eqb_spec (f_parent_id f) (-2)) as [E|E]; [split; [lia|intros _; apply bounds_opt_none]|].
    unfold int_node. now rewrite bounds_opt, simple_iff, parent_iff. }
  assert (Pd : in_bounds (Part (s2z "data") 1 (Some 1%nat) DataType) (tail_data false f) <-> digital f /\ 0 <= f_size f < 2^32 /\ 0 <= f_end_byte f).
  { unfold tail_data, digital, digitalb. destruct (Z.testbit (f_types f) 0) eqn:Dg.
    - unfold save_data_v2. rewrite bounds_one, data_conforms. destruct (V4 Dg) as (W1 & W2 & W3 & W4). unfold is_i32 in *. intuition lia.
    - split; [intro H; now apply bounds_one_none in H|]. intros (H & _). discriminate. }
  assert (Pv : in_bounds (Part (s2z "preview") 0 (Some 1%nat) PreviewType) (tail_preview f) <-> (previewed f -> forall p, f_preview f = Some p -> Forall page_fits (pages_of p))).
  { unfold tail_preview, previewed, previewedb. destruct (Z.testbit (f_types f) 1) eqn:Pr; [|split; [intros _ H; discriminate|intros _; apply bounds_opt_none]].
    destruct (V5 Pr) as (p & E & Ok). rewrite E. rewrite bounds_opt, (preview_conforms p Ok (Cp p E)). split; [intros H _ q [= <-]; exact H|intro H; exact (H eq_refl p eq_refl)]. }
  assert (Pm : in_bounds (Part (s2z "metadata") 0 (Some 1%nat) FileMetadataType) (tail_meta f) <-> Forall fsource_fits (fsources_of f)).
  { unfold tail_meta. destruct (fsources_of f) as [|s l]; [split; [constructor|intros _; apply bounds_opt_none]|]. now rewrite bounds_opt, fmetadata_conforms. }
  rewrite Pp, Pd, Pv, Pm. unfold file_fits. split.
  - intros (_ & _ & (u & Eu & _) & _ & D & P & (Dg & Sz & Eb) & Pg & M & _). rewrite Eu. split; [discriminate|]. tauto.
  - intros (U & D & P & Dg & Sz & Eb & Pg & M). split; [exact A|]. split; [apply integer_dec_any|]. split; [|split].
    + destruct (f_unique_id f) as [u|]; [exists u; split; [reflexivity|exact Logic.I]|congruence].
    + destruct V2 as (c & t & E). exists (c :: t). split; [exact E|exact Logic.I].
    + tauto.
Qed.
Lemma reel_conforms r : reel_ok r -> reel_carried r -> (conforms ReelType (tree_reel r) <-> reel_fits r).
Proof.
  intros (V1 & V2) (C1 & (C2 & _) & _). unfold tree_reel, ReelType, one. rewrite conforms_iff.
  rewrite (grouped _ [text_node (s2z "id") (r_id r); tail_files r]);
    [|cbn [List.concat]; now rewrite app_nil_r|dis|reflexivity|rewrite !f2_cons, f2_nil; unfold tail_files; repeat split; [cald|destruct (r_files r); cald]].
  rewrite !f2_cons, f2_nil. unfold reel_fits, tail_files.
  assert (Ff : Forall (conforms FileType) (map (tree_file false) (files_of r)) <-> Forall file_fits (files_of r)).
  { apply forall_map_iff. rewrite Forall_forall in *. intros f I. apply file_conforms; auto. }
  destruct (r_files r) as [v|] eqn:Er.
  - rewrite bounds_one. unfold tree_files at 1. unfold FilesType at 1, some at 1. rewrite conforms_iff.
    rewrite (single_group (s2z "file")); [|reflexivity|apply called_map; intro; eexists _, _; reflexivity]. rewrite bounds_some, Ff. split.
    + intros (_ & _ & (_ & N & F) & _). split; [intro E; rewrite E in N; now apply N|exact F].
    + intros (N & F). split; [now apply none_conform|]. split; [now apply some_text|]. split; [|exact Logic.I]. split; [now apply none_conform|]. split; [|exact F].
      destruct (files_of r); [congruence|discriminate].
  - split; [intros (_ & _ & H & _); now apply bounds_one_none in H|]. intros (N & _). exfalso. apply N. unfold files_of. now rewrite Er.
Qed.
Lemma toc_conforms t : toc_is_valid t = true -> toc_carried t -> (conforms IndexType (tree_toc t) <-> toc_fits t).
Proof.
  intros Vt Ct. destruct (toc_parts_of t Ct Vt) as ((_ & L1 & R1) & V1 & V2 & V3 & V4). destruct Ct as (C1 & C2 & C3 & C4 & (C5 & _) & (C6 & _) & Sh).
  assert (V7 : Forall layout_whole (layouts_of t)).
  { destruct (layouts_of t) eqn:E; [constructor|]. destruct L1 as (L1 & _); [discriminate|]. cbn [layout_defs_is_valid vec_list] in L1. rewrite forallb_forall in L1.
    apply Forall_forall. intros d I. now apply layout_valid_whole, L1. }
  assert (V5 : Forall reel_ok (reels_of t)).
  { destruct (reels_of t) eqn:E; [constructor|]. destruct R1 as (R1 & _); [discriminate|]. unfold reels_is_valid in R1.
    assert (R3 : forallb reel_is_valid (r :: l) = true).
    { destruct (reels_count _ =? 0) eqn:Z0; [|exact R1]. exfalso. unfold reels_count, vec_size, vec_list in Z0. rewrite u32_small in Z0 by (destruct Sh as (_ & _ & Sh); unfold short in Sh; lia). cbn [List.length] in Z0. lia. }
    rewrite forallb_forall in R3. rewrite Forall_forall in *. intros x I. destruct (C6 x I) as (_ & (K & _) & K2). apply reel_valid_iff; [|now apply R3]. split; [exact K2|].
    eapply Forall_impl; [|exact K]. intros f K3. unfold file_small, small. apply K3. }
  clear L1 R1. unfold tree_toc, IndexType, one, optional. rewrite conforms_iff, no_required by reflexivity.
  rewrite (grouped _ [text_node (s2z "indexType") (t_index_type t); text_node (s2z "jobId") (t_job_id t); text_node (s2z "reelId") (t_reel_id t); tail_md t; tail_ld t; tail_rl t]);
    [|cbn [List.concat]; now rewrite app_nil_r, <- !app_assoc|dis|reflexivity|].
  2:{ rewrite !f2_cons, f2_nil. unfold tail_md, tail_ld, tail_rl. repeat (split; [try (cald; fail)|]); [| | |exact Logic.I].
      - destruct (msources_of t); cald.
      - destruct (layouts_of t); cald.
      - destruct (reels_of t); cald. }
  rewrite !f2_cons, f2_nil.
  assert (Pt : in_bounds (Part (s2z "indexType") 1 (Some 1%nat) (simple xs_string)) (text_node (s2z "indexType") (t_index_type t))).
  { apply one_text. destruct V4 as [E|E]; rewrite E; eexists; (split; [reflexivity|exact Logic.I]). }
  assert (A : Forall (declared [may "version" VersionType]) (opt_attr "version" (t_version t)) <-> exists v, t_version t = Some v /\ VersionType v).
  { destruct V1 as (c & l & E). rewrite E. cbn [opt_attr]. rewrite Forall_cons_iff. rewrite (declared_iff _ (s2z "version") _ false VersionType) by (dis || inl).
    split; [intros (H & _); eauto|]. intros (v & [= <-] & H). split; [exact H|constructor]. }
  assert (Pm : in_bounds (Part (s2z "metadata") 0 (Some 1%nat) MetadataType) (tail_md t) <-> Forall msource_fits (msources_of t)).
  { unfold tail_md. destruct (msources_of t) as [|s l]; [split; [constructor|intros _; apply bounds_opt_none]|]. now rewrite bounds_opt, metadata_conforms. }
  assert (Pl : in_bounds (Part (s2z "layoutDefinitions") 1 (Some 1%nat) LayoutDefinitionsType) (tail_ld t) <-> layouts_of t <> []).
  { unfold tail_ld. destruct (layouts_of t) as [|s l]; [split; [intro H; now apply bounds_one_none in H|congruence]|]. rewrite bounds_one. split; [discriminate|]. intros _. now apply layouts_conform. }
  assert (Pr : in_bounds (Part (s2z "reels") 1 (Some 1%nat) ReelsType) (tail_rl t) <-> reels_of t <> [] /\ Forall reel_fits (reels_of t)).
  { assert (Fr : Forall (conforms ReelType) (map tree_reel (reels_of t)) <-> Forall reel_fits (reels_of t)).
    { apply forall_map_iff. rewrite Forall_forall in *. intros r I. apply reel_conforms; auto. }
    unfold tail_rl. destruct (reels_of t) as [|s l] eqn:Er; [split; [intro H; now apply bounds_one_none in H|intros (H & _); congruence]|]. rewrite bounds_one.
    unfold tree_reels, ReelsType, some. rewrite conforms_iff. rewrite (single_group (s2z "reel")); [|reflexivity|apply called_map; intro; eexists _, _; reflexivity].
    rewrite bounds_some, Fr. split; [intros (_ & _ & F); split; [discriminate|exact F]|]. intros (_ & F). split; [now apply none_conform|]. split; [discriminate|exact F]. }
  rewrite A, Pm, Pl, Pr. unfold toc_fits. split; [tauto|]. intros (Vs & L & R & M & F). split; [exact Vs|]. split; [exact Pt|].
  split; [now apply some_text|]. split; [now apply some_text|]. tauto.
Qed.
