(** C73: the documents that are saved, against the published XML schemas. *)
From Verif Require Import CBase CBaseProofs XmlModel SpecXml SpecGrammar SpecForeign SpecSchema SpecSchema2 SchemaProofs SchemaProofs2 SchemaProofs3 SchemaProofs4 XmlTermProofs XmlProofs XmlRound GrammarProofs ForeignProofs WrittenProofs WrittenProofs2
  TocModel SpecToc ValidProofs TocXmlModel TocXmlBase SpecTocXml TocXmlProofs TocXmlProofs2 TocXmlProofs3 TocXmlProofs4 TocXmlProofs5 WsModel WsProofs WriterModel WriterProofs WriterProofs2 WriterProofs3
  ControlModel SpecControl ControlProofs ControlProofs2 PropTocXml PropWritten.
Import SpecXml SpecForeign.

(** Which tables of contents are saved as documents that the published schemas accept, compact or indented. *)
Theorem C73_toc_exact t : toc_is_valid t = true -> toc_carried t ->
  forall compact, exists s, toc_to_string t compact = Ok (Some s) /\ (schema_document s <-> toc_fits t).
Proof.
  intros V C compact. destruct (toc_like t V C compact) as (s & E & K). exists s. split; [exact E|]. rewrite K. now apply toc_conforms.
Qed.
(** The same for a file entry. *)
Theorem C73_file_exact f : file_is_valid f = true -> file_carried f ->
  forall compact, exists s, file_to_string false f compact = Ok (Some s) /\ (schema_document s <-> file_fits f).
Proof.
  intros V C compact. destruct (file_like false f V C compact) as (s & E & K). exists s. split; [exact E|]. rewrite K. apply file_conforms; [|exact C].
  apply (file_valid_iff f); [apply C|exact V].
Qed.
(** The old form of a file entry is never accepted. *)
Lemma sequence_required ps l : in_sequence ps l -> forall n lo hi t, In (Part n (S lo) hi t) ps -> exists k, In k l /\ called n k.
Proof.
  induction 1 as [|n lo hi t ps l1 l2 Lo Hi O _ IH]; intros n' lo' hi' t' I; [contradiction|]. destruct I as [E|I].
  - injection E as -> -> -> ->. apply occurrences_iff in O as (O & _). destruct l1 as [|k l1]; [cbn in Lo; lia|]. inversion O; subst. exists k. split; [now left|assumption].
  - destruct (IH n' lo' hi' t' I) as (k & J & K). exists k. split; [apply in_or_app; now right|exact K].
Qed.
Definition named_other (n : cstr) (k : node) : Prop := match k with Elem m _ _ => str_eqb m n = false | Opaque _ => True end.
Lemma missing_part n lo hi t ps atts m a ks : In (Part n (S lo) hi t) ps -> Forall (named_other n) ks -> ~ conforms (EType atts (Sequence ps)) (Elem m a ks).
Proof.
  intros I F H. apply conforms_iff in H as (_ & H). apply sequence_iff in H as (_ & H). destruct (sequence_required _ _ H _ _ _ _ I) as (k & J & (b & l & ->)).
  rewrite Forall_forall in F. unfold children in J. apply filter_In in J as (J & _). specialize (F _ J). cbn in F. assert (str_eqb n n = true) by now apply str_eqb_eq. congruence.
Qed.
Ltac others := repeat first [apply Forall_app; split | apply Forall_nil | apply Forall_cons; [reflexivity|]].
Lemma others_text n m s : str_eqb m n = false -> Forall (named_other n) (text_node m s).
Proof. intro H. destruct s; repeat constructor. exact H. Qed.
Theorem C73_old_form_refuted f : file_is_valid f = true -> file_carried f ->
  forall compact, exists s, file_to_string true f compact = Ok (Some s) /\ ~ schema_document s.
Proof.
  intros V C compact. destruct (file_like true f V C compact) as (s & E & K). exists s. split; [exact E|]. rewrite K.
  unfold FileType. apply (missing_part (s2z "data") 0 (Some 1%nat) DataType); [unfold one; do 5 right; now left|].
  unfold tail_parent, tail_data, tail_preview, tail_meta, save_data_v1, int_node. others; try (apply others_text; reflexivity).
  - destruct (_ =? _); others.
  - destruct (digitalb f); others.
  - destruct (previewedb f); [destruct (f_preview f)|]; others.
  - destruct (fsources_of f); others.
Qed.
Print Assumptions C73_toc_exact.
Print Assumptions C73_file_exact.
Print Assumptions C73_old_form_refuted.
(** Ordinary valid objects that are saved without complaint as documents the schemas refuse: files that have no digital data,
    that are larger than 4 GiB, whose pages name their layout with a word (as the schema's own example does), or that have no
    unique id; tables of contents with inline metadata, without layouts, without reels. *)
Theorem C73_files_refuted f : file_is_valid f = true -> file_carried f ->
  ~ digital f \/ 2^32 <= f_size f \/ f_unique_id f = None \/
  (previewed f /\ exists p g l, f_preview f = Some p /\ In g (pages_of p) /\ pg_layout_id g = Some l /\ ~ xs_unsignedInt l) ->
  forall compact, exists s, file_to_string false f compact = Ok (Some s) /\ ~ schema_document s.
Proof.
  intros V C H compact. destruct (C73_file_exact f V C compact) as (s & E & K). exists s. split; [exact E|]. rewrite K. intros (U & _ & _ & Dg & Sz & _ & Pg & _).
  destruct H as [H|[H|[H|(Pr & p & g & l & Ep & I & El & H)]]]; [contradiction|lia|contradiction|].
  specialize (Pg Pr p Ep). rewrite Forall_forall in Pg. destruct (Pg g I) as (l' & El' & Hl). congruence.
Qed.
Theorem C73_tocs_refuted t : toc_is_valid t = true -> toc_carried t ->
  layouts_of t = [] \/ reels_of t = [] \/ (exists s, In s (msources_of t) /\ (ms_data s <> None \/ ms_tags s = None)) \/
  (exists r, In r (reels_of t) /\ (files_of r = [] \/ exists f, In f (files_of r) /\ ~ file_fits f)) ->
  forall compact, exists s, toc_to_string t compact = Ok (Some s) /\ ~ schema_document s.
Proof.
  intros V C H compact. destruct (C73_toc_exact t V C compact) as (s & E & K). exists s. split; [exact E|]. rewrite K. intros (_ & L & R & M & F). rewrite Forall_forall in M, F.
  destruct H as [H|[H|[(x & I & H)|(r & I & H)]]]; [contradiction|contradiction| |].
  - destruct (M x I) as (D & T & _). destruct H; contradiction.
  - destruct (F r I) as (N & Ff). rewrite Forall_forall in Ff. destruct H as [H|(f & If & H)]; [contradiction|]. apply H. auto.
Qed.
Print Assumptions C73_files_refuted.
Print Assumptions C73_tocs_refuted.
(** What is saved as administrative and technical metadata is of none of the published types, whatever is taken as a date and
    as the type of the entries of Tocs: no JobId is ever written, and a class has a key, which is not declared. *)
Theorem C73_control_refuted dateTime ns_file :
  (forall a k, fst (save_admin (Some a)) = [k] -> ~ conforms (AdministrativeMetadataType dateTime) k) /\
  (forall t k, tech_carried t -> fst (save_tech (Some t)) = [k] -> ~ conforms (TechnicalMetadataType ns_file) k).
Proof.
  split.
  - intros a k E. assert (k = tree_admin a) as -> by (symmetry; now injection E). unfold AdministrativeMetadataType, tree_admin.
    apply (missing_part (s2z "JobId") 0 (Some 1%nat) (simple xs_string)); [unfold one; do 2 right; now left|].
    unfold admin_tags. cbn [flat_map fst snd]. others; apply others_text; reflexivity.
  - intros t k ((f & Ef & Cf) & C1 & C2) E. rewrite (save_tech_ok t f Ef C1 C2) in E. injection E as <-. intro H. unfold TechnicalMetadataType, tree_tech in H.
    apply conforms_iff in H as (_ & H). apply sequence_iff in H as (_ & H).
    assert (B : conforms BoxerFormatType (tree_boxer f)).
    { inversion H as [|n lo hi ty ps l1 l2 Lo Hi O Sq Ep El]; subst. apply occurrences_iff in O as (_ & O). destruct l1 as [|x l1]; [cbn in Lo; lia|]. injection El as -> _. now inversion O. }
    unfold BoxerFormatType, tree_boxer in B. destruct (bf_config f) as [c|] eqn:Ec; unfold tree_format in B; rewrite Ec in B.
    + apply conforms_iff in B as (_ & B). unfold save_config, one in B. apply single_group in B; [|reflexivity|cald]. apply bounds_one in B. unfold BoxingFormatType, some in B.
      apply conforms_iff in B as (_ & B). apply single_group in B; [|reflexivity|apply called_map; intro; eexists _, _; reflexivity]. apply bounds_some in B as (N & F).
      destruct (cf_groups c) as [|g l]; [now apply N|]. inversion F as [|? ? G _]; subst. unfold save_class, ClassType in G. apply conforms_iff in G as ((G & _) & _).
      destruct (G (s2z "key") (Some (fst g)) ltac:(now left)) as (r & p & x & [] & _).
    + revert B. apply (missing_part (s2z "work") 0 (Some 1%nat) BoxingFormatType); [now left|]. others.
Qed.
Print Assumptions C73_control_refuted.
(** * The example that the schema itself gives (xsd/tocdata.xsd 10-84), shortened to its first two files: the schemas accept it, the library
    does not load it, because its metadata source has no id. *)
Definition leaf (n : String.string) (s : String.string) : node := Elem (s2z n) [] [Opaque (s2z s)].
Definition attribute_list (l : list (String.string * String.string)) : list (cstr * option cstr) := map (fun p => (s2z (fst p), Some (s2z (snd p)))) l.
Definition published_data (checksum size f1 b1 f2 b2 : String.string) : node :=
  Elem (s2z "data") [] [leaf "checksum" checksum; leaf "size" size;
    Elem (s2z "start") (attribute_list [("frame", f1); ("byte", b1)]%string) []; Elem (s2z "end") (attribute_list [("frame", f2); ("byte", b2)]%string) []].
Definition published_section (i x : String.string) : node :=
  Elem (s2z "section") (attribute_list [("id", i); ("x", x); ("y", "0"); ("w", "1646"); ("h", "2092"); ("rotation", "0")]%string) [].
Definition published_sources (with_id : bool) : node :=
  Elem (s2z "metadata") []
    [Elem (s2z "source") (attribute_list ((if with_id then [("id", "0")%string] else []) ++ [("formatId", "afs/metadata-csv")%string; ("fileId", "4")%string])) [leaf "tags" "filename;description;Year;Country"]].
Definition published_example (with_id : bool) : node :=
  Elem (s2z "Index") (attribute_list [("version", "1.0.1")]%string)
   [leaf "indexType" "job"; leaf "jobId" "FDA45D47-A689-40B0-BE48-E8FBA15137BF"; leaf "reelId" "3607F2D8-77C7-4ECC-AC5F-2CADCB099606";
    published_sources with_id;
    Elem (s2z "layoutDefinitions") [] [Elem (s2z "previewLayout") [] [leaf "id" "B"; leaf "name" "TOC-LAYOUT"; Elem (s2z "sections") [] [published_section "0" "400"; published_section "1" "2228"]]];
    Elem (s2z "reels") [] [Elem (s2z "reel") [] [leaf "id" "3607F2D8-77C7-4ECC-AC5F-2CADCB099606";
      Elem (s2z "files") [] [
        Elem (s2z "file") (attribute_list [("formatId", "afs/tar-gnu")]%string)
         [leaf "id" "0"; leaf "uniqueId" "73B81929-F327-4C0F-AB8E-96A21BA8C699"; leaf "name" "tar.tar"; leaf "date" "2017-07-07 14:05:58"; leaf "parentId" "-1";
          published_data "0a9b69d223ab5a0bdb73b3cac684a066b64eac19" "10240" "000003" "0" "000202" "10239"];
        Elem (s2z "file") (attribute_list [("formatId", "afs/metadata-xml")]%string)
         [leaf "id" "1"; leaf "uniqueId" "A8AE0115-1CEA-43B7-955E-33A28F0C3AFC"; leaf "name" "file.xml"; leaf "date" "2017-07-07 14:05:58"; leaf "parentId" "0";
          published_data "1e6a5c028a9d5d4aae71f210da3e1d02bdd6958c" "49" "000003" "0" "000202" "48";
          Elem (s2z "metadata") [] [Elem (s2z "source") (attribute_list [("fileId", "4")]%string) [Elem (s2z "data") (attribute_list [("formatId", "afs/metadata-csv")]%string) [Opaque (s2z "file.xml;File Metadata;1999;Norway")]]]]]]]].
Definition has_name (n : cstr) (k : node) : bool := match k with Elem m _ _ => str_eqb m n | Opaque _ => false end.
Definition groups_by (ps : list particle) (ks : list node) : list (list node) := map (fun p => filter (has_name (part_name p)) ks) ps.
Lemma has_called n k : has_name n k = true -> called n k.
Proof. destruct k as [m a ks|]; [|discriminate]. cbn. intro H. apply str_eqb_eq in H as ->. now exists a, ks. Qed.
Lemma by_groups ps ks : ks = List.concat (groups_by ps ks) -> distinct (map part_name ps) = true -> forallb (fun p => negb (is_markup_name (part_name p))) ps = true ->
  Forall2 in_bounds ps (groups_by ps ks) -> content_conforms (Sequence ps) ks.
Proof.
  intros E N B F. apply (grouped ps (groups_by ps ks)); [exact E|now apply distinct_NoDup|exact B| |exact F].
  clear. unfold groups_by. induction ps as [|p ps IH]; constructor; [|exact IH]. apply Forall_forall. intros k I. apply filter_In in I as (_ & I). now apply has_called.
Qed.
Lemma unsigned_by s z : integer_value s = Some z -> 0 <= z < 2^32 -> xs_unsignedInt s. Proof. intros H R. exists z. auto. Qed.
Lemma attributes_by atts a : Forall (declared atts) a -> forallb (fun t : attribute => implb (snd (fst t)) (existsb (fun b => str_eqb (fst b) (fst (fst t))) a)) atts = true -> attributes_conform atts a.
Proof.
  intros F R. apply attributes_iff. split; [exact F|]. intros n p I. rewrite forallb_forall in R. specialize (R _ I). cbn in R. apply existsb_exists in R as ((m, v) & J & E). apply str_eqb_eq in E. cbn in E. subst m. eauto.
Qed.
Lemma digits_by n s : Nat.eqb (List.length s) n && forallb digitp s = true -> n_digits n s.
Proof. intro H. apply andb_prop in H as (L & F). split; [now apply Nat.eqb_eq|]. apply Forall_forall. now apply forallb_forall. Qed.
Lemma published_date : DateType (s2z "2017-07-07 14:05:58").
Proof.
  exists [], (s2z "2017-07-07"), (s2z " 14:05:58"), []. split; [reflexivity|]. split; [constructor|]. split; [|split; [right|constructor]].
  - exists (s2z "2017"), (s2z "-"), (s2z "07"), (s2z "-"), (s2z "07"). split; [reflexivity|]. split; [now right|]. split; [now right|]. right.
    split; [now apply digits_by|]. split; now apply digits_by.
  - exists (s2z "14"), (s2z " "), (s2z "05"), (s2z "58"). split; [reflexivity|]. split; [now left|]. split; [now apply digits_by|]. split; now apply digits_by.
Qed.
Lemma published_version : VersionType (s2z "1.0.1").
Proof.
  assert (O : one_char (s2z ".")) by (exists 46; split; [unfold good_cp; lia|]; split; [lia|]; split; [lia|reflexivity]).
  exists (s2z "1"), (s2z "."), (s2z "0"), (s2z "."), (s2z "1"). split; [reflexivity|]. split; [repeat constructor|]. split; [exact O|]. split; [repeat constructor|]. split; [exact O|repeat constructor].
Qed.
Lemma parent_by z : -2 <= z -> ParentIdType (print_dec z). Proof. apply parent_iff. Qed.
Ltac simple_by := first [exact Logic.I | exact published_date | exact published_version | (eapply unsigned_by; [vm_compute; reflexivity|lia]) | (vm_compute; discriminate)
  | exact (parent_by (-1) ltac:(lia)) | exact (parent_by 0 ltac:(lia))].
Ltac attr_by := apply attributes_by; [repeat (apply Forall_cons; [eexists _, _, _; split; [cbn [fst]; inl|split; [reflexivity|simple_by]]|]); apply Forall_nil|vm_compute; reflexivity].
Ltac bounds_by := split; [cbn; lia|split; [let m := fresh in let H := fresh in intros m H; first [discriminate H | injection H as <-; cbn; lia]|]].
Ltac conform := unfold simple; apply conforms_elem; [attr_by|first
  [ apply conforms_text; [reflexivity|cbn [text_in flat_map own_text app]; simple_by]
  | apply conforms_empty; reflexivity
  | apply by_groups; [vm_compute; reflexivity|vm_compute; reflexivity|vm_compute; reflexivity|
      (match goal with |- Forall2 _ ?ps (groups_by ?ps ?ks) => let g := eval vm_compute in (groups_by ps ks) in change (groups_by ps ks) with g end);
      repeat (apply Forall2_cons; [unfold one, optional, many, some, in_bounds; bounds_by; repeat (apply Forall_cons; [conform|]); apply Forall_nil|]); apply Forall2_nil]]].
Lemma published_conforms b : conforms IndexType (published_example b).
Proof. destruct b; conform. Qed.
Ltac wfs := first
  [ apply wf_leaf; [name|wf_attributes]
  | apply wf_text; [name|wf_attributes|discriminate|apply ascii_by; vm_compute; reflexivity]
  | apply wf_elems; [name|wf_attributes|repeat (apply Forall_cons; [wfs|]); apply Forall_nil] ]
with wf_attributes := split; [apply distinct_NoDup; vm_compute; reflexivity|
  repeat (apply Forall_cons; [split; [name|eexists; split; [reflexivity|apply ascii_by; vm_compute; reflexivity]]|]); apply Forall_nil].
Lemma published_wf b : wf (published_example b).
Proof. destruct b; unfold published_example, published_sources, published_section, published_data, leaf, attribute_list; cbn [map fst snd app]; wfs. Qed.
(** Both are accepted by the schemas; only the one with an id is loaded. *)
Theorem C73_published_example_refuted split t0 : forall with_id (nl : bool),
  let s := save_text no_ws nl (new_xml [published_example with_id]) in
  schema_document s /\ exists o, load_object (load_toc split t0) s = Ok o /\ (o <> None <-> with_id = true).
Proof.
  intros b nl s. assert (D : document s (new_xml [published_example b])) by exact (C72_writes_exactly [published_example b] nl (Forall_cons _ (published_wf b) (Forall_nil _)) ltac:(discriminate)).
  split; [|].
  - exists (new_xml [published_example b]), (published_example b). split; [exact D|]. split; [reflexivity|]. left. split; [reflexivity|apply published_conforms].
  - rewrite (document_load _ _ _ D). eexists. split; [reflexivity|]. destruct b.
    + split; [reflexivity|]. intros _. vm_compute. discriminate.
    + split; [|discriminate]. intro H. exfalso. apply H. vm_compute. reflexivity.
Qed.
Print Assumptions C73_published_example_refuted.
(** * Witnesses *)
Definition fit_preview : preview := mkPreview (Some [mkPage (Some (s2z "1")) 12 1 3 100 200 5 6]) 300.
Definition fit_file : toc_file :=
  mkFile ex_name (Some (s2z "2024-02-29T10:00:00")) (Some (s2z "da39a3ee")) 400000 7 20 100 25 4095 (Some (s2z "urn:1")) (-1) 3
         (Some fit_preview) (Some (s2z "PDF/A")) (Some (Some [mkFsource (Some (s2z "<dc:title>x & y</dc:title>")) (Some (s2z "dc")) 3 4])).
Definition fit_reel : reel := mkReel (Some (s2z "reel-7")) (Some (Some [fit_file; fit_file])).
Definition fit_toc : toc_data :=
  mkToc (Some (s2z "1.0.1")) (Some (s2z "reel")) (Some (s2z "job 1")) (Some (s2z "reel-7")) (Some (Some [fit_reel]))
        (Some (Some [mkMsource (Some (s2z "dc")) 1 4 None (Some [s2z "music"; s2z "old times"])])) (Some (Some ex_layouts)).
Lemma fit_date : DateType (s2z "2024-02-29T10:00:00").
Proof.
  exists [], (s2z "2024-02-29"), (s2z "T10:00:00"), []. split; [reflexivity|]. split; [constructor|]. split; [|split; [right|constructor]].
  - exists (s2z "2024"), (s2z "-"), (s2z "02"), (s2z "-"), (s2z "29"). split; [reflexivity|]. split; [now right|]. split; [now right|]. right.
    split; [now apply digits_by|]. split; now apply digits_by.
  - exists (s2z "10"), (s2z "T"), (s2z "00"), (s2z "00"). split; [reflexivity|]. split; [now right|]. split; [now apply digits_by|]. split; now apply digits_by.
Qed.
Lemma fit_file_carried : file_carried fit_file.
Proof.
  unfold file_carried, fit_file; cbn [f_name f_date f_checksum f_size f_id f_start_frame f_start_byte f_end_frame f_end_byte f_unique_id f_parent_id f_types f_preview f_file_format f_metadata fsources_of].
  split; [apply ex_name_text|]. do 4 (split; [atext|]). repeat (split; [unfold is_i32, is_i64; lia|]). split.
  - intros p E. injection E as <-. split; [|unfold is_i32; cbn; lia]. constructor; [|constructor]. split; [atext|]. repeat split; unfold is_u32; cbn; lia.
  - split; [|unfold short; cbn; lia]. constructor; [|constructor]. split; [apayload|]. split; [atext|]. split; unfold is_i32; cbn; lia.
Qed.
Lemma fit_file_fits : file_fits fit_file.
Proof.
  split; [discriminate|]. split; [eexists; split; [reflexivity|exact fit_date]|]. cbn [fit_file f_parent_id f_size f_end_byte]. split; [lia|]. split; [reflexivity|]. split; [lia|]. split; [lia|]. split.
  - intros _ p E. injection E as <-. constructor; [|constructor]. eexists. split; [reflexivity|]. exists 1. split; [reflexivity|lia].
  - constructor; [|constructor]. split; [discriminate|]. cbn [fs_file_id fs_source_id]. lia.
Qed.
Example C73_witness : toc_is_valid fit_toc = true /\ toc_carried fit_toc /\ toc_fits fit_toc.
Proof.
  split; [vm_compute; reflexivity|]. split.
  - split; [atext|]. split; [atext|]. split; [atext|]. split.
    { constructor; [|constructor]. split; [atext|]. split; [intros x E; discriminate E|]. split; [unfold is_i32; cbn; lia|]. split; [unfold is_i32; cbn; lia|]. intros l E. injection E as <-. apply ascii_by. reflexivity. }
    split; [apply ex_layouts_carried|]. split; [|repeat split; unfold short; cbn; lia]. split.
    + constructor; [|constructor]. split; [atext|]. split; [|unfold short; cbn; lia]. split; (constructor; [|constructor; [|constructor]]); try apply fit_file_carried; split; intros x E; injection E as <-; discriminate.
    + constructor; [|constructor]. intros x E; injection E as <-; discriminate.
  - split; [eexists; split; [reflexivity|exact published_version]|]. split; [discriminate|]. split; [discriminate|]. split.
    + constructor; [|constructor]. split; [reflexivity|]. split; [discriminate|]. cbn [ms_file_id]. lia.
    + constructor; [|constructor]. split; [discriminate|]. constructor; [exact fit_file_fits|]. constructor; [exact fit_file_fits|constructor].
Qed.
(** The objects of the witnesses of C17 and C22 are among those that do not fit. *)
Example C73_refuted_witness : file_is_valid ex_file = true /\ file_carried ex_file /\ 2^32 <= f_size ex_file /\
  toc_is_valid ex_toc = true /\ toc_carried ex_toc /\ exists s, In s (msources_of ex_toc) /\ ms_data s <> None.
Proof.
  destruct C22_witness as (_ & V & C & _). split; [reflexivity|]. split; [exact ex_file_carried|]. split; [cbn; lia|]. split; [exact V|]. split; [exact C|].
  exists ex_msource. split; [now left|discriminate].
Qed.
