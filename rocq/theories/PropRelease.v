(** C75: what the save and load functions open and build, and what becomes of it. *)
From Verif Require Import CBase XmlEntity XmlModel TocModel ValidProofs TocXmlModel SpecTocXml ControlModel WsModel FileModel WriterModel LoadModel SpecRelease ResourceModel ReleaseProofs SpecXml FileProofs PropXml.

(** * The runs compute what the other properties speak of. *)
(** A save of an object, and a load into one. *)
Definition saving (ok : bool) saved ws compact nl can_open d name : call unit :=
  mkCall ok saved ws compact nl can_open d name [] (fun u _ => (u, false)) tt.
Definition loading {A} (into : A -> node -> A * bool) (a : A) can_open d name text : call A :=
  mkCall true ([], false) (guarded no_ws) true true can_open d name text into a.
Definition file_result {A} (r : outcome (state A)) : outcome (disk * bool) := obind r (fun s => Ok (s_disk s, s_ret s)).
Definition string_result {A} (r : outcome (state A)) : outcome (option cstr) := obind r (fun s => Ok (s_string s)).
Definition load_result {A} (r : outcome (state A)) : outcome (A * bool) := obind r (fun s => Ok (s_object s, s_ret s)).

#[local] Opaque write_checked part_text load_bytes load_string write_file.
Lemma declared k cb nl : save_indented true (k, true) cb nl <> Ok None.
Proof. unfold save_indented. cbn [snd fst]. destruct (write_checked cb [] (new_xml k)); cbn; congruence. Qed.
#[local] Opaque save_indented.
Ltac settle_text := match goal with
  | |- context [save_indented true (?k, true) ?cb ?nl] => pose proof (declared k cb nl); destruct (save_indented true (k, true) cb nl) as [[?|]|]; cbn; congruence
  | |- context [part_text ?p ?cb ?k] => destruct (part_text p cb k); reflexivity
  end.
Ltac same_file := unfold file_result; cbn; try reflexivity; settle_text.
Lemma tree_first_store ok saved ws compact nl op d name (c := saving ok saved ws compact nl op d name) :
  file_result (exec_all false c tree_first (start c)) = store OpenFirst ok saved ws compact nl op d name.
Proof. subst c. destruct ok, op, saved as (k, []); same_file. Qed.
Lemma saved_first_store ok saved ws compact nl op d name (c := saving ok saved ws compact nl op d name) :
  file_result (exec_all false c saved_first (start c)) = store BuildFirst ok saved ws compact nl op d name.
Proof. subst c. destruct ok, op, saved as (k, []); same_file. Qed.
Lemma file_first_store ok saved ws compact nl op d name (c := saving ok saved ws compact nl op d name) :
  file_result (exec_all false c file_first (start c)) = store OpenFirst ok saved ws compact nl op d name.
Proof. subst c. destruct ok, op, saved as (k, []); same_file. Qed.
Lemma fsource_store ok saved ws compact nl op d name :
  file_result (run_save_file KFsource (saving ok saved ws compact nl op d name)) = store OpenFirst ok saved ws compact nl op d name.
Proof. destruct ok, op, saved as (k, []); same_file. Qed.
Lemma whole_string p ok saved ws compact nl op d name (c := saving ok saved ws compact nl op d name) :
  string_result (exec_all false c (whole_of p) (start c)) = as_string p ok saved ws compact.
Proof. subst c. destruct ok, saved as (k, []); unfold string_result; cbn; try reflexivity; settle_text. Qed.
Lemma loose_string ok saved ws compact nl op d name (c := saving ok saved ws compact nl op d name) :
  string_result (exec_all false c [Check; NewDocument; SaveXml []; SaveString Whole; Do Delete] (start c)) = as_string Whole ok saved ws compact.
Proof. subst c. destruct ok, saved as (k, []); unfold string_result; cbn; try reflexivity; settle_text. Qed.

(** The bodies are those of the functions modelled in FileModel.v, WriterModel.v and LoadModel.v: same
    disk and result, same string, same object. *)
Theorem C75_same_files compact nl op d name :
  let by_file k ok saved ws := file_result (run_save_file k (saving ok saved ws compact nl op d name)) in
  (forall x, by_file KSection (section_is_valid x) (save_section x) (guarded ws_section) = section_to_file x compact nl op d name) /\
  (forall x, by_file KSections (sections_is_valid (Some x)) (save_sections (Some x)) (guarded ws_sections) = sections_to_file x compact nl op d name) /\
  (forall x, by_file KLayout true (save_layout_def x) (guarded ws_layout) = layout_to_file x compact nl op d name) /\
  (forall x, by_file KLayouts (layout_defs_is_valid (Some x)) (save_layout_defs (Some x)) (guarded ws_layouts) = layouts_to_file x compact nl op d name) /\
  (forall x, by_file KPage true (save_page x) (guarded ws_page) = page_to_file x compact nl op d name) /\
  (forall x, by_file KPreview true (save_preview (Some x)) (guarded ws_preview) = preview_to_file x compact nl op d name) /\
  (forall x, by_file KFsource (fsource_is_valid x) (save_fsource x) (guarded ws_fsource) = fsource_to_file x compact nl op d name) /\
  (forall x, by_file KFmetadata true (save_fmetadata (Some x)) (guarded ws_fmetadata) = fmetadata_to_file x compact nl op d name) /\
  (forall x, by_file KMsource (msource_is_valid x) (save_msource x) (guarded ws_msource) = msource_to_file x compact nl op d name) /\
  (forall x, by_file KMetadata true (save_metadata (Some x)) (guarded ws_metadata) = metadata_to_file x compact nl op d name) /\
  (forall v1 x, by_file KFile true (save_file v1 x) ws_file = file_to_file v1 x compact nl op d name) /\
  (forall x, by_file KFiles true (save_files (Some x)) ws_files = files_to_file x compact nl op d name) /\
  (forall x, by_file KReel (reel_is_valid x) (save_reel x) (guarded ws_reel) = reel_to_file x compact nl op d name) /\
  (forall x, by_file KReels true (save_reels (Some x)) (guarded ws_reels) = reels_to_file x compact nl op d name) /\
  (forall x, by_file KToc (toc_is_valid x) (save_toc x) (guarded ws_toc_data) = toc_to_file x compact nl op d name) /\
  (forall x, by_file KAdmin true (save_admin (Some x)) (guarded ws_administrative) = admin_to_file x compact nl op d name) /\
  (forall x, by_file KTech (match te_tocs x, te_format x with Some _, Some _ => true | _, _ => false end) (save_tech (Some x)) (guarded ws_technical) = tech_to_file x compact nl op d name) /\
  (forall x, by_file KControl (match cd_admin x, cd_tech x with Some _, Some _ => true | _, _ => false end) (save_control x) ws_control = control_to_file x compact nl op d name) /\
  (forall x, by_file KFormat true (save_format (Some x)) (guarded ws_format) = format_to_file x compact nl op d name).
Proof.
  cbv zeta. repeat match goal with |- _ /\ _ => split end; intros;
    first [apply tree_first_store | apply saved_first_store | apply file_first_store | apply fsource_store].
Qed.
Print Assumptions C75_same_files.
Theorem C75_same_strings compact nl op d name :
  let by_string k ok saved ws := string_result (run_save_string k (saving ok saved ws compact nl op d name)) in
  (forall x, by_string KSection true (save_section x) (guarded ws_section) = section_to_string x compact) /\
  (forall x, by_string KSections true (save_sections (Some x)) (guarded ws_sections) = sections_to_string x compact) /\
  (forall x, by_string KLayout true (save_layout_def x) (guarded ws_layout) = layout_to_string x compact) /\
  (forall x, by_string KLayouts true (save_layout_defs (Some x)) (guarded ws_layouts) = layouts_to_string x compact) /\
  (forall x, by_string KPage true (save_page x) (guarded ws_page) = page_to_string x compact) /\
  (forall x, by_string KPreview true (save_preview (Some x)) (guarded ws_preview) = preview_to_string x compact) /\
  (forall x, by_string KFsource true (save_fsource x) (guarded ws_fsource) = fsource_to_string x compact) /\
  (forall x, by_string KFmetadata true (save_fmetadata (Some x)) (guarded ws_fmetadata) = fmetadata_to_string x compact) /\
  (forall x, by_string KMsource true (save_msource x) (guarded ws_msource) = msource_to_string x compact) /\
  (forall x, by_string KMetadata true (save_metadata (Some x)) (guarded ws_metadata) = metadata_to_string x compact) /\
  (forall v1 x, by_string KFile true (save_file v1 x) ws_file = file_to_string v1 x compact) /\
  (forall x, by_string KFiles true (save_files (Some x)) ws_files = files_to_string x compact) /\
  (forall x, by_string KReel true (save_reel x) (guarded ws_reel) = reel_to_string x compact) /\
  (forall x, by_string KReels true (save_reels (Some x)) (guarded ws_reels) = reels_to_string x compact) /\
  (forall x, by_string KToc true (save_toc x) (guarded ws_toc_data) = toc_to_string x compact) /\
  (forall x, by_string KAdmin true (save_admin (Some x)) (guarded ws_administrative) = admin_to_string x compact) /\
  (forall x, by_string KTech (match te_tocs x, te_format x with Some _, Some _ => true | _, _ => false end) (save_tech (Some x)) (guarded ws_technical) = tech_to_string x compact) /\
  (forall x, by_string KControl (match cd_admin x, cd_tech x with Some _, Some _ => true | _, _ => false end) (save_control x) ws_control = control_to_string x compact) /\
  (forall x, by_string KFormat true (save_format (Some x)) (guarded ws_format) = format_to_string x compact).
Proof.
  cbv zeta. repeat match goal with |- _ /\ _ => split end; intros; first [apply whole_string | apply loose_string].
Qed.
Print Assumptions C75_same_strings.
Theorem C75_same_objects {A} k (into : A -> node -> A * bool) a op d name text :
  load_result (run_load_file k (loading into a op d name text)) = into_from_file into a op d name /\
  load_result (run_load_string k (loading into a op d name text)) = into_string into a text.
Proof.
  split.
  - unfold load_result, run_load_file, load_file_body, into_from_file, loading. cbn. destruct op; cbn; [|reflexivity]. destruct (d name) as [s|] eqn:E; cbn; [|reflexivity].
    rewrite E. destruct (load_bytes s) as [[t|]| | |]; cbn; try reflexivity. destruct (into a t) as (a', b). reflexivity.
  - unfold load_result, run_load_string, load_string_body, into_string, loading.
    assert (T : forall l, l = [Check; LoadString; LoadXmlOr []; Do Delete] \/ l = [Check; LoadString; LoadXmlOr [Delete]; Do Delete] ->
      obind (exec_all true (mkCall true ([], false) (guarded no_ws) true true op d name text into a) l (start (mkCall true ([], false) (guarded no_ws) true true op d name text into a)))
        (fun s => Ok (s_object s, s_ret s)) =
      match load_string text with Ret (Some t) => Ok (into a t) | Ret None | Fail => Ok (a, false) | OverRead | NoFuel => UB end).
    { intros l [-> | ->]; cbn; destruct (load_string text) as [[t|]| | |]; cbn; try reflexivity; destruct (into a t) as (a', []); reflexivity. }
    rewrite T by (destruct k; auto). destruct text as [|x text]; [|reflexivity]. reflexivity.
Qed.
Print Assumptions C75_same_objects.

(** * What is left over *)
(** A save to a file closes the file it opened, once, and uses and deletes its document in order. The
    document stays behind exactly when the file cannot be opened and the function is one of those that
    build it first and do not delete it then. *)
Theorem C75_save_file {A} k (c : call A) fin : run_save_file k c = Ok fin ->
  orderly (s_events fin) /\ ~ held TheFile (s_events fin) /\
  (held TheDocument (s_events fin) <->
     c_ok c = true /\ c_can_open c = false /\
     match k with
     | KSection | KLayouts | KPage | KMsource | KFile | KReel | KToc | KAdmin | KFormat => True
     | KLayout | KPreview | KFmetadata | KMetadata | KFiles | KReels | KControl => snd (c_saved c) = true
     | KSections | KFsource | KTech => False
     end).
Proof.
  intro H. assert (P : forall l P Q, (exec_all false c l (start c) = Ok fin -> tidy fin P) -> (P <-> Q) -> exec_all false c l (start c) = Ok fin -> tidy fin Q).
  { intros l P Q T E R. destruct (T R) as (O & F & D). split; [exact O|split; [exact F|]]. rewrite D. exact E. }
  destruct k; first [refine (P _ _ _ (tree_first_tidy c fin) _ H)|refine (P _ _ _ (saved_first_tidy c fin) _ H)|refine (P _ _ _ (file_first_tidy c fin) _ H)|refine (P _ _ _ (fsource_tidy c fin) _ H)]; intuition.
Qed.
Print Assumptions C75_save_file.
(** A save to a string leaves nothing, except that two functions would leave the document when save_xml
    fails; but for these objects it never does. *)
Theorem C75_save_string {A} k (c : call A) fin : run_save_string k c = Ok fin ->
  orderly (s_events fin) /\ ~ held TheFile (s_events fin) /\
  (held TheDocument (s_events fin) <-> c_ok c = true /\ (k = KPage \/ k = KFormat) /\ snd (c_saved c) = false).
Proof.
  intro H. destruct k; first [destruct (whole_tidy c _ _ H) as (O & F & D)|destruct (loose_tidy c _ H) as (O & F & D)];
    (split; [exact O|split; [exact F|]]; rewrite D; intuition congruence).
Qed.
Print Assumptions C75_save_string.
Theorem C75_save_string_leaves_nothing {A} (c : call A) fin :
  (forall x, c_saved c = save_page x -> run_save_string KPage c = Ok fin -> ~ held TheDocument (s_events fin)) /\
  (forall x, c_saved c = save_format (Some x) -> run_save_string KFormat c = Ok fin -> ~ held TheDocument (s_events fin)).
Proof.
  split; intros x E R H; destruct (C75_save_string _ c fin R) as (_ & _ & D); apply D in H; destruct H as (_ & _ & H); rewrite E in H; discriminate.
Qed.
Print Assumptions C75_save_string_leaves_nothing.
(** A load from a file leaves nothing. *)
Theorem C75_load_file {A} k (c : call A) fin : run_load_file k c = Ok fin ->
  orderly (s_events fin) /\ ~ held TheFile (s_events fin) /\ ~ held TheDocument (s_events fin).
Proof. intro H. destruct (load_file_tidy c k fin H) as (O & F & D). rewrite D. tauto. Qed.
Print Assumptions C75_load_file.
(** A load from a string leaves the document exactly when it is refused after it was parsed; a boxing
    format leaves nothing. *)
Theorem C75_load_string {A} k (c : call A) fin : run_load_string k c = Ok fin ->
  orderly (s_events fin) /\ ~ held TheFile (s_events fin) /\
  (held TheDocument (s_events fin) <->
     k <> KFormat /\ c_ok c = true /\ exists t, load_string (c_text c) = Ret (Some t) /\ snd (c_into c (c_object c) t) = false).
Proof.
  intro H. destruct k; first [destruct (load_format_tidy c _ H) as (O & F & D)|destruct (load_string_tidy c _ H) as (O & F & D)];
    (split; [exact O|split; [exact F|]]; rewrite D; intuition congruence).
Qed.
Print Assumptions C75_load_string.
(** A load always comes to its end (a string: if it is text). *)
Theorem C75_loads_end {A} k (into : A -> node -> A * bool) a op d name text :
  (exists fin, run_load_file k (loading into a op d name text) = Ok fin) /\
  (is_text text -> exists fin, run_load_string k (loading into a op d name text) = Ok fin).
Proof.
  destruct (C75_same_objects k into a op d name text) as (F & S). split.
  - unfold load_result, into_from_file in F. destruct (run_load_file k _) as [s|]; [eauto|]. exfalso. cbn in F.
    destruct (if op then d name else None) as [s|]; [|discriminate]. destruct (load_bytes_total s) as [(x & E)|E]; rewrite E in F; [destruct x|]; discriminate.
  - intro T. unfold load_result, into_string in S. destruct (run_load_string k _) as [s|]; [eauto|]. exfalso. cbn in S.
    destruct text as [|b text]; [discriminate|]. destruct (C34_text_inside _ T) as [(x & E)|E]; rewrite E in S; [destruct x|]; discriminate.
Qed.
Print Assumptions C75_loads_end.
(** The tidy cases are met: a save, a string, a load from a file and a load from a string, all successful. *)
From Verif Require Import LoadProofs PropTocXml PropControl.
Definition ex_disk : disk := fun n => if str_eqb n (s2z "in") then Some (s2z "<?xml?><AdministrativeMetadata><Title>x</Title></AdministrativeMetadata>") else None.
Definition ex_saving can_open := saving true (save_admin (Some ex_admin)) (guarded ws_administrative) false true can_open ex_disk (s2z "out").
Definition ex_loading name text := loading into_admin admin_create true ex_disk name text.
#[local] Transparent write_checked part_text load_bytes load_string write_file save_indented.
Example C75_witness :
  match run_save_file KAdmin (ex_saving true) with
  | Ok s => s_ret s = true /\ s_events s = [Took TheDocument; Took TheFile; Used TheDocument; Used TheDocument; Used TheFile; Gave TheFile; Gave TheDocument]
  | UB => False end /\
  match run_save_string KAdmin (ex_saving true) with Ok s => s_string s <> None /\ s_events s = [Took TheDocument; Used TheDocument; Used TheDocument; Gave TheDocument] | UB => False end /\
  match run_load_file KAdmin (ex_loading (s2z "in") []) with
  | Ok s => s_ret s = true /\ s_object s = mkAdmin None None (Some (s2z "x")) None None None /\
            s_events s = [Took TheFile; Used TheFile; Took TheDocument; Used TheDocument; Gave TheFile; Gave TheDocument]
  | UB => False end /\
  match run_load_string KAdmin (ex_loading [] (s2z "<?xml?><AdministrativeMetadata/>")) with Ok s => s_ret s = true | UB => False end.
Proof.
  split; [|split; [|split]]; vm_compute; repeat split; discriminate.
Qed.
(** Documents that are never deleted: a save that cannot open its file, a text that is refused. *)
Definition leaves_document {A} (r : outcome (state A)) : Prop := exists fin, r = Ok fin /\ s_ret fin = false /\ held TheDocument (s_events fin).
Theorem C75_deleted_refuted :
  leaves_document (run_save_file KAdmin (ex_saving false)) /\
  leaves_document (run_save_file KReel (saving (reel_is_valid ex_reel) (save_reel ex_reel) (guarded ws_reel) true true false ex_disk (s2z "out"))) /\
  leaves_document (run_save_file KReels (saving true (save_reels (Some (Some [ex_reel]))) (guarded ws_reels) true true false ex_disk (s2z "out"))) /\
  leaves_document (run_load_string KAdmin (ex_loading [] (s2z "<Title>x</Title>"))) /\
  leaves_document (run_load_string KFile (loading into_file (new_file) true ex_disk [] (s2z "<a/>"))).
Proof.
  assert (K : forall A (r : outcome (state A)), match r with Ok s => s_ret s = false /\ holdsb TheDocument (s_events s) = true | UB => False end -> leaves_document r).
  { intros A [s|] H; [|destruct H]. exists s. destruct H as (R & H). apply holdsb_spec in H. auto. }
  repeat match goal with |- _ /\ _ => split end; apply K; vm_compute; split; reflexivity.
Qed.
Print Assumptions C75_deleted_refuted.
