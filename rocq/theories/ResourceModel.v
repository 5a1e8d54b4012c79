(** The *_save_file, *_save_string, *_load_file and *_load_string functions of the 19 kinds of objects,
    statement by statement, with what they open, build, close and delete. Each function body is a list
    of statements, run by one interpreter; [do] records the events. *)
From Verif Require Import CBase XmlEntity XmlModel TocModel TocXmlModel ControlModel WsModel FileModel WriterModel LoadModel SpecRelease.

Inductive kind := KSection | KSections | KLayout | KLayouts | KPage | KPreview | KFsource | KFmetadata | KMsource | KMetadata
  | KFile | KFiles | KReel | KReels | KToc | KAdmin | KTech | KControl | KFormat.

(** fclose(fp); mxmlDelete(tree); *)
Inductive release := FClose | Delete.
Inductive stmt :=
| Check                              (** if (... == NULL || ...) return failure; *)
| NewDocument                        (** tree = mxmlNewXML("1.0"); *)
| Open (r : list release)            (** fp = fopen(...); if (fp == NULL) { r; return failure; } *)
| SaveXml (r : list release)         (** if (!save_xml(object, tree)) { r; return failure; } *)
| SaveFile                           (** mxmlSaveFile(tree, fp, ...); *)
| SaveString (p : part)              (** xmlString = mxmlSaveAllocString(...); *)
| LoadFile (r : list release)        (** document = mxmlLoadFile(NULL, fp, ...); if (document == NULL) { r; return failure; } *)
| LoadString                         (** document = mxmlLoadString(NULL, in, ...); *)
| LoadXml                            (** return_value = load_xml(object, document); *)
| LoadXmlOr (r : list release)       (** if (!load_xml(object, document)) { r; return failure; } *)
| Do (r : release).                  (** a release in its place *)

(** The order of most of the functions. *)
Definition tree_first : list stmt := [Check; NewDocument; Open []; SaveXml [FClose; Delete]; SaveFile; Do FClose; Do Delete].
Definition saved_first : list stmt := [Check; NewDocument; SaveXml [Delete]; Open []; SaveFile; Do FClose; Do Delete].
Definition file_first : list stmt := [Check; Open []; NewDocument; SaveXml [FClose; Delete]; SaveFile; Do FClose; Do Delete].

Definition save_file_body (k : kind) : list stmt :=
  match k with
  | KSection => tree_first      (* src/toc/previewsection.c 366-408 *)
  | KSections => file_first     (* src/toc/previewsections.c 433-475 *)
  | KLayout => saved_first      (* src/toc/previewlayoutdefinition.c 473-515 *)
  | KLayouts => tree_first      (* src/toc/previewlayoutdefinitions.c 529-571 *)
  | KPage => tree_first         (* src/tocfilepreviewpage.c 468-511 *)
  | KPreview => saved_first     (* src/tocfilepreview.c 593-635 *)
  | KFsource =>                 (* src/tocdatafilemetadatasource.c 350-394 *)
      [Check; NewDocument; Open [Delete]; SaveXml [FClose; Delete]; SaveFile; Do FClose; Do Delete]
  | KFmetadata => saved_first   (* src/tocdatafilemetadata.c 447-489 *)
  | KMsource => tree_first      (* src/tocmetadatasource.c 760-803 *)
  | KMetadata => saved_first    (* src/tocmetadata.c 456-498 *)
  | KFile => tree_first         (* src/tocfile.c 1144-1187 *)
  | KFiles => saved_first       (* src/tocfiles.c 712-754 *)
  | KReel => tree_first         (* src/tocdatareel.c 965-1008 *)
  | KReels => saved_first       (* src/tocdatareels.c 387-429 *)
  | KToc => tree_first          (* src/tocdata.c 1165-1208 *)
  | KAdmin => tree_first        (* src/administrativemetadata.c 433-476 *)
  | KTech => file_first         (* src/technicalmetadata.c 261-310 *)
  | KControl => saved_first     (* src/controldata.c 240-287 *)
  | KFormat => tree_first       (* src/controlframe/boxingformat.c 525-575, afs_boxing_format_save_config_file;
                                   545-557 builds what save_xml 358-373 builds *)
  end.

(** The part of the document that is written: see part in WriterModel.v. *)
Definition whole_of (p : part) : list stmt := [Check; NewDocument; SaveXml [Delete]; SaveString p; Do Delete].
Definition save_string_body (k : kind) : list stmt :=
  match k with
  | KSection => whole_of Whole       (* src/toc/previewsection.c 423-454 *)
  | KSections => whole_of Whole      (* src/toc/previewsections.c 490-521 *)
  | KLayout => whole_of Whole        (* src/toc/previewlayoutdefinition.c 530-561 *)
  | KLayouts => whole_of FirstChild  (* src/toc/previewlayoutdefinitions.c 586-617 *)
  | KPage =>                         (* src/tocfilepreviewpage.c 526-557 *)
      [Check; NewDocument; SaveXml []; SaveString Whole; Do Delete]
  | KPreview => whole_of Whole       (* src/tocfilepreview.c 650-681 *)
  | KFsource => whole_of Whole       (* src/tocdatafilemetadatasource.c 409-440 *)
  | KFmetadata => whole_of Named     (* src/tocdatafilemetadata.c 504-530 *)
  | KMsource => whole_of Whole       (* src/tocmetadatasource.c 713-744 *)
  | KMetadata => whole_of Named      (* src/tocmetadata.c 513-546 *)
  | KFile => whole_of FirstChild     (* src/tocfile.c 1097-1128 *)
  | KFiles => whole_of Whole         (* src/tocfiles.c 769-800 *)
  | KReel => whole_of Whole          (* src/tocdatareel.c 1023-1054 *)
  | KReels => whole_of Whole         (* src/tocdatareels.c 444-475 *)
  | KToc => whole_of Whole           (* src/tocdata.c 1223-1254 *)
  | KAdmin => whole_of Whole         (* src/administrativemetadata.c 491-522 *)
  | KTech => whole_of Whole          (* src/technicalmetadata.c 325-361 *)
  | KControl => whole_of Whole       (* src/controldata.c 302-338 *)
  | KFormat =>                       (* src/controlframe/boxingformat.c 388-417 *)
      [Check; NewDocument; SaveXml []; SaveString Whole; Do Delete]
  end.

(** src/toc/previewsection.c 502-537, previewsections.c 572-607, previewlayoutdefinition.c 617-652,
    previewlayoutdefinitions.c 741-776, src/tocfilepreviewpage.c 618-653, tocfilepreview.c 743-778,
    tocdatafilemetadatasource.c 495-530, tocdatafilemetadata.c 637-672, tocmetadatasource.c 948-983,
    tocmetadata.c 603-638, tocfile.c 711-746, tocfiles.c 856-891, tocdatareel.c 1106-1141,
    tocdatareels.c 531-566, tocdata.c 1333-1368, administrativemetadata.c 576-611,
    technicalmetadata.c 423-458, controldata.c 383-418, src/controlframe/boxingformat.c 590-624 *)
Definition load_file_body (k : kind) : list stmt := [Check; Open []; LoadFile [FClose; Delete]; LoadXml; Do FClose; Do Delete].

(** src/toc/previewsection.c 552-570, previewsections.c 622-640, previewlayoutdefinition.c 667-685,
    previewlayoutdefinitions.c 791-809, src/tocfilepreviewpage.c 668-686, tocfilepreview.c 793-811,
    tocdatafilemetadatasource.c 545-563, tocdatafilemetadata.c 687-705, tocmetadatasource.c 915-933,
    tocmetadata.c 653-671, tocfile.c 760-778, tocfiles.c 906-924, tocdatareel.c 1156-1174,
    tocdatareels.c 581-599, tocdata.c 1383-1401, administrativemetadata.c 626-644,
    technicalmetadata.c 473-491, controldata.c 433-451; src/controlframe/boxingformat.c 490-509 *)
Definition load_string_body (k : kind) : list stmt :=
  match k with
  | KFormat => [Check; LoadString; LoadXmlOr [Delete]; Do Delete]
  | _ => [Check; LoadString; LoadXmlOr []; Do Delete]
  end.

(** * One call *)
(** The object, what save_xml and load_xml do with it, and the arguments. [c_ok]: the first tests of the
    function let it go on. *)
Record call (A : Type) := mkCall {
  c_ok : bool; c_saved : list node * bool; c_ws : checked_cb; c_compact : bool; c_nl : bool; c_can_open : bool;
  c_disk : disk; c_name : cstr; c_text : cstr; c_into : A -> node -> A * bool; c_object : A }.
Arguments mkCall {A}. Arguments c_ok {A}. Arguments c_saved {A}. Arguments c_ws {A}. Arguments c_compact {A}. Arguments c_nl {A}.
Arguments c_can_open {A}. Arguments c_disk {A}. Arguments c_name {A}. Arguments c_text {A}. Arguments c_into {A}. Arguments c_object {A}.
(** The variables: the disk; fp, which is never NULL once fopen succeeded (mode: writing, and so
    emptying, or reading); the document, NULL or its children for a document built here or the tree read;
    xmlString, return_value and the object; and the events so far. *)
Inductive docv := Built (kids : list node) | Read (t : node).
Record state (A : Type) := mkState {
  s_disk : disk; s_file : bool; s_doc : option docv; s_string : option cstr; s_ret : bool; s_object : A; s_events : list event }.
Arguments mkState {A}. Arguments s_disk {A}. Arguments s_file {A}. Arguments s_doc {A}. Arguments s_string {A}. Arguments s_ret {A}.
Arguments s_object {A}. Arguments s_events {A}.

Section Run.
Context {A : Type} (reading : bool) (c : call A).
Definition log (s : state A) (e : event) : state A :=
  mkState (s_disk s) (s_file s) (s_doc s) (s_string s) (s_ret s) (s_object s) (s_events s ++ [e]).
Definition set_disk (s : state A) (d : disk) : state A := mkState d (s_file s) (s_doc s) (s_string s) (s_ret s) (s_object s) (s_events s).
Definition set_doc (s : state A) (d : option docv) : state A := mkState (s_disk s) (s_file s) d (s_string s) (s_ret s) (s_object s) (s_events s).
Definition set_object (s : state A) (r : A * bool) : state A := mkState (s_disk s) (s_file s) (s_doc s) (s_string s) (snd r) (fst r) (s_events s).
Definition set_string (s : state A) (x : option cstr) : state A := mkState (s_disk s) (s_file s) (s_doc s) x (s_ret s) (s_object s) (s_events s).
Definition set_ret (s : state A) (b : bool) : state A := mkState (s_disk s) (s_file s) (s_doc s) (s_string s) b (s_object s) (s_events s).
Definition opened (s : state A) : state A := mkState (s_disk s) true (s_doc s) (s_string s) (s_ret s) (s_object s) (s_events s ++ [Took TheFile]).
(** mxmlDelete(NULL) does nothing; fclose(NULL) is undefined. The variables keep their values. *)
Definition let_go (s : state A) (r : release) : outcome (state A) :=
  match r with
  | FClose => if s_file s then Ok (log s (Gave TheFile)) else UB
  | Delete => Ok (match s_doc s with Some _ => log s (Gave TheDocument) | None => s end)
  end.
Fixpoint let_all (s : state A) (l : list release) : outcome (state A) :=
  match l with [] => Ok s | r :: l' => obind (let_go s r) (fun s' => let_all s' l') end.
(** A parsed text: NULL when there is no document (mxml-file.c 156-210). *)
Definition parsed (r : res (option node)) : outcome (option node) :=
  match r with Ret (Some t) => Ok (Some t) | Ret None | Fail => Ok None | OverRead | NoFuel => UB end.
(** load_xml tests its node for NULL first. *)
Definition load_into_object (s : state A) : outcome (state A) :=
  match s_doc s with
  | Some (Read t) => Ok (set_object (log s (Used TheDocument)) (c_into c (s_object s) t))
  | Some (Built _) => UB
  | None => Ok (set_ret s false)
  end.
(** [inl]: go on; [inr]: the function has returned failure. *)
Definition fail (s : state A) (r : list release) : outcome (state A + state A) := obind (let_all s r) (fun s' => Ok (inr (set_ret s' false))).
Definition go (s : state A) : outcome (state A + state A) := Ok (inl s).
Definition exec (x : stmt) (s : state A) : outcome (state A + state A) :=
  match x with
  | Check => if c_ok c then go s else fail s []
  | NewDocument => go (log (set_doc s (Some (Built []))) (Took TheDocument))
  | Open r =>
      if reading then match (if c_can_open c then c_disk c (c_name c) else None) with Some _ => go (opened s) | None => fail s r end
      else if c_can_open c then go (opened (set_disk s (write_file (s_disk s) (c_name c) []))) else fail s r
  | SaveXml r =>
      match s_doc s with
      | Some (Built _) => let s' := log (set_doc s (Some (Built (fst (c_saved c))))) (Used TheDocument) in
                          if snd (c_saved c) then go s' else fail s' r
      | _ => UB
      end
  | SaveFile =>
      match s_doc s, s_file s with
      | Some (Built kids), true =>
          obind (save_indented true (kids, true) (if c_compact c then guarded no_ws else c_ws c) (c_nl c)) (fun t =>
          match t with
          | Some x => go (log (log (set_disk s (write_file (s_disk s) (c_name c) x)) (Used TheDocument)) (Used TheFile))
          | None => UB
          end)
      | _, _ => UB
      end
  | SaveString p =>
      match s_doc s with
      | Some (Built kids) => obind (part_text p (if c_compact c then guarded no_ws else c_ws c) kids) (fun t =>
                             go (log (set_string s t) (Used TheDocument)))
      | _ => UB
      end
  | LoadFile r =>
      if s_file s then
        match s_disk s (c_name c) with
        | None => UB
        | Some b => obind (parsed (load_bytes b)) (fun t =>
                    let s' := log s (Used TheFile) in
                    match t with Some t' => go (log (set_doc s' (Some (Read t'))) (Took TheDocument)) | None => fail s' r end)
        end
      else UB
  | LoadString =>
      obind (parsed (load_string (c_text c))) (fun t =>
      match t with Some t' => go (log (set_doc s (Some (Read t'))) (Took TheDocument)) | None => go s end)
  | LoadXml => obind (load_into_object s) go
  | LoadXmlOr r => obind (load_into_object s) (fun s' => if s_ret s' then go s' else fail s' r)
  | Do r => obind (let_go s r) go
  end.
Fixpoint exec_all (l : list stmt) (s : state A) : outcome (state A) :=
  match l with
  | [] => Ok s
  | x :: l' => obind (exec x s) (fun r => match r with inl s' => exec_all l' s' | inr s' => Ok s' end)
  end.
Definition start : state A := mkState (c_disk c) false None None true (c_object c) [].
End Run.
Definition run_save_file {A} (k : kind) (c : call A) := exec_all false c (save_file_body k) (start c).
Definition run_save_string {A} (k : kind) (c : call A) := exec_all false c (save_string_body k) (start c).
Definition run_load_file {A} (k : kind) (c : call A) := exec_all true c (load_file_body k) (start c).
Definition run_load_string {A} (k : kind) (c : call A) := exec_all true c (load_string_body k) (start c).
