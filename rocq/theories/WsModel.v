(** The indentation callbacks of the save functions (compact = DFALSE), and saving with them.
    A callback is called with an element; the ancestors of the element are given by their names,
    innermost first ([path] = [] when node->parent is NULL). The callbacks are transcribed from the C
    sources rule by rule: each [if] that returns is one rule, tried in order. *)
From Verif Require Import CBase XmlModel.
Local Open Scope string_scope.
Local Open Scope list_scope.

(** mxmlGetElement (mxml-get.c 94-109) of the element the callback is called with. *)
Definition node_name_or (t : node) : cstr := or_empty (node_name t).
(** [strcmp("x", name) == 0] *)
Definition is (s : string) (name : cstr) : bool := str_eqb (s2z s) name.
(** The name of the parent (0), of its parent (1) ..., or "" when there is none: the guard
    [if (!parent_name) parent_name = ""]. *)
Definition up (k : nat) (path : list cstr) : cstr := or_empty (nth_error path k).
(** [where == MXML_WS_BEFORE_OPEN || where == MXML_WS_BEFORE_CLOSE] *)
Definition around : list place := [BeforeOpen; BeforeClose].
Definition place_eqb (p q : place) : bool :=
  match p, q with BeforeOpen, BeforeOpen | AfterOpen, AfterOpen | BeforeClose, BeforeClose | AfterClose, AfterClose => true | _, _ => false end.
(** The literal "\n" followed by [k] spaces. *)
Definition line (k : nat) : cstr := 10 :: repeat 32 k.
(** The returned text, NULL written as the empty text (mxml_write_ws 3052 writes nothing for both). *)
Fixpoint rules (p : place) (l : list (bool * list place * nat)) : cstr :=
  match l with
  | [] => []
  | (c, ps, k) :: r => if c && existsb (place_eqb p) ps then line k else rules p r
  end.
(** * Callbacks that may dereference NULL *)
Definition checked_cb := list cstr -> node -> place -> outcome cstr.
(** [strcmp("x", parent_name) == 0] without the guard. *)
Definition iso (s : string) (name : option cstr) : outcome bool :=
  match name with Some n => Ok (is s n) | None => UB end.
Definition oand (a b : outcome bool) : outcome bool := obind a (fun x => if x then b else Ok false).
Definition oor (a b : outcome bool) : outcome bool := obind a (fun x => if x then Ok true else b).
Definition onot (a : outcome bool) : outcome bool := obind a (fun x => Ok (negb x)).
Infix "<&&>" := oand (at level 40, left associativity).
Infix "<||>" := oor (at level 50, left associativity).
Notation "~~ x" := (onot x) (at level 35, right associativity).
Fixpoint checked_rules (p : place) (l : list (outcome bool * list place * nat)) : outcome cstr :=
  match l with
  | [] => Ok []
  | (c, ps, k) :: r => obind (c <&&> Ok (existsb (place_eqb p) ps)) (fun b => if b then Ok (line k) else checked_rules p r)
  end.
(** [node_text && strlen(node_text) != 0] with node_text = afs_xmlutils_get_node_text(node). *)
Definition has_text (t : node) : bool := negb (null_or_empty (node_text t)).

(** * The callbacks *)
(** src/administrativemetadata.c 734-770 *)
Definition ws_administrative : ws_cb := fun path t p =>
  let name := node_name_or t in let parent := up 0 path in
  rules p [
    (is "AdministrativeMetadata" name, around, 0%nat);
    (is "AdministrativeMetadata" parent, around, 4%nat);
    (is "AdministrativeMetadata" parent, [AfterOpen], 8%nat)].
(** src/technicalmetadata.c 583-741 *)
Definition ws_technical : ws_cb := fun path t p =>
  let name := node_name_or t in let parent := up 0 path in let parent2 := up 1 path in
  rules p [
    (is "TechnicalMetadata" name, around, 0%nat);
    (is "work" name, around, 8%nat);
    (is "class" name, around, 12%nat);
    (is "class" parent, around, 16%nat);
    (is "BoxerFormat" name || is "Tocs" name || is "Applications" name, around, 4%nat);
    (is "files" name, around, 8%nat);
    (is "file" name, around, 12%nat);
    (is "file" parent && negb (is "data" name) && negb (is "preview" name) && negb (is "metadata" name), [BeforeOpen], 16%nat);
    (is "file" parent && negb (is "data" name) && negb (is "preview" name) && negb (is "metadata" name), [BeforeClose], 16%nat);
    (is "file" parent && negb (is "data" name) && negb (is "preview" name) && negb (is "metadata" name), [AfterOpen], 20%nat);
    (is "data" name && is "file" parent, around, 16%nat);
    (is "data" parent && is "file" parent2, around, 20%nat);
    ((is "data" parent && is "file" parent2) && negb (is "start" name) && negb (is "end" name), [AfterOpen], 24%nat);
    (is "preview" name && is "file" parent, around, 16%nat);
    (is "preview" parent, [BeforeOpen], 20%nat);
    (is "metadata" name && is "file" parent, around, 16%nat);
    (is "metadata" parent, around, 20%nat);
    (is "source" parent, around, 24%nat);
    (is "data" parent && is "source" parent2, [BeforeOpen], 28%nat)].
(** src/toc/previewsection.c 647-668 *)
Definition ws_section : ws_cb := fun path t p =>
  let name := node_name_or t in
  rules p [
    (is "section" name, [BeforeOpen], 0%nat)].
(** src/toc/previewsections.c 711-732 *)
Definition ws_sections : ws_cb := fun path t p =>
  let name := node_name_or t in
  rules p [
    (is "section" name, [BeforeOpen], 0%nat)].
(** src/toc/previewlayoutdefinition.c 746-793 *)
Definition ws_layout : ws_cb := fun path t p =>
  let name := node_name_or t in let parent := up 0 path in
  rules p [
    (is "previewLayout" name, around, 0%nat);
    (is "id" name || is "name" name || is "sections" name, around, 4%nat);
    (is "sections" parent, around, 8%nat);
    (is "id" name || is "name" name, [AfterOpen], 8%nat)].
(** src/toc/previewlayoutdefinitions.c 939-994 *)
Definition ws_layouts : ws_cb := fun path t p =>
  let name := node_name_or t in let parent := up 0 path in
  rules p [
    (is "layoutDefinitions" name, around, 0%nat);
    (is "previewLayout" name, around, 4%nat);
    (is "id" name || is "name" name || is "sections" name, around, 8%nat);
    (is "sections" parent, around, 12%nat);
    (is "id" name || is "name" name, [AfterOpen], 12%nat)].
(** src/tocfilepreviewpage.c 783-808 *)
Definition ws_page : ws_cb := fun path t p =>
  let name := node_name_or t in
  rules p [
    (is "pages" name, [BeforeOpen], 4%nat)].
(** src/tocfilepreview.c 898-931 *)
Definition ws_preview : ws_cb := fun path t p =>
  let name := node_name_or t in
  rules p [
    (is "preview" name, around, 0%nat);
    (is "pages" name || is "dpi" name, [BeforeOpen], 4%nat)].
(** src/tocdatafilemetadatasource.c 669-708 *)
Definition ws_fsource : ws_cb := fun path t p =>
  let name := node_name_or t in let parent := up 0 path in
  rules p [
    (is "source" name, around, 0%nat);
    (is "source" parent, around, 4%nat);
    (is "data" name, [AfterOpen], 8%nat)].
(** src/tocdatafilemetadata.c 780-827 *)
Definition ws_fmetadata : ws_cb := fun path t p =>
  let name := node_name_or t in let parent := up 0 path in
  rules p [
    (is "metadata" name, around, 0%nat);
    (is "source" name, around, 4%nat);
    (is "source" parent, around, 8%nat);
    (is "data" name, [AfterOpen], 12%nat)].
(** src/tocmetadatasource.c 1024-1063 *)
Definition ws_msource : ws_cb := fun path t p =>
  let name := node_name_or t in let parent := up 0 path in
  rules p [
    (is "source" name, around, 0%nat);
    (is "source" parent, around, 4%nat);
    (is "data" name || is "tags" name, [AfterOpen], 8%nat)].
(** src/tocmetadata.c 752-799 *)
Definition ws_metadata : ws_cb := fun path t p =>
  let name := node_name_or t in let parent := up 0 path in
  rules p [
    (is "metadata" name, around, 0%nat);
    (is "source" name, around, 4%nat);
    (is "source" parent, around, 8%nat);
    (is "data" name || is "tags" name, [AfterOpen], 12%nat)].
(** src/controlframe/boxingformat.c 680-717 *)
Definition ws_format : ws_cb := fun path t p =>
  let name := node_name_or t in
  rules p [
    (is "work" name, around, 0%nat);
    (is "class" name, around, 4%nat);
    (is "property" name, around, 8%nat)].
(** src/tocdatareels.c 666-798 *)
Definition ws_reels : ws_cb := fun path t p =>
  let name := node_name_or t in let parent := up 0 path in let parent2 := up 1 path in
  rules p [
    (is "reels" name, around, 0%nat);
    (is "reel" name, around, 4%nat);
    (is "id" name && is "reel" parent, around, 8%nat);
    (is "id" name && is "reel" parent, [AfterOpen], 12%nat);
    (is "files" name, around, 8%nat);
    (is "file" name, around, 12%nat);
    (is "file" parent && negb (is "data" name) && negb (is "preview" name) && negb (is "metadata" name), [BeforeOpen], 16%nat);
    (is "file" parent && negb (is "data" name) && negb (is "preview" name) && negb (is "metadata" name), [BeforeClose], 16%nat);
    (is "file" parent && negb (is "data" name) && negb (is "preview" name) && negb (is "metadata" name), [AfterOpen], 20%nat);
    ((is "data" name && is "file" parent) || is "preview" name || is "metadata" name, around, 16%nat);
    (is "metadata" parent && is "file" parent2, around, 20%nat);
    (is "source" parent && is "metadata" parent2, around, 24%nat);
    (is "data" parent && is "source" parent2, around, 28%nat);
    (is "data" parent && is "file" parent2, around, 20%nat);
    ((is "data" parent && is "file" parent2) && negb (is "start" name) && negb (is "end" name), [AfterOpen], 24%nat);
    (is "preview" parent, [BeforeOpen], 20%nat)].
(** src/tocdatareel.c 1307-1441 *)
Definition ws_reel : ws_cb := fun path t p =>
  let name := node_name_or t in let parent := up 0 path in let parent2 := up 1 path in
  rules p [
    (is "reel" name, around, 0%nat);
    (is "reel" parent && is "id" name, [AfterOpen], 8%nat);
    (is "reel" parent, around, 4%nat);
    (is "file" name, around, 8%nat);
    (is "file" parent && negb (is "data" name) && negb (is "preview" name) && negb (is "metadata" name), [BeforeOpen], 12%nat);
    (is "file" parent && negb (is "data" name) && negb (is "preview" name) && negb (is "metadata" name), [BeforeClose], 12%nat);
    (is "file" parent && negb (is "data" name) && negb (is "preview" name) && negb (is "metadata" name), [AfterOpen], 16%nat);
    (is "data" name && is "file" parent, around, 12%nat);
    (is "data" parent && is "file" parent2, around, 16%nat);
    ((is "data" parent && is "file" parent2) && negb (is "start" name) && negb (is "end" name), [AfterOpen], 20%nat);
    (is "preview" name && is "file" parent, around, 12%nat);
    (is "preview" parent, [BeforeOpen], 16%nat);
    (is "metadata" name && is "file" parent, around, 12%nat);
    (is "metadata" parent, around, 16%nat);
    (is "source" parent, around, 20%nat);
    (is "data" parent && is "source" parent2, [BeforeOpen], 24%nat)].
(** src/tocdata.c 1575-1796 *)
Definition ws_toc_data : ws_cb := fun path t p =>
  let name := node_name_or t in let parent := up 0 path in let parent2 := up 1 path in let parent3 := up 2 path in
  rules p [
    (is "Index" name, around, 0%nat);
    (is "Index" parent, around, 4%nat);
    (is "indexType" name || is "jobId" name || is "reelId" name, [AfterOpen], 8%nat);
    (is "metadata" name && is "Index" parent, around, 4%nat);
    (is "source" name && is "metadata" parent && is "Index" parent2, around, 8%nat);
    (is "source" parent && is "metadata" parent2 && is "Index" parent3, around, 12%nat);
    ((is "data" name || is "tags" name) && is "metadata" parent2 && is "Index" parent3, [AfterOpen], 16%nat);
    (is "layoutDefinitions" name, around, 4%nat);
    (is "previewLayout" name, around, 8%nat);
    ((is "id" name || is "name" name || is "sections" name) && is "previewLayout" parent, around, 12%nat);
    (is "sections" parent, around, 16%nat);
    ((is "id" name || is "name" name) && is "previewLayout" parent, [AfterOpen], 16%nat);
    (is "reel" name, around, 8%nat);
    (is "reel" parent && is "id" name, around, 12%nat);
    (is "reel" parent && is "id" name, [AfterOpen], 16%nat);
    (is "files" name, around, 12%nat);
    (is "file" name, around, 16%nat);
    (is "file" parent && negb (is "data" name) && negb (is "preview" name) && negb (is "metadata" name), [BeforeOpen], 20%nat);
    (is "file" parent && negb (is "data" name) && negb (is "preview" name) && negb (is "metadata" name), [BeforeClose], 20%nat);
    (is "file" parent && negb (is "data" name) && negb (is "preview" name) && negb (is "metadata" name), [AfterOpen], 24%nat);
    (is "preview" name, around, 20%nat);
    (is "metadata" name && is "file" parent, around, 20%nat);
    (is "source" name && is "metadata" parent && is "file" parent2, around, 24%nat);
    (is "data" name && is "source" parent && is "metadata" parent2 && is "file" parent3, around, 28%nat);
    (is "data" name && is "source" parent && is "metadata" parent2 && is "file" parent3, [AfterOpen], 32%nat);
    (is "preview" parent, [BeforeOpen], 24%nat)].
(** src/tocfile.c 1523-1626 *)
Definition ws_file : checked_cb := fun path t p =>
  let name := node_name_or t in let parent := nth_error path 0 in
  checked_rules p [
    (Ok (is "file" name), around, 0%nat);
    (iso "file" parent, around, 4%nat);
    ((iso "file" parent <&&> (~~ Ok (is "start" name)) <&&> (~~ Ok (is "end" name)) <&&> (~~ Ok (is "preview" name))) <&&> (~~ Ok (is "data" name)) <&&> (~~ Ok (is "metadata" name)), [AfterOpen], 8%nat);
    (iso "start" parent <||> iso "end" parent, around, 8%nat);
    (iso "start" parent <||> iso "end" parent, [AfterOpen], 12%nat);
    (Ok (is "pages" name), around, 8%nat);
    (iso "data" parent <&&> (Ok (is "checksum" name) <||> Ok (is "size" name) <||> Ok (is "start" name) <||> Ok (is "end" name)), around, 8%nat);
    (iso "data" parent <&&> (Ok (is "checksum" name) <||> Ok (is "size" name) <||> Ok (is "start" name) <||> Ok (is "end" name)) <&&> (~~ Ok (is "start" name)) <&&> (~~ Ok (is "end" name)) <&&> (~~ Ok (is "checksum" name)), [AfterOpen], 12%nat);
    (iso "data" parent <&&> (Ok (is "checksum" name) <||> Ok (is "size" name) <||> Ok (is "start" name) <||> Ok (is "end" name)) <&&> Ok (is "checksum" name) <&&> Ok (has_text t), [AfterOpen], 12%nat);
    (iso "metadata" parent, around, 8%nat);
    (iso "source" parent, around, 12%nat);
    (iso "source" parent, [AfterOpen], 16%nat)].
(** src/tocfiles.c 1593-1669 *)
Definition ws_files : checked_cb := fun path t p =>
  let name := node_name_or t in let parent := nth_error path 0 in
  checked_rules p [
    (Ok (is "files" name), around, 0%nat);
    (Ok (is "file" name), around, 4%nat);
    (iso "file" parent <&&> (~~ Ok (is "data" name)) <&&> (~~ Ok (is "preview" name)), [BeforeOpen], 8%nat);
    (iso "file" parent <&&> (~~ Ok (is "data" name)) <&&> (~~ Ok (is "preview" name)), [BeforeClose], 8%nat);
    (iso "file" parent <&&> (~~ Ok (is "data" name)) <&&> (~~ Ok (is "preview" name)), [AfterOpen], 12%nat);
    (Ok (is "data" name) <||> Ok (is "preview" name), around, 8%nat);
    (iso "data" parent, around, 12%nat);
    (iso "data" parent <&&> (~~ Ok (is "start" name)) <&&> (~~ Ok (is "end" name)), [AfterOpen], 16%nat);
    (iso "preview" parent, [BeforeOpen], 12%nat)].
(** [mxmlGetOpaque(node) != NULL || mxmlGetText(node, 0) != NULL]: the first child is text (the library
    creates opaque text only). *)
Definition text_child (t : node) : bool :=
  match t with Elem _ _ (Opaque _ :: _) => true | _ => false end.
(** [a] when the condition holds, else [b]. *)
Definition oif {A} (c : outcome bool) (a b : outcome A) : outcome A := obind c (fun x => if x then a else b).
(** src/controldata.c 514-584. node->parent->value.element.name and strcmp(parent, ...) need a parent. *)
Definition ws_control : checked_cb := fun path t p =>
  let name := node_name_or t in let parent := nth_error path 0 in
  let top := iso "AdministrativeMetadata" parent <||> iso "TechnicalMetadata" parent in
  match p with
  | BeforeOpen =>
      match name with
      | 63 :: _ => Ok []
      | _ =>
        oif top (Ok (line 4))
        (oif (iso "Tocs" parent <||> Ok (is "work" name)) (Ok (line 8))
        (oif (Ok (is "class" name) <||> iso "file" parent) (Ok (line 12))
        (oif (Ok (is "property" name) <||> iso "data" parent <||> iso "preview" parent) (Ok (line 16))
        (Ok (line 0)))))
      end
  | AfterOpen =>
      if negb (text_child t) then Ok []
      else oif top (Ok (line 8))
           (oif (iso "file" parent) (Ok (line 16))
           (oif (iso "data" parent) (Ok (line 20)) (Ok [])))
  | BeforeClose =>
      oif top (Ok (line 4))
      (oif (iso "Tocs" parent <||> Ok (is "work" name)) (Ok (line 8))
      (oif (Ok (is "class" name) <||> iso "file" parent) (Ok (line 12))
      (oif (iso "data" parent) (Ok (line 16)) (Ok (line 0)))))
  | AfterClose => Ok []
  end.

(** * Writing with a callback that may fail: mxml_write_node 2716-2994 as in [write_node]. *)
Definition ocat_map {A} (f : A -> outcome cstr) : list A -> outcome cstr :=
  fix go l := match l with [] => Ok [] | x :: r => obind (f x) (fun a => obind (go r) (fun b => Ok (a ++ b))) end.
Fixpoint write_checked (cb : checked_cb) (path : list cstr) (t : node) : outcome cstr :=
  match t with
  | Opaque s => Ok (escape s)
  | Elem n attrs kids =>
      obind (cb path t BeforeOpen) (fun w1 =>
      let head := w1 ++ 60 :: write_tag_name n ++ flat_map write_attr attrs in
      obind (cb path t AfterOpen) (fun w2 =>
      match kids with
      | [] => Ok (head ++ (if is_special n then [62] else [32; 47; 62]) ++ w2)
      | _ => obind (ocat_map (write_checked cb (n :: path)) kids) (fun body =>
             if is_special n then Ok (head ++ 62 :: w2 ++ body)
             else obind (cb path t BeforeClose) (fun w3 => obind (cb path t AfterClose) (fun w4 =>
                  Ok (head ++ 62 :: w2 ++ body ++ w3 ++ 60 :: 47 :: escape n ++ 62 :: w4))))
      end))
  end.
(** The save functions with compact = DFALSE. [decl]: the document itself is saved
    (mxmlSaveFile(tree, ...), mxmlSaveAllocString(document, ...)); otherwise its first element
    (document->child, or the element found by name), whose parent is the document. None: the function
    fails before it writes. [nl] as in [save_text]. *)
Definition save_indented (decl : bool) (saved : list node * bool) (cb : checked_cb) (nl : bool) : outcome (option cstr) :=
  if snd saved then
    let out p t := obind (write_checked cb p t) (fun s => Ok (Some (s ++ (if nl then [10] else [])))) in
    if decl then out [] (new_xml (fst saved))
    else match fst saved with t :: _ => out [XML_DECL] t | [] => Ok None end
  else Ok None.
(** A callback that checks its parents. *)
Definition guarded (ws : ws_cb) : checked_cb := fun path t p => Ok (ws path t p).
