(** mxml_write_node (thirdparty/minixml/src/mxml-file.c 2716-2994) with its output column, once as a
    recursion over trees and once over linked nodes as the C function walks them; the save functions of
    Mini-XML; and the 18 *_save_string functions of the library. *)
From Verif Require Import CBase XmlEntity XmlModel TocModel TocXmlModel ControlModel WsModel NodeModel NodeBuild FileModel.

(** * The column *)
(** mxml_write_ws 3052-3069: MXML_TAB is 8 (inc/mxml.h 48). *)
Definition ws_col (col c : Z) : Z :=
  if c =? 10 then 0 else if c =? 9 then (col + 8) - (col + 8) mod 8 else col + 1.
Definition ws_cols (col : Z) (w : cstr) : Z := fold_left ws_col w col.
(** The column is an int; it is modelled by an integer (the text is assumed shorter than 2^31 bytes). *)
Definition zlen (s : cstr) : Z := Z.of_nat (List.length s).
(** 2772-2808: name, and value with =, quotes; preceded by a space *)
Definition attr_col (col : Z) (a : cstr * option cstr) : Z :=
  col + 1 + (zlen (fst a) + match snd a with Some v => zlen v + 3 | None => 0 end).
(** Text written and column reached, from a column. *)
Definition put := Z -> outcome (cstr * Z).
Definition pseq (f g : put) : put := fun col =>
  obind (f col) (fun r => obind (g (snd r)) (fun r' => Ok (fst r ++ fst r', snd r'))).
Infix ";;" := pseq (at level 60, right associativity).
Definition pnil : put := fun col => Ok ([], col).
(** a text of a known width *)
Definition ptext (s : cstr) (width : Z) : put := fun col => Ok (s, col + width).
(** mxml_write_ws 3042-3073 *)
Definition pws (w : outcome cstr) : put := fun col => obind w (fun x => Ok (x, ws_cols col x)).
(** 2742-2813 *)
Definition pattrs (l : list (cstr * option cstr)) : put := fun col => Ok (flat_map write_attr l, fold_left attr_col l col).
(** 2736-2845: an element up to its children *)
Definition open_tag (ask : place -> outcome cstr) (n : cstr) (attrs : list (cstr * option cstr)) (has_child : bool) : put :=
  pws (ask BeforeOpen) ;; ptext (60 :: write_tag_name n) (zlen n + 1) ;; pattrs attrs ;;
  (if has_child || is_special n then ptext [62] 1 else ptext [32; 47; 62] 3) ;; pws (ask AfterOpen).
(** 2966-2988 *)
Definition close_tag (ask : place -> outcome cstr) (n : cstr) : put :=
  if is_special n then pnil
  else pws (ask BeforeClose) ;; ptext (60 :: 47 :: escape n ++ [62]) (zlen n + 3) ;; pws (ask AfterClose).
(** As a recursion over the tree. *)
Fixpoint write_col (cb : checked_cb) (path : list cstr) (t : node) : put :=
  match t with
  | Opaque s => ptext (escape s) (zlen s)
  | Elem n attrs kids =>
      open_tag (cb path t) n attrs (match kids with [] => false | _ => true end) ;;
      match kids with
      | [] => pnil
      | _ => (fix go l := match l with [] => pnil | k :: l' => write_col cb (n :: path) k ;; go l' end) kids ;; close_tag (cb path t) n
      end
  end.

(** * Over linked nodes *)
(** 2732-2991. [Enter a]: the top of the for loop with current = a; [Leave a]: the condition of the
    while loop with current = a. [ask a p] is the answer of the whitespace callback for node a. None = the
    fuel ran out. *)
Inductive spot := Enter (a : nat) | Leave (a : nat).
Definition name_of (v : payload) : outcome cstr := match v with PElem n _ => Ok n | PText _ => UB end.
Fixpoint write_ptr (fuel : nat) (h : nheap payload) (node : nat) (ask : nat -> place -> outcome cstr)
  (at_ : spot) (out : cstr) (col : Z) : option (outcome (cstr * Z)) :=
  match fuel with
  | O => None
  | S f =>
      match at_ with
      | Enter a =>
          match h a with
          | None => Some UB
          | Some c =>
              let w := match c_val c with
                       | PElem n attrs => open_tag (ask a) n attrs (match c_child c with Some _ => true | None => false end)
                       | PText s => ptext (escape s) (zlen s)
                       end in
              match w col with
              | UB => Some UB
              | Ok (s, col') => write_ptr f h node ask (match c_child c with Some k => Enter k | None => Leave a end) (out ++ s) col'
              end
          end
      | Leave a =>
          match h a with
          | None => Some UB
          | Some c =>
              match c_next c with
              | Some x => write_ptr f h node ask (Enter x) out col
              | None =>
                  if Nat.eqb a node then Some (Ok (out, col))
                  else match c_parent c with
                       | None => Some UB
                       | Some p =>
                           match h p with
                           | None => Some UB
                           | Some cp =>
                               match obind (name_of (c_val cp)) (fun n => close_tag (ask p) n col) with
                               | UB => Some UB
                               | Ok (s, col') => write_ptr f h node ask (Leave p) (out ++ s) col'
                               end
                           end
                       end
              end
          end
      end
  end.

(** * Saving *)
(** mxmlSaveAllocString 214-261 and mxmlSaveString 366-404 (buffers: XmlMem.v) and mxmlSaveFile 323-346:
    the text, ended by a line feed unless the column is 0. Nothing written is no string. *)
Definition finish_line (r : cstr * Z) : cstr := fst r ++ (if snd r >? 0 then [10] else []).
Definition saved_text (cb : checked_cb) (path : list cstr) (t : node) : outcome cstr :=
  obind (write_col cb path t 0) (fun r => Ok (finish_line r)).
(** What is given to mxmlSaveAllocString: the document, document->child, or the first element called
    "metadata" (tocdatafilemetadata.c 522-524, tocmetadata.c 530-541). NULL gives no string. *)
Inductive part := Whole | FirstChild | Named.
Definition part_text (p : part) (cb : checked_cb) (kids : list node) : outcome (option cstr) :=
  match p with
  | Whole => obind (saved_text cb [] (new_xml kids)) (fun s => Ok (Some s))
  | FirstChild => match kids with
                  | t :: _ => obind (saved_text cb [XML_DECL] t) (fun s => Ok (Some s))
                  | [] => Ok None
                  end
  | Named => match find_elem (s2z "metadata") (new_xml kids) with
             | Some t => obind (saved_text cb [XML_DECL] t) (fun s => Ok (Some s))
             | None => Ok None
             end
  end.
(** *_save_string with a non-NULL object; None is the NULL it returns. *)
Definition as_string (p : part) (guard : bool) (saved : list node * bool) (cb : checked_cb) (compact : bool) : outcome (option cstr) :=
  if negb guard then Ok None
  else if negb (snd saved) then Ok None
  else part_text p (if compact then guarded no_ws else cb) (fst saved).
(** src/toc/previewsection.c 423-454 *)
Definition section_to_string (s : section) := as_string Whole true (save_section s) (guarded ws_section).
(** src/toc/previewsections.c 490-521 *)
Definition sections_to_string (v : sections) := as_string Whole true (save_sections (Some v)) (guarded ws_sections).
(** src/toc/previewlayoutdefinition.c 530-561 *)
Definition layout_to_string (d : layout_def) := as_string Whole true (save_layout_def d) (guarded ws_layout).
(** src/toc/previewlayoutdefinitions.c 586-617 *)
Definition layouts_to_string (v : layout_defs) := as_string FirstChild true (save_layout_defs (Some v)) (guarded ws_layouts).
(** src/tocfilepreviewpage.c 526-557 *)
Definition page_to_string (p : page) := as_string Whole true (save_page p) (guarded ws_page).
(** src/tocfilepreview.c 650-681 *)
Definition preview_to_string (p : preview) := as_string Whole true (save_preview (Some p)) (guarded ws_preview).
(** src/tocdatafilemetadatasource.c 409-440, 455-480 *)
Definition fsource_to_string (s : fsource) := as_string Whole true (save_fsource s) (guarded ws_fsource).
(** src/tocdatafilemetadata.c 504-530 *)
Definition fmetadata_to_string (m : fmetadata) := as_string Named true (save_fmetadata (Some m)) (guarded ws_fmetadata).
(** src/tocmetadatasource.c 713-744 *)
Definition msource_to_string (s : msource) := as_string Whole true (save_msource s) (guarded ws_msource).
(** src/tocmetadata.c 513-546 *)
Definition metadata_to_string (m : metadata) := as_string Named true (save_metadata (Some m)) (guarded ws_metadata).
(** src/tocfile.c 1097-1128 *)
Definition file_to_string (v1 : bool) (f : toc_file) := as_string FirstChild true (save_file v1 f) ws_file.
(** src/tocfiles.c 769-800 *)
Definition files_to_string (v : files) := as_string Whole true (save_files (Some v)) ws_files.
(** src/tocdatareel.c 1023-1054 *)
Definition reel_to_string (r : reel) := as_string Whole true (save_reel r) (guarded ws_reel).
(** src/tocdatareels.c 444-475 *)
Definition reels_to_string (v : reels) := as_string Whole true (save_reels (Some v)) (guarded ws_reels).
(** src/tocdata.c 1223-1254 *)
Definition toc_to_string (t : toc_data) := as_string Whole true (save_toc t) (guarded ws_toc_data).
(** src/administrativemetadata.c 491-522 *)
Definition admin_to_string (a : admin) := as_string Whole true (save_admin (Some a)) (guarded ws_administrative).
(** src/controlframe/boxingformat.c 388-417 *)
Definition format_to_string (f : bformat) := as_string Whole true (save_format (Some f)) (guarded ws_format).
(** src/technicalmetadata.c 325-361 *)
Definition tech_to_string (t : tech) :=
  as_string Whole (match te_tocs t, te_format t with Some _, Some _ => true | _, _ => false end) (save_tech (Some t)) (guarded ws_technical).
(** src/controldata.c 302-338 *)
Definition control_to_string (c : control) :=
  as_string Whole (match cd_admin c, cd_tech c with Some _, Some _ => true | _, _ => false end) (save_control c) ws_control.
(** The *_load_string functions (for instance tocfile.c 760-778, tocdata.c 1383-1401,
    controldata.c 433-451): [load_object] of TocXmlModel.v. *)
(** mxmlSaveFile 323-346 of the document: whether the line feed is added. *)
Definition file_nl (saved : list node * bool) (cb : checked_cb) (compact : bool) : bool :=
  match write_col (if compact then guarded no_ws else cb) [] (new_xml (fst saved)) 0 with Ok (_, c) => c >? 0 | UB => false end.
(** The *_save_file functions of FileModel.v with that line feed. *)
Definition exactly (saved : list node * bool) (cb : checked_cb) (to_file : bool -> bool -> bool -> disk -> cstr -> outcome (disk * bool))
  (compact can_open : bool) (d : disk) (name : cstr) : outcome (disk * bool) :=
  to_file compact (file_nl saved cb compact) can_open d name.
