(** XML form of the table-of-contents objects: the save_xml and load_xml functions.

    A save function returns the elements it appends to the output element and its result; a load
    function returns the loaded object, starting from a freshly created one, or None when the C
    function reports failure (the half-loaded object it leaves behind is not modelled). Every load
    function begins with strcmp(mxmlGetElement(node), ...), which needs an element: the parser
    returns only elements and the nested calls pass elements found by name.     List lengths: the unsigned loop counters of the C functions are modelled by structural
    recursion; statements about whole collections assume fewer than 2^32 elements where the
    code compares the counter with a size_t. *)
From Verif Require Import CBase TocModel XmlModel.

(** * Shared shapes *)
(** The loop over a vector in the save functions: stop at the first failure. *)
Fixpoint save_list {A} (save : A -> list node * bool) (l : list A) : list node * bool :=
  match l with
  | [] => ([], true)
  | x :: l' => let (k, ok) := save x in
               if ok then let (k', ok') := save_list save l' in (k ++ k', ok') else (k, false)
  end.
(** strcmp(mxmlGetElement(node), n) == 0 ? node : mxmlFindElement(node, node, n, NULL, NULL, MXML_DESCEND) *)
Definition at_or_below (n : cstr) (t : node) : option node :=
  if named n t then Some t else find_elem n t.
(** The loop over the found elements in the load functions: load, then add; stop at a failure. *)
Fixpoint load_list {A S} (load : node -> option A) (add : S -> A -> S * bool) (s : S) (l : list node) : option S :=
  match l with
  | [] => Some s
  | x :: l' => match load x with
               | None => None
               | Some a => let (s', ok) := add s a in if ok then load_list load add s' l' else None
               end
  end.
(** node = mxmlFindElement(...); node != NULL ? afs_xmlutils_get_node_text(node) : NULL *)
Definition get_text (n : cstr) (t : node) : option cstr :=
  match find_elem n t with Some x => node_text x | None => None end.
(** afs_xmlutils_get_integer_element on a field that holds [d]. *)
Definition get_int (d : Z) (n : cstr) (t : node) : Z :=
  match int_elem t n with Some z => z | None => d end.
(** The proper descendants with the names of their parents. *)
Fixpoint descendants_p (t : node) : list (cstr * node) :=
  match t with
  | Opaque _ => []
  | Elem n _ kids => flat_map (fun k => (n, k) :: descendants_p k) kids
  end.
(** The first descendant with a name whose parent has a given name: tocfile.c 868-880, tocdata.c 1475-1499. *)
Definition find_below (parent n : cstr) (t : node) : option node :=
  option_map snd (find (fun p => named n (snd p) && str_eqb (fst p) parent) (descendants_p t)).
(** *_load_string: an empty string is refused, a document that cannot be parsed fails.
    UB: the parser reads beyond the end of the string (see C34). *)
Definition load_object {A} (load : node -> option A) (s : cstr) : outcome (option A) :=
  match s with
  | [] => Ok None
  | _ => match load_string s with
         | Ret (Some t) => Ok (load t)
         | Ret None | Fail => Ok None
         | OverRead | NoFuel => UB
         end
  end.
(** *_save_string: [decl] whether the XML declaration is written (the document itself is saved) or
    only its child element. *)
Definition save_object (decl : bool) (saved : list node * bool) (ws : ws_cb) (nl : bool) : option cstr :=
  if snd saved then
    if decl then Some (save_text ws nl (new_xml (fst saved)))
    else match fst saved with t :: _ => Some (save_text ws nl t) | [] => None end
  else None.

(** * Preview sections: src/toc/previewsection.c *)
Definition uattr (n : string) (z : Z) : cstr * option cstr := (s2z n, Some (print_nonneg z)).
(** 469-487 *)
Definition save_section (s : section) : list node * bool :=
  if negb (section_is_valid s) then ([], false)
  else ([Elem (s2z "section") [uattr "id" (s_id s); uattr "x" (s_x s); uattr "y" (s_y s); uattr "w" (s_width s);
                               uattr "h" (s_height s); uattr "rotation" (s_rotation s)] []], true).
(** 585-635 *)
Definition load_section (node : node) : option section :=
  match at_or_below (s2z "section") node with
  | None => None
  | Some t =>
      match uint_attr t (s2z "id"), uint_attr t (s2z "x"), uint_attr t (s2z "y"),
            uint_attr t (s2z "w"), uint_attr t (s2z "h"), uint_attr t (s2z "rotation") with
      | Some i, Some x, Some y, Some w, Some h, Some r =>
          let s := mkSection i x y w h r in if section_is_valid s then Some s else None
      | _, _, _, _, _, _ => None
      end
  end.
(** * src/toc/previewsections.c *)
(** 536-557 *)
Definition save_sections (v : option sections) : list node * bool :=
  if negb (sections_is_valid v) then ([], false)
  else let (k, ok) := save_list save_section (match v with Some w => vec_list w | None => [] end) in
       ([Elem (s2z "sections") [] k], ok).
(** 655-699 *)
Definition load_sections (node : node) : option sections :=
  match at_or_below (s2z "sections") node with
  | None => None
  | Some t => load_list load_section sections_append None (find_all (s2z "section") t)
  end.
(** * src/toc/previewlayoutdefinition.c *)
(** 577-602 *)
Definition save_layout_def (d : layout_def) : list node * bool :=
  if negb (layout_def_is_valid d) then ([], false)
  else let (k, ok) := save_sections (ld_sections d) in
       ([Elem (s2z "previewLayout") [] (text_node (s2z "id") (ld_id d) ++ text_node (s2z "name") (ld_name d) ++ k)], ok).
(** 700-734 *)
Definition load_layout_def (node : node) : option layout_def :=
  match at_or_below (s2z "previewLayout") node with
  | None => None
  | Some t => match load_sections t with
              | None => None
              | Some v => Some (mkLayoutDef (get_text (s2z "id") t) (get_text (s2z "name") t) (Some v))
              end
  end.
(** * src/toc/previewlayoutdefinitions.c *)
(** 705-726 *)
Definition save_layout_defs (v : option layout_defs) : list node * bool :=
  if negb (layout_defs_is_valid v) then ([], false)
  else let (k, ok) := save_list save_layout_def (match v with Some w => vec_list w | None => [] end) in
       ([Elem (s2z "layoutDefinitions") [] k], ok).
(** 824-868; the add dereferences the ids of the stored definitions, which were loaded and
    accepted before and so are not NULL: UB is mapped to a refusal. *)
Definition defs_add (v : layout_defs) (d : layout_def) : layout_defs * bool :=
  match layout_defs_add v d with Ok p => p | UB => (v, false) end.
Definition load_layout_defs (node : node) : option layout_defs :=
  match at_or_below (s2z "layoutDefinitions") node with
  | None => None
  | Some t => load_list load_layout_def defs_add None (find_all (s2z "previewLayout") t)
  end.

(** * Preview pages: src/tocfilepreviewpage.c *)
Definition opt_attr (n : string) (s : option cstr) : list (cstr * option cstr) :=
  match s with Some x => [(s2z n, Some x)] | None => [] end.
Definition xy_attr (n : string) (x y : Z) : list (cstr * option cstr) :=
  if negb (x =? 0) && negb (y =? 0) then [(s2z n, Some (print_nonneg x ++ s2z "x" ++ print_nonneg y))] else [].
(** 572-603: no validity check *)
Definition save_page (p : page) : list node * bool :=
  ([Elem (s2z "pages")
      (opt_attr "layoutId" (pg_layout_id p) ++
       [uattr "frame" (pg_start_frame p); uattr "section" (pg_start_section p); uattr "count" (pg_section_count p)] ++
       xy_attr "dimension" (pg_dimension_x p) (pg_dimension_y p) ++ xy_attr "overlap" (pg_overlap_x p) (pg_overlap_y p)) []], true).
(** sscanf conversion %u: blanks, an optional sign, at least one digit; strtoul with 64-bit long
    saturates, then the value is converted to unsigned int. *)
Definition clamp_u64 (z : Z) : Z := Z.min (2^64 - 1) z.
Definition scan_uint (s : cstr) : option (Z * cstr) :=
  let digits neg l :=
    match l with
    | c :: _ => if c_isdigit c then
                  let (v, r) := read_digits l 0 in
                  Some (u32 (if neg : bool then - clamp_u64 v else clamp_u64 v), r)
                else None
    | [] => None
    end in
  match skip_space s with
  | 45 :: l => digits true l
  | 43 :: l => digits false l
  | l => digits false l
  end.
(** 757-780 *)
Definition extract_xy (s : option cstr) : option (Z * Z) :=
  match s with
  | None | Some [] => Some (0, 0)
  | Some s => match scan_uint s with
              | Some (x, 120 :: r) => match scan_uint r with Some (y, _) => Some (x, y) | None => None end
              | _ => None
              end
  end.
(** afs_xmlutils_get_integer_attribute, through a cast pointer, on an unsigned field that holds 0 *)
Definition get_uattr (n : cstr) (t : node) : Z := match uint_attr t n with Some z => z | None => 0 end.
(** 701-744 *)
Definition load_page (node : node) : option page :=
  match at_or_below (s2z "pages") node with
  | None => None
  | Some t =>
      match extract_xy (node_attr t (s2z "dimension")), extract_xy (node_attr t (s2z "overlap")) with
      | Some (dx, dy), Some (ox, oy) =>
          Some (mkPage (node_attr t (s2z "layoutId")) (get_uattr (s2z "frame") t) (get_uattr (s2z "section") t)
                       (get_uattr (s2z "count") t) dx dy ox oy)
      | _, _ => None
      end
  end.
(** * src/tocfilepreview.c *)
(** 696-728 *)
Definition save_preview (p : option preview) : list node * bool :=
  match p with
  | Some pv =>
      if negb (preview_is_valid p) then ([], false)
      else let (k, ok) := save_list save_page (vec_list (pv_pages pv)) in
           ([Elem (s2z "preview") [] ((if 0 <=? pv_dpi pv then int_node (s2z "dpi") (pv_dpi pv) else []) ++ k)], ok)
  | None => ([], false)
  end.
(** 826-886: the pages are the children with that name (mxmlWalkNext with MXML_NO_DESCEND). *)
Definition load_preview (node : node) : option preview :=
  match at_or_below (s2z "preview") node with
  | None => None
  | Some t => load_list load_page preview_add_page (mkPreview None (get_int (-1) (s2z "dpi") t))
                (filter (named (s2z "pages")) (node_kids t))
  end.

(** * File metadata: src/tocdatafilemetadatasource.c *)
Definition dattr (n : string) (z : Z) : cstr * option cstr := (s2z n, Some (print_dec z)).
(** mxml-node.c 287-313 *)
Definition new_cdata (p : cstr) : node := Elem (CDATA ++ p ++ s2z "]]") [] [].
(** mxml-get.c 33-49 *)
Definition get_cdata (t : node) : option cstr :=
  match t with
  | Elem n _ _ => if has_prefix CDATA n then Some (skipn 8 n) else None
  | Opaque _ => None
  end.
(** 629-641 (and tocmetadatasource.c 866-878); the strings have at least two characters here. *)
Definition strip_cdata (s : cstr) : cstr :=
  match rev s with 93 :: 93 :: r => rev r | _ => s end.
(** 615-651 (and 852-889): the first CDATA child, else the text. *)
Fixpoint first_cdata (l : list node) : option cstr :=
  match l with
  | [] => None
  | x :: l' => match get_cdata x with Some s => Some (strip_cdata s) | None => first_cdata l' end
  end.
Definition data_text (t : node) : option cstr :=
  match first_cdata (node_kids t) with Some s => Some s | None => node_text t end.
(** 455-480 *)
Definition save_fsource (s : fsource) : list node * bool :=
  if negb (fsource_is_valid s) then ([], false)
  else ([Elem (s2z "source") [dattr "fileId" (fs_file_id s); dattr "sourceId" (fs_source_id s)]
          (match fs_data s with
           | Some d => [Elem (s2z "data") (opt_attr "formatId" (fs_format_id s)) [new_cdata d]]
           | None => []
           end)], true).
(** 578-657 *)
Definition load_fsource (node : node) : option fsource :=
  match at_or_below (s2z "source") node with
  | None => None
  | Some t =>
      match int_attr t (s2z "fileId") with
      | None => None
      | Some fid =>
          let sid := match int_attr t (s2z "sourceId") with Some z => z | None => -1 end in
          let s := match find_elem (s2z "data") t with
                   | Some d => mkFsource (data_text d) (node_attr d (s2z "formatId")) fid sid
                   | None => mkFsource None None fid sid
                   end in
          if fsource_is_valid s then Some s else None
      end
  end.
(** * src/tocdatafilemetadata.c *)
(** 591-622 *)
Definition save_fmetadata (m : option fmetadata) : list node * bool :=
  if negb (fmetadata_is_valid m) then ([], false)
  else if fmetadata_count m =? 0 then ([Elem (s2z "metadata") [] []], true)
  else let (k, ok) := save_list save_fsource (match m with Some v => vec_list v | None => [] end) in
       ([Elem (s2z "metadata") [] k], ok).
(** 720-768 *)
Definition load_fmetadata (node : node) : option fmetadata :=
  match at_or_below (s2z "metadata") node with
  | None => None
  | Some t => load_list load_fsource fmetadata_add_source None (find_all (s2z "source") t)
  end.

(** * TOC metadata: src/tocmetadatasource.c *)
(** 617-655: the tags joined with ';' (the buffer is modelled in C41). *)
Fixpoint join_tags (l : list cstr) : cstr :=
  match l with
  | [] => []
  | [x] => x
  | x :: l' => x ++ 59 :: join_tags l'
  end.
Definition get_tags (s : msource) : option cstr := option_map join_tags (ms_tags s).
(** 584-602; [split] stands for boxing_string_split(_, ";") of the external boxing library. *)
Definition set_tags (split : cstr -> list cstr) (s : msource) (tags : option cstr) : msource :=
  match tags with
  | None | Some [] => s
  | Some x => mkMsource (ms_format s) (ms_id s) (ms_file_id s) (ms_data s) (Some (split x))
  end.
(** 670-698 *)
Definition save_msource (s : msource) : list node * bool :=
  if negb (msource_is_valid s) then ([], false)
  else ([Elem (s2z "source") (opt_attr "formatId" (ms_format s) ++ [dattr "id" (ms_id s); dattr "fileId" (ms_file_id s)])
          ((match ms_data s with Some d => [Elem (s2z "data") [] [new_cdata d]] | None => [] end) ++
           text_node (s2z "tags") (get_tags s))], true).
(** 818-900 *)
Definition load_msource (split : cstr -> list cstr) (node : node) : option msource :=
  match at_or_below (s2z "source") node with
  | None => None
  | Some t =>
      match int_attr t (s2z "id"), int_attr t (s2z "fileId") with
      | Some i, Some fid =>
          let d := match find_elem (s2z "data") t with Some x => data_text x | None => None end in
          let s0 := mkMsource (node_attr t (s2z "formatId")) i fid d None in
          let s := match find_elem (s2z "tags") t with Some x => set_tags split s0 (node_text x) | None => s0 end in
          if msource_is_valid s then Some s else None
      | _, _ => None
      end
  end.
(** * src/tocmetadata.c *)
(** 562-588 *)
Definition save_metadata (m : option metadata) : list node * bool :=
  if negb (metadata_is_valid m) then ([], false)
  else let (k, ok) := save_list save_msource (match m with Some v => vec_list v | None => [] end) in
       ([Elem (s2z "metadata") [] k], ok).
(** 686-740 *)
Definition load_metadata (split : cstr -> list cstr) (node : node) : option metadata :=
  match at_or_below (s2z "metadata") node with
  | None => None
  | Some t => load_list (load_msource split) metadata_add_source None (find_all (s2z "source") t)
  end.

(** * Files: src/tocfile.c *)
(** 1476-1495 *)
Definition save_data_v1 (f : toc_file) : list node :=
  int_node (s2z "size") (f_size f) ++
  [Elem (s2z "start") [] (int_node (s2z "frame") (f_start_frame f) ++ int_node (s2z "byte") (f_start_byte f));
   Elem (s2z "end") [] (int_node (s2z "frame") (f_end_frame f) ++ int_node (s2z "byte") (f_end_byte f))].
(** 1498-1520 *)
Definition save_data_v2 (f : toc_file) : list node :=
  [Elem (s2z "data") []
     (text_node (s2z "checksum") (f_checksum f) ++ int_node (s2z "size") (f_size f) ++
      [Elem (s2z "start") [(s2z "frame", Some (print_dec_pad 6 (f_start_frame f))); dattr "byte" (f_start_byte f)] [];
       Elem (s2z "end") [(s2z "frame", Some (print_dec_pad 6 (f_end_frame f))); dattr "byte" (f_end_byte f)] []])].
(** 1026-1082: the results of the preview and metadata saves are ignored. *)
Definition save_file (v1 : bool) (f : toc_file) : list node * bool :=
  if negb (file_is_valid f) then ([], false)
  else ([Elem (s2z "file") (opt_attr "formatId" (f_file_format f))
          (int_node (s2z "id") (f_id f) ++ text_node (s2z "uniqueId") (f_unique_id f) ++
           text_node (s2z "name") (f_name f) ++ text_node (s2z "date") (f_date f) ++
           (if file_has_parent f || file_is_parent f then int_node (s2z "parentId") (f_parent_id f) else []) ++
           (if file_is_digital f then (if v1 then save_data_v1 f else save_data_v2 f) else []) ++
           (if file_is_preview f then fst (save_preview (f_preview f)) else []) ++
           (if file_has_metadata f then fst (save_fmetadata (f_metadata f)) else []))], true).
(** afs_xmlutils_get_node_text_safe (xmlutils.c 208-216) *)
Definition text_safe (t : option node) (d : cstr) : cstr :=
  match t with Some x => match node_text x with Some s => s | None => d end | None => d end.
(** The data part of a file: checksum, size, start frame and byte, end frame and byte. *)
Record file_data := mkData { fd_checksum : option cstr; fd_size : Z; fd_sf : Z; fd_sb : Z; fd_ef : Z; fd_eb : Z }.
Definition load_size (t : node) : Z :=
  match find_elem (s2z "size") t with Some x => atoll (text_safe (Some x) (s2z "0")) | None => 0 end.
(** 929-963, on a fresh object (tocfile.c 205-230) *)
Definition load_data_v1 (t : node) : file_data :=
  let part n k := match find_elem n t with Some x => get_int (-1) k x | None => -1 end in
  mkData (Some (text_safe (find_elem (s2z "checksum") t) [])) (load_size t)
         (part (s2z "start") (s2z "frame")) (part (s2z "start") (s2z "byte"))
         (part (s2z "end") (s2z "frame")) (part (s2z "end") (s2z "byte")).
(** 977-1011 *)
Definition get_iattr (d : Z) (n : cstr) (t : node) : Z := match int_attr t n with Some z => z | None => d end.
Definition load_data_v2 (t : node) : file_data :=
  let part n k := match find_elem n t with Some x => get_iattr (-1) k x | None => -1 end in
  mkData (Some (text_safe (find_elem (s2z "checksum") t) [])) (load_size t)
         (part (s2z "start") (s2z "frame")) (part (s2z "start") (s2z "byte"))
         (part (s2z "end") (s2z "frame")) (part (s2z "end") (s2z "byte")).
Definition present (t : node) (n : cstr) : bool := match find_elem n t with Some _ => true | None => false end.
(** an optional part that must load when its element is there *)
Definition opt_load {A} (load : node -> option A) (t : option node) : option (option A) :=
  match t with
  | None => Some None
  | Some x => match load x with Some a => Some (Some a) | None => None end
  end.
Definition set_types (f : toc_file) (z : Z) : toc_file :=
  mkFile (f_name f) (f_date f) (f_checksum f) (f_size f) (f_id f) (f_start_frame f) (f_start_byte f)
         (f_end_frame f) (f_end_byte f) (f_unique_id f) (f_parent_id f) z
         (f_preview f) (f_file_format f) (f_metadata f).
(** 792-915 *)
Definition load_file (node : node) : option toc_file :=
  match at_or_below (s2z "file") node with
  | None => None
  | Some t =>
      let format := match node_attr t (s2z "formatId") with Some s => s | None => s2z "undefined" end in
      let parent := match int_elem t (s2z "parentId") with
                    | Some z => z
                    | None => match int_elem t (s2z "parentid") with Some z => z | None => FILE_NO_PARENT end
                    end in
      match opt_load load_preview (find_elem (s2z "preview") t), opt_load load_fmetadata (find_elem (s2z "metadata") t) with
      | Some pv, Some md =>
          let ptype := match pv with Some _ => TYPE_PREVIEW | None => TYPE_UNDEFINED end in
          let build d types :=
            mkFile (get_text (s2z "name") t) (get_text (s2z "date") t) (fd_checksum d) (fd_size d)
                   (get_int FILE_ID_UNDEFINED (s2z "id") t) (fd_sf d) (fd_sb d) (fd_ef d) (fd_eb d)
                   (get_text (s2z "uniqueId") t) parent types pv (Some format) md in
          match find_below (s2z "file") (s2z "data") t with
          | Some d => Some (build (load_data_v2 d) (Z.lor ptype TYPE_DIGITAL))
          | None =>
              let types := if present t (s2z "size") || present t (s2z "start") || present t (s2z "end")
                           then Z.lor ptype TYPE_DIGITAL else ptype in
              let f := build (load_data_v1 t) types in
              Some (if file_is_valid f then f else set_types f TYPE_UNDEFINED)
          end
      | _, _ => None
      end
  end.
(** * src/tocfiles.c 815-841, 939-976 *)
Definition save_files (v : option files) : list node * bool :=
  if negb (files_is_valid v) then ([], false)
  else let (k, ok) := save_list (save_file false) (match v with Some w => vec_list w | None => [] end) in
       ([Elem (s2z "files") [] k], ok).
Definition load_files (t : node) : option files :=
  load_list load_file files_add_toc None (find_all (s2z "file") t).
(** * src/tocdatareel.c 1069-1091, 1189-1230 *)
Definition save_reel (r : reel) : list node * bool :=
  if negb (reel_is_valid r) then ([], false)
  else let (k, ok) := match r_files r with Some _ => save_files (r_files r) | None => ([], true) end in
       ([Elem (s2z "reel") [] (text_node (s2z "id") (r_id r) ++ k)], ok).
Definition load_reel (node : node) : option reel :=
  match at_or_below (s2z "reel") node with
  | None => None
  | Some t => match find_elem (s2z "id") t with
              | None => None
              | Some i => match opt_load load_files (find_elem (s2z "files") t) with
                          | None => None
                          | Some fs => Some (mkReel (node_text i) fs)
                          end
              end
  end.
(** * src/tocdatareels.c *)
(** 490-516 *)
Definition save_reels (v : option reels) : list node * bool :=
  if negb (reels_is_valid v) then ([], false)
  else let (k, ok) := save_list save_reel (match v with Some w => vec_list w | None => [] end) in
       ([Elem (s2z "reels") [] k], ok).
(** 614-653: the first reel is searched below the reels element, the following ones in the whole
    input node; without a reels element nothing is loaded and the call succeeds. *)
Fixpoint after_first (n : cstr) (l : list node) : list node :=
  match l with [] => [] | x :: l' => if named n x then l' else after_first n l' end.
Definition reel_nodes (t : node) : list node :=
  if named (s2z "reels") t then find_all (s2z "reel") t
  else match find_elem (s2z "reels") t with
       | None => []
       | Some r => match find_all (s2z "reel") r with
                   | [] => []
                   | _ => filter (named (s2z "reel")) (after_first (s2z "reels") (descendants t))
                   end
       end.
Definition load_reels (t : node) : option reels := load_list load_reel reels_add_reel None (reel_nodes t).
(** * src/tocdata.c *)
(** 1269-1318 *)
Definition save_toc (t : toc_data) : list node * bool :=
  if negb (toc_is_valid t) then ([], false)
  else
    let (k1, ok1) := if negb (metadata_count (t_metadata t) =? 0) then save_metadata (t_metadata t) else ([], true) in
    let (k2, ok2) := if negb (layout_defs_count (t_layouts t) =? 0) then save_layout_defs (t_layouts t) else ([], true) in
    let (k3, ok3) := if negb (reels_count (t_reels t) =? 0) then save_reels (t_reels t) else ([], true) in
    let base := text_node (s2z "indexType") (t_index_type t) ++ text_node (s2z "jobId") (t_job_id t) ++
                text_node (s2z "reelId") (t_reel_id t) in
    let index k := [Elem (s2z "Index") (opt_attr "version" (t_version t)) (base ++ k)] in
    if negb ok1 then (index k1, false)
    else if negb ok2 then (index (k1 ++ k2), false)
    else (index (k1 ++ k2 ++ k3), ok3).
(** 1416-1562; a text field keeps the value it has in [t0] when its element is missing. *)
Definition keep_text (t : node) (n : cstr) (d : option cstr) : option cstr :=
  match find_elem n t with Some x => node_text x | None => d end.
Definition load_toc (split : cstr -> list cstr) (t0 : toc_data) (node : node) : option toc_data :=
  match at_or_below (s2z "Index") node with
  | None => None
  | Some t =>
      match opt_load (load_metadata split) (find_below (s2z "Index") (s2z "metadata") t),
            opt_load load_layout_defs (find_elem (s2z "layoutDefinitions") t),
            opt_load load_reels (find_elem (s2z "reels") t) with
      | Some md, Some ld, Some rl =>
          Some (mkToc (node_attr t (s2z "version")) (keep_text t (s2z "indexType") (t_index_type t0))
                      (keep_text t (s2z "jobId") (t_job_id t0)) (keep_text t (s2z "reelId") (t_reel_id t0)) rl md ld)
      | _, _, _ => None
      end
  end.
