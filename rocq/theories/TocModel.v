(** The table-of-contents objects and their non-XML operations.

    Modelling conventions.
    - A C object is a value; a pointer that may be NULL is an [option].
    - A struct whose only payload is a vector pointer is a [vec]: [None] when the vector pointer
      is NULL, [Some l] when it points to a vector holding [l]. The vectors come from the external
      boxing library (gvector); appending is assumed to succeed, and vectors are assumed to hold
      non-NULL element pointers, which every add function enforces.
    - Reference counts are not part of these values (see RefModel.v).
    - boxing_string_clone is external: assumed to copy the bytes and to map NULL to NULL.
    - int fields range over [is_i32], unsigned over [is_u32], 64-bit sizes over [is_i64]. *)
From Verif Require Import CBase.

Notation vec A := (option (list A)) (only parsing).

(** inc/toc/previewsection.h: struct afs_toc_preview_section_s *)
Record section := mkSection {
  s_id : Z; s_x : Z; s_y : Z; s_width : Z; s_height : Z; s_rotation : Z }.
Notation sections := (vec section) (only parsing).
(** inc/toc/previewlayoutdefinition.h *)
Record layout_def := mkLayoutDef {
  ld_id : option cstr; ld_name : option cstr; ld_sections : option sections }.
Notation layout_defs := (vec layout_def) (only parsing).
(** inc/tocfilepreviewpage.h:26-38 *)
Record page := mkPage {
  pg_layout_id : option cstr; pg_start_frame : Z; pg_start_section : Z; pg_section_count : Z;
  pg_dimension_x : Z; pg_dimension_y : Z; pg_overlap_x : Z; pg_overlap_y : Z }.
(** inc/tocfilepreview.h:28-34 *)
Record preview := mkPreview { pv_pages : vec page; pv_dpi : Z }.
(** inc/tocdatafilemetadatasource_c.h, inc/tocdatafilemetadata_c.h *)
Record fsource := mkFsource {
  fs_data : option cstr; fs_format_id : option cstr; fs_file_id : Z; fs_source_id : Z }.
Notation fmetadata := (vec fsource) (only parsing).
(** inc/tocmetadatasource_c.h, inc/tocmetadata_c.h *)
Record msource := mkMsource {
  ms_format : option cstr; ms_id : Z; ms_file_id : Z; ms_data : option cstr; ms_tags : vec cstr }.
Notation metadata := (vec msource) (only parsing).
(** inc/tocfile.h:50-69 *)
Record toc_file := mkFile {
  f_name : option cstr; f_date : option cstr; f_checksum : option cstr; f_size : Z; f_id : Z;
  f_start_frame : Z; f_start_byte : Z; f_end_frame : Z; f_end_byte : Z;
  f_unique_id : option cstr; f_parent_id : Z; f_types : Z; f_preview : option preview;
  f_file_format : option cstr; f_metadata : option fmetadata }.
Notation files := (vec toc_file) (only parsing).
(** inc/tocdatareel_c.h *)
Record reel := mkReel { r_id : option cstr; r_files : option files }.
Notation reels := (vec reel) (only parsing).
(** inc/tocdata_c.h *)
Record toc_data := mkToc {
  t_version : option cstr; t_index_type : option cstr; t_job_id : option cstr; t_reel_id : option cstr;
  t_reels : option reels; t_metadata : option metadata; t_layouts : option layout_defs }.

(** inc/tocfile.h:27-47 *)
Definition TYPE_UNDEFINED := 0.
Definition TYPE_DIGITAL := 1.
Definition TYPE_PREVIEW := 2.
Definition TYPE_ALL := 3.
Definition FILE_PARENT := -1.
Definition FILE_NO_PARENT := -2.
Definition FILE_ID_UNDEFINED := -1.

(** Shared shapes of the hand-written container functions. *)
Definition ptr_equal {A} (eqf : A -> A -> bool) (a b : option A) : bool :=
  match a, b with
  | None, None => true
  | Some x, Some y => eqf x y
  | _, _ => false
  end.
Fixpoint list_equal {A} (eqf : A -> A -> bool) (a b : list A) : bool :=
  match a, b with
  | [], [] => true
  | x :: a', y :: b' => eqf x y && list_equal eqf a' b'
  | _, _ => false
  end.
(** Both vectors NULL: equal; exactly one NULL: different; otherwise size and elements. *)
Definition vec_equal {A} (eqf : A -> A -> bool) (a b : vec A) : bool := ptr_equal (list_equal eqf) a b.
(** strcmp(a ? a : "", b ? b : "") == 0 *)
Definition str_equal (a b : option cstr) : bool := str_eqb (or_empty a) (or_empty b).
Definition vec_list {A} (v : vec A) : list A := match v with Some l => l | None => [] end.
Definition vec_size {A} (v : vec A) : Z := Z.of_nat (List.length (vec_list v)).
(** gvector_append_data on a vector that is created first when NULL. *)
Definition vec_append {A} (v : vec A) (x : A) : vec A := Some (vec_list v ++ [x]).
(** *_get(container, index): NULL when the container or vector is NULL or index >= size. *)
Definition vec_get {A} (v : option (vec A)) (i : Z) : option A :=
  match v with
  | Some (Some l) => if i <? Z.of_nat (List.length l) then nth_error l (Z.to_nat i) else None
  | _ => None
  end.
Definition clone_vec {A} (clone : A -> A) (v : vec A) : vec A :=
  match v with None => None | Some l => Some (map clone l) end.
Definition set_bit (mask types : Z) : bool := negb (Z.land types mask =? 0).

(** * Preview sections: src/toc/previewsection.c *)
(** 257-279 *)
Definition section_is_valid (s : section) : bool :=
  if negb (s_rotation s =? 0) && negb (s_rotation s =? 90) && negb (s_rotation s =? 180) && negb (s_rotation s =? 270)
  then false
  else negb ((s_width s =? 0) || (s_height s =? 0)).
(** 225-243 *)
Definition section_equal (a b : section) : bool :=
  (s_id a =? s_id b) && (s_x a =? s_x b) && (s_y a =? s_y b) && (s_width a =? s_width b)
  && (s_height a =? s_height b) && (s_rotation a =? s_rotation b).
(** 170-187 *)
Definition section_clone (s : section) : section :=
  mkSection (s_id s) (s_x s) (s_y s) (s_width s) (s_height s) (s_rotation s).
(** 293-325 *)
Definition section_content_width (s : section) : Z :=
  if negb (s_rotation s mod 90 =? 0) then 0
  else if s_rotation s mod 180 =? 0 then s_width s else s_height s.
Definition section_content_height (s : section) : Z :=
  if negb (s_rotation s mod 90 =? 0) then 0
  else if s_rotation s mod 180 =? 0 then s_height s else s_width s.
(** 339-350; unsigned arithmetic wraps. *)
Definition section_is_overlap (a b : section) : bool :=
  if negb (section_is_valid a) || negb (section_is_valid b) then false
  else (s_x a <=? u32 (s_x b + s_width b - 1))
       && (s_x b <=? u32 (s_x a + s_width a - 1))
       && (s_y a <=? u32 (s_y b + s_height b - 1))
       && (s_y b <=? u32 (s_y a + s_height a - 1)).

(** * Section lists: src/toc/previewsections.c *)
(** 340-385: refuse invalid, repeated id, overlap; otherwise append. *)
Definition sections_append (v : sections) (s : section) : sections * bool :=
  if negb (section_is_valid s) then (v, false)
  else if existsb (fun c => (s_id c =? s_id s) || section_is_overlap c s) (vec_list v) then (v, false)
  else (vec_append v s, true).
(** 274-293: validity of each element and absence of overlap with the later ones. *)
Fixpoint sections_check (l : list section) : bool :=
  match l with
  | [] => true
  | s :: l' => if negb (section_is_valid s) then false
               else if existsb (section_is_overlap s) l' then false
               else sections_check l'
  end.
(** 257-296 *)
Definition sections_is_valid (v : option sections) : bool :=
  match v with
  | Some (Some ((_ :: _) as l)) => sections_check l
  | _ => false
  end.
(** 204-243, 142-165 *)
Definition sections_equal : sections -> sections -> bool := vec_equal section_equal.
Definition sections_clone : sections -> sections := clone_vec section_clone.

(** * Layout definitions: src/toc/previewlayoutdefinition.c *)
(** 320-336 *)
Definition layout_def_is_valid (d : layout_def) : bool :=
  negb (null_or_empty (ld_id d)) && negb (null_or_empty (ld_name d)) && sections_is_valid (ld_sections d).
(** 284-306 *)
Definition layout_def_equal (a b : layout_def) : bool :=
  ptr_equal sections_equal (ld_sections a) (ld_sections b)
  && str_equal (ld_id a) (ld_id b) && str_equal (ld_name a) (ld_name b).
(** 231-244 *)
Definition layout_def_clone (d : layout_def) : layout_def :=
  mkLayoutDef (ld_id d) (ld_name d) (option_map sections_clone (ld_sections d)).
(** 350-355 *)
Definition layout_def_section_count (d : layout_def) : Z :=
  match ld_sections d with Some v => u32 (vec_size v) | None => 0 end.
(** 369-374 *)
Definition layout_def_get_section (d : layout_def) (i : Z) : option section := vec_get (ld_sections d) i.
(** 391-422: the loop repeats the checks of sections_append; then creates the list if needed. *)
Definition layout_def_add_section (d : layout_def) (s : section) : layout_def * bool :=
  if negb (section_is_valid s) then (d, false)
  else
    let current := match ld_sections d with Some v => vec_list v | None => [] end in
    if existsb (fun c => (s_id c =? s_id s) || section_is_overlap c s) current then (d, false)
    else
      let v := match ld_sections d with Some v => v | None => None end in
      let (v', ok) := sections_append v s in
      (mkLayoutDef (ld_id d) (ld_name d) (Some v'), ok).

(** * Layout definition lists: src/toc/previewlayoutdefinitions.c *)
(** strcmp(stored->id, id): dereferences the stored pointer. *)
Fixpoint find_by_str {A} (key : A -> option cstr) (id : cstr) (l : list A) : outcome (option A) :=
  match l with
  | [] => Ok None
  | x :: l' => match key x with
               | None => UB
               | Some k => if str_eqb k id then Ok (Some x) else find_by_str key id l'
               end
  end.
(** 357-385; [defs] is the (non-NULL) container, [id] the caller's string. *)
Definition layout_defs_by_id (defs : option layout_defs) (id : option cstr) : outcome (option layout_def) :=
  match defs, id with
  | Some v, Some ((_ :: _) as k) => find_by_str ld_id k (vec_list v)
  | _, _ => Ok None
  end.
(** 399-427 *)
Definition layout_defs_by_name (defs : option layout_defs) (name : option cstr) : outcome (option layout_def) :=
  match defs, name with
  | Some v, Some ((_ :: _) as k) => find_by_str ld_name k (vec_list v)
  | _, _ => Ok None
  end.
(** 485-513 *)
Definition layout_defs_has (defs : option layout_defs) (id : option cstr) : outcome bool :=
  obind (layout_defs_by_id defs id) (fun r => Ok (match r with Some _ => true | None => false end)).
(** 444-471 *)
Definition layout_defs_add (v : layout_defs) (d : layout_def) : outcome (layout_defs * bool) :=
  if negb (layout_def_is_valid d) then Ok (v, false)
  else obind (layout_defs_has (Some v) (ld_id d)) (fun has =>
       if has then Ok (v, false) else Ok (vec_append v d, true)).
(** 298-311 *)
Definition layout_defs_count (v : option layout_defs) : Z :=
  match v with Some v => u32 (vec_size v) | None => 0 end.
(** 258-284 *)
Definition layout_defs_is_valid (v : option layout_defs) : bool :=
  match v with None => false | Some v => forallb layout_def_is_valid (vec_list v) end.
(** 205-244, 142-165 *)
Definition layout_defs_equal : layout_defs -> layout_defs -> bool := vec_equal layout_def_equal.
Definition layout_defs_clone : layout_defs -> layout_defs := clone_vec layout_def_clone.

(** * Preview pages: src/tocfilepreviewpage.c *)
(** 330-347 *)
Definition page_is_valid (p : page) : bool :=
  negb (null_or_empty (pg_layout_id p)) && negb (pg_section_count p =? 0)
  && (pg_overlap_x p <=? pg_dimension_x p) && (pg_overlap_y p <=? pg_dimension_y p).
(** 291-316 *)
Definition page_equal (a b : page) : bool :=
  str_equal (pg_layout_id a) (pg_layout_id b) && (pg_start_frame a =? pg_start_frame b)
  && (pg_start_section a =? pg_start_section b) && (pg_section_count a =? pg_section_count b)
  && (pg_dimension_x a =? pg_dimension_x b) && (pg_dimension_y a =? pg_dimension_y b)
  && (pg_overlap_x a =? pg_overlap_x b) && (pg_overlap_y a =? pg_overlap_y b).
(** 235-252 *)
Definition page_clone (p : page) : page :=
  mkPage (pg_layout_id p) (pg_start_frame p) (pg_start_section p) (pg_section_count p)
         (pg_dimension_x p) (pg_dimension_y p) (pg_overlap_x p) (pg_overlap_y p).
(** 401-406: the arithmetic; [cap] is a non-zero int, the sum is unsigned (int operand converted). *)
Definition frames_for (start_section section_count cap : Z) : Z :=
  let total := u32 (start_section + section_count) in
  let q := total / u32 cap in
  if negb (total mod u32 cap =? 0) then u32 (q + 1) else q.
(** 363-409: (returned flag, *frames_count). *)
Definition page_frames_count (p : page) (defs : option layout_defs) : outcome (bool * Z) :=
  match defs, pg_layout_id p with
  | Some _, Some _ =>
      obind (layout_defs_by_id defs (pg_layout_id p)) (fun r =>
      match r with
      | None => Ok (false, 0)
      | Some d =>
          let cap := i32 (layout_def_section_count d) in
          if cap =? 0 then Ok (false, 0)
          else if pg_section_count p =? 0 then Ok (true, 0)
          else Ok (true, frames_for (pg_start_section p) (pg_section_count p) cap)
      end)
  | _, _ => Ok (false, 0)
  end.
(** 446-449: int arithmetic throughout (operands cast to int); signed overflow is undefined, so
    every intermediate result is checked. The outer subtraction is on unsigned. *)
Definition chk32 (z : Z) : outcome Z := if (- 2^31 <=? z) && (z <? 2^31) then Ok z else UB.
Definition sections_in_frame (start_section section_count cap frame : Z) : outcome Z :=
  obind (chk32 (i32 section_count + i32 start_section)) (fun total =>
  obind (chk32 (i32 cap * Z.max 0 (i32 frame))) (fun before =>
  obind (chk32 (total - before)) (fun a =>
  obind (chk32 (i32 start_section - before)) (fun b =>
  Ok (u32 (Z.max (Z.min a (i32 cap)) 0 - Z.max (Z.min b (i32 cap)) 0)))))).
(** 426-452: None when the call reports failure. *)
Definition page_sections_on_frame (p : page) (frame : Z) (defs : option layout_defs) : outcome (option Z) :=
  match defs, pg_layout_id p with
  | Some _, Some _ =>
      obind (layout_defs_by_id defs (pg_layout_id p)) (fun r =>
      match r with
      | None => Ok None
      | Some d => obind (sections_in_frame (pg_start_section p) (pg_section_count p) (layout_def_section_count d) frame)
                        (fun n => Ok (Some n))
      end)
  | _, _ => Ok None
  end.

(** * Previews: src/tocfilepreview.c *)
(** 495-521 *)
Definition preview_is_valid (p : option preview) : bool :=
  match p with
  | Some pv => match pv_pages pv with
               | Some ((_ :: _) as l) => forallb page_is_valid l
               | _ => false
               end
  | None => false
  end.
(** 258-294 *)
Definition preview_equal (a b : preview) : bool :=
  vec_equal page_equal (pv_pages a) (pv_pages b) && (pv_dpi a =? pv_dpi b).
(** 193-219 *)
Definition preview_clone (p : preview) : preview :=
  match pv_pages p with
  | None => mkPreview None (pv_dpi p)
  | Some l => mkPreview (Some (map page_clone l)) (pv_dpi p)
  end.
(** 311-338 *)
Definition preview_add_page (p : preview) (g : page) : preview * bool :=
  if negb (page_is_valid g) then (p, false)
  else (mkPreview (vec_append (pv_pages p) g) (pv_dpi p), true).
(** 384-397 *)
Definition preview_page_count (p : option preview) : Z :=
  match p with Some pv => u32 (vec_size (pv_pages pv)) | None => 0 end.
(** 411-429 *)
Definition preview_start_frame (p : option preview) : Z :=
  match p with
  | Some pv => match pv_pages pv with Some (g :: _) => i32 (pg_start_frame g) | _ => -1 end
  | None => -1
  end.
(** 443-459 *)
Definition page_add_offset (offset : Z) (g : page) : page :=
  mkPage (pg_layout_id g) (u32 (pg_start_frame g + offset)) (pg_start_section g) (pg_section_count g)
         (pg_dimension_x g) (pg_dimension_y g) (pg_overlap_x g) (pg_overlap_y g).
Definition preview_add_frame_offset (offset : Z) (p : preview) : preview :=
  mkPreview (option_map (map (page_add_offset offset)) (pv_pages p)) (pv_dpi p).
(** 549-569: the loop over the pages; state (firstFrame, lastFrame); None = a page reported failure. *)
Definition INT_MAX := 2147483647.
Fixpoint preview_frames_loop (defs : option layout_defs) (l : list page) (first last : Z)
  : outcome (option (Z * Z)) :=
  match l with
  | [] => Ok (Some (first, last))
  | g :: l' =>
      obind (page_frames_count g defs) (fun r =>
      let (ok, f) := r in
      if negb ok then Ok None
      else if 0 <? f
           then preview_frames_loop defs l' (Z.min first (pg_start_frame g))
                                    (Z.max last (u32 (pg_start_frame g + f - 1)))
           else preview_frames_loop defs l' first last)
  end.
(** 537-577. Result (flag, written): [None] written = *frames_count left untouched. *)
Definition preview_frames_count (p : option preview) (defs : option layout_defs) : outcome (bool * option Z) :=
  match p, defs with
  | Some pv, Some _ =>
      obind (preview_frames_loop defs (vec_list (pv_pages pv)) INT_MAX 0) (fun r =>
      match r with
      | None => Ok (false, Some 0)
      | Some (first, last) =>
          if first =? INT_MAX then Ok (true, Some 0) else Ok (true, Some (u32 (last - first + 1)))
      end)
  | _, _ => Ok (false, None)
  end.

(** * File metadata: src/tocdatafilemetadatasource.c, src/tocdatafilemetadata.c *)
(** tocdatafilemetadatasource.c 265-280 *)
Definition fsource_is_valid (s : fsource) : bool :=
  negb (null_or_empty (fs_data s)) || negb (fs_file_id s =? -1).
(** 230-251 *)
Definition fsource_equal (a b : fsource) : bool :=
  str_equal (fs_data a) (fs_data b) && str_equal (fs_format_id a) (fs_format_id b)
  && (fs_file_id a =? fs_file_id b) && (fs_source_id a =? fs_source_id b).
(** 175-191 *)
Definition fsource_clone (s : fsource) : fsource :=
  mkFsource (fs_data s) (fs_format_id s) (fs_file_id s) (fs_source_id s).
(** tocdatafilemetadata.c 305-332, 378-391, 405-431, 249-288, 188-210 *)
Definition fmetadata_add_source (m : fmetadata) (s : fsource) : fmetadata * bool :=
  if negb (fsource_is_valid s) then (m, false) else (vec_append m s, true).
Definition fmetadata_count (m : option fmetadata) : Z :=
  match m with Some v => u32 (vec_size v) | None => 0 end.
Definition fmetadata_is_valid (m : option fmetadata) : bool :=
  match m with None => false | Some v => forallb fsource_is_valid (vec_list v) end.
Definition fmetadata_equal : fmetadata -> fmetadata -> bool := vec_equal fsource_equal.
Definition fmetadata_clone : fmetadata -> fmetadata := clone_vec fsource_clone.

(** * TOC metadata: src/tocmetadatasource.c, src/tocmetadata.c *)
(** tocmetadatasource.c 552-569; FILE_ID_UNDEFINED = -1 *)
Definition msource_is_valid (s : msource) : bool :=
  negb (null_or_empty (ms_format s)
        || (negb (ms_file_id s =? FILE_ID_UNDEFINED) && (ms_file_id s <? 0))
        || ((ms_file_id s =? FILE_ID_UNDEFINED) && null_or_empty (ms_data s))).
(** 995-1021 and 514-538 *)
Definition msource_equal (a b : msource) : bool :=
  vec_equal str_eqb (ms_tags a) (ms_tags b) && str_equal (ms_format a) (ms_format b)
  && (ms_id a =? ms_id b) && (ms_file_id a =? ms_file_id b) && str_equal (ms_data a) (ms_data b).
(** 446-475 *)
Definition msource_clone (s : msource) : msource :=
  mkMsource (ms_format s) (ms_id s) (ms_file_id s) (ms_data s) (clone_vec (fun t => t) (ms_tags s)).
(** tocmetadata.c 314-341, 387-400, 414-440, 258-297, 197-219 *)
Definition metadata_add_source (m : metadata) (s : msource) : metadata * bool :=
  if negb (msource_is_valid s) then (m, false) else (vec_append m s, true).
Definition metadata_count (m : option metadata) : Z :=
  match m with Some v => u32 (vec_size v) | None => 0 end.
Definition metadata_is_valid (m : option metadata) : bool :=
  match m with
  | Some (Some ((_ :: _) as l)) => forallb msource_is_valid l
  | _ => false
  end.
Definition metadata_equal : metadata -> metadata -> bool := vec_equal msource_equal.
Definition metadata_clone : metadata -> metadata := clone_vec msource_clone.

(** * Files: src/tocfile.c *)
(** 1254-1268, 1200-1214, 1227-1241 *)
Definition file_is_parent (f : toc_file) : bool := f_parent_id f =? FILE_PARENT.
Definition file_has_parent (f : toc_file) : bool :=
  negb (f_parent_id f =? FILE_NO_PARENT) && negb (file_is_parent f).
Definition file_is_standalone (f : toc_file) : bool := negb (file_is_parent f) && negb (file_has_parent f).
(** 1281-1322 *)
Definition file_is_digital (f : toc_file) : bool := set_bit TYPE_DIGITAL (f_types f).
Definition file_is_preview (f : toc_file) : bool := set_bit TYPE_PREVIEW (f_types f).
(** 1335-1349 *)
Definition file_has_metadata (f : toc_file) : bool := negb (fmetadata_count (f_metadata f) =? 0).
(** 1364-1422 *)
Definition file_is_valid (f : toc_file) : bool :=
  if f_id f <? -2 then false
  else if null_or_empty (f_name f) || null_or_empty (f_date f) then false
  else if file_is_digital f &&
          ((f_start_frame f <? 0) || (f_start_byte f <? 0) || (f_end_frame f <? f_start_frame f)
           || (match f_checksum f with None => true | Some _ => false end)
           || ((f_end_frame f =? f_start_frame f) && (f_end_byte f <? f_start_byte f))) then false
  else if file_is_preview f && negb (preview_is_valid (f_preview f)) then false
  else if file_has_metadata f && negb (fmetadata_is_valid (f_metadata f)) then false
  else true.
(** 407-439 *)
Definition file_equal (a b : toc_file) : bool :=
  str_equal (f_name a) (f_name b) && str_equal (f_date a) (f_date b)
  && str_equal (f_checksum a) (f_checksum b) && (f_size a =? f_size b) && (f_id a =? f_id b)
  && (f_start_frame a =? f_start_frame b) && (f_start_byte a =? f_start_byte b)
  && (f_end_frame a =? f_end_frame b) && (f_end_byte a =? f_end_byte b)
  && str_equal (f_unique_id a) (f_unique_id b) && (f_parent_id a =? f_parent_id b)
  && (f_types a =? f_types b) && ptr_equal preview_equal (f_preview a) (f_preview b)
  && str_equal (f_file_format a) (f_file_format b)
  && ptr_equal fmetadata_equal (f_metadata a) (f_metadata b).
(** 344-368 through 157-193 and 258-298 *)
Definition file_clone (f : toc_file) : toc_file :=
  mkFile (f_name f) (f_date f) (f_checksum f) (f_size f) (f_id f) (f_start_frame f) (f_start_byte f)
         (f_end_frame f) (f_end_byte f) (f_unique_id f) (f_parent_id f) (f_types f)
         (option_map preview_clone (f_preview f)) (f_file_format f)
         (option_map fmetadata_clone (f_metadata f)).
Definition file_set_frames (f : toc_file) (s e : Z) : toc_file :=
  mkFile (f_name f) (f_date f) (f_checksum f) (f_size f) (f_id f) s (f_start_byte f)
         e (f_end_byte f) (f_unique_id f) (f_parent_id f) (f_types f)
         (f_preview f) (f_file_format f) (f_metadata f).
Definition file_set_preview (f : toc_file) (p : option preview) : toc_file :=
  mkFile (f_name f) (f_date f) (f_checksum f) (f_size f) (f_id f) (f_start_frame f) (f_start_byte f)
         (f_end_frame f) (f_end_byte f) (f_unique_id f) (f_parent_id f) (f_types f)
         p (f_file_format f) (f_metadata f).
(** 469-484: int += unsigned converts through unsigned, back to int modulo 2^32. *)
Definition file_add_frame_offset (offset : Z) (f : toc_file) : toc_file :=
  if (f_start_frame f <? 0) || (f_end_frame f <? 0) then f
  else file_set_frames f (i32 (f_start_frame f + offset)) (i32 (f_end_frame f + offset)).
(** 1435-1443: int arithmetic, overflow undefined *)
Definition file_duration_frames (f : toc_file) : outcome Z :=
  obind (chk32 (f_end_frame f - f_start_frame f)) (fun d => chk32 (d + 1)).

(** * File lists: src/tocfiles.c *)
(** 348-375 *)
Definition files_add_toc (v : files) (f : toc_file) : files * bool :=
  if negb (file_is_valid f) then (v, false) else (vec_append v f, true).
(** 670-696 *)
Definition files_is_valid (v : option files) : bool :=
  match v with None => false | Some v => forallb file_is_valid (vec_list v) end.
(** 295-331, 234-256 *)
Definition files_equal : files -> files -> bool := vec_equal file_equal.
Definition files_clone : files -> files := clone_vec file_clone.
(** 516-532: the first file of the list that has a requested type decides. *)
Fixpoint first_frame_scan (type : Z) (l : list toc_file) : Z :=
  match l with
  | [] => -1
  | f :: l' =>
      if set_bit TYPE_DIGITAL type && file_is_digital f then f_start_frame f
      else if set_bit TYPE_PREVIEW type && file_is_preview f then preview_start_frame (f_preview f)
      else first_frame_scan type l'
  end.
(** 475-536 *)
Definition files_first_frame (v : option files) (type : Z) : Z :=
  match v with
  | Some (Some ((_ :: _) as l)) =>
      if type =? TYPE_UNDEFINED then -1
      else if type =? TYPE_ALL then
        let d := first_frame_scan TYPE_DIGITAL l in
        let p := first_frame_scan TYPE_PREVIEW l in
        if negb (d =? -1) && negb (p =? -1) then Z.min p d
        else if negb (d =? -1) then d
        else if negb (p =? -1) then p
        else -1
      else first_frame_scan type l
  | _ => -1
  end.
(** 587-606, run on the reversed list. Reading frameCount when the callee did not write it is
    undefined behaviour. [int + unsigned - 1] wraps and is converted back to int. *)
Fixpoint last_frame_scan (type : Z) (defs : option layout_defs) (l : list toc_file) : outcome Z :=
  match l with
  | [] => Ok (-1)
  | f :: l' =>
      if set_bit TYPE_DIGITAL type && file_is_digital f then Ok (f_end_frame f)
      else if set_bit TYPE_PREVIEW type && file_is_preview f then
        obind (preview_frames_count (f_preview f) defs) (fun r =>
        match snd r with
        | None => UB
        | Some n => Ok (i32 (preview_start_frame (f_preview f) + n - 1))
        end)
      else last_frame_scan type defs l'
  end.
(** 552-610, for one concrete type *)
Definition last_frame_one (l : list toc_file) (type : Z) (defs : option layout_defs) : outcome Z :=
  match l with
  | [] => Ok (-1)
  | _ =>
      if (type =? TYPE_PREVIEW) && (match defs with None => true | _ => false end) then Ok (-1)
      else if type =? TYPE_UNDEFINED then Ok (-1)
      else last_frame_scan type defs (rev l)
  end.
Definition files_last_frame (v : option files) (type : Z) (defs : option layout_defs) : outcome Z :=
  match v with
  | Some (Some ((_ :: _) as l)) =>
      if type =? TYPE_ALL then
        obind (last_frame_one l TYPE_DIGITAL None) (fun d =>
        obind (last_frame_one l TYPE_PREVIEW defs) (fun p => Ok (Z.max d p)))
      else last_frame_one l type defs
  | _ => Ok (-1)
  end.
(** 449-460 *)
Definition files_duration_frames (v : option files) (type : Z) (defs : option layout_defs) : outcome Z :=
  let first := files_first_frame v type in
  obind (files_last_frame v type defs) (fun last =>
  if (first <? 0) || (last <? 0) then Ok 0
  else obind (chk32 (last - first)) (fun d => chk32 (d + 1))).
(** 637-655, one iteration of the loop *)
Definition file_offset_step (offset type : Z) (f : toc_file) : toc_file :=
  let f1 := if set_bit TYPE_DIGITAL type
            then file_set_frames f
                   (if 0 <=? f_start_frame f then i32 (f_start_frame f + offset) else f_start_frame f)
                   (if 0 <=? f_end_frame f then i32 (f_end_frame f + offset) else f_end_frame f)
            else f in
  if set_bit TYPE_PREVIEW type
  then file_set_preview f1 (option_map (preview_add_frame_offset offset) (f_preview f1))
  else f1.
Definition files_add_frame_offset (v : files) (offset type : Z) : files :=
  option_map (map (file_offset_step offset type)) v.

(** * Reels: src/tocdatareel.c *)
(** The files of a reel, [] when any pointer on the way is NULL. *)
Definition reel_files (r : reel) : list toc_file :=
  match r_files r with Some v => vec_list v | None => [] end.
(** 265-297 *)
Definition reel_add_file (r : reel) (f : toc_file) : reel * bool :=
  if negb (file_is_valid f) then (r, false)
  else (mkReel (r_id r) (Some (vec_append (match r_files r with Some v => v | None => None end) f)), true).
(** 310-333, 347-380, 394-427 *)
Definition reel_file_by_index (r : reel) (i : Z) : option toc_file := vec_get (r_files r) i.
Definition reel_file_by_id (r : reel) (id : Z) : option toc_file :=
  find (fun f => f_id f =? id) (reel_files r).
Definition reel_file_by_unique_id (r : reel) (id : option cstr) : outcome (option toc_file) :=
  match id with
  | Some ((_ :: _) as k) => find_by_str f_unique_id k (reel_files r)
  | _ => Ok None
  end.
(** 465-475: the two low bits of the section mask become the file type mask. *)
Definition section_type (sect : Z) : Z :=
  Z.lor (if set_bit 1 sect then TYPE_DIGITAL else 0) (if set_bit 2 sect then TYPE_PREVIEW else 0).
(** 441-493, 507-565, 579-631: clones of the selected files are added to a new list (created on the
    first hit, NULL when nothing was selected); the add refuses invalid files. *)
Definition select_files (sel : toc_file -> bool) (r : reel) : option files :=
  fold_left (fun acc f =>
    if sel f then Some (fst (files_add_toc (match acc with Some v => v | None => None end) (file_clone f)))
    else acc) (reel_files r) None.
Definition type_hits (types : Z) (f : toc_file) : bool := set_bit (section_type types) (f_types f).
Definition reel_parent_files (r : reel) (types : Z) : option files :=
  select_files (fun f => file_is_parent f && type_hits types f) r.
Definition reel_child_files (r : reel) (types : Z) : option files :=
  select_files (fun f => negb (file_is_parent f) && type_hits types f) r.
Definition reel_standalone_files (r : reel) (types : Z) : option files :=
  select_files (fun f => file_is_standalone f && type_hits types f) r.
(** 645-663 *)
Definition reel_file_count (r : reel) : Z := u32 (Z.of_nat (List.length (reel_files r))).
(** 710-741, 757-788 (the layout definitions argument is always NULL) *)
Definition reel_first_frame (r : reel) (sect : Z) : Z :=
  match r_files r with
  | None => -1
  | Some v => if section_type sect =? 0 then -1 else files_first_frame (Some v) (section_type sect)
  end.
Definition reel_last_frame (r : reel) (sect : Z) : outcome Z :=
  match r_files r with
  | None => Ok (-1)
  | Some v => if section_type sect =? 0 then Ok (-1) else files_last_frame (Some v) (section_type sect) None
  end.
(** 678-694 *)
Definition reel_frame_count (r : reel) (sect : Z) : outcome Z :=
  let first := reel_first_frame r sect in
  obind (reel_last_frame r sect) (fun last =>
  if (first <? 0) || (last <? 0) || (last <? first) then Ok 0
  else obind (chk32 (last - first)) (fun d => obind (chk32 (d + 1)) (fun n => Ok (u32 n)))).
(** 804-837 *)
Definition reel_add_frame_offset (r : reel) (offset sect : Z) : reel :=
  match r_files r with
  | None => r
  | Some v => if section_type sect =? 0 then r
              else mkReel (r_id r) (Some (files_add_frame_offset v offset (section_type sect)))
  end.
(** 853-878; the difference is computed in int (overflow undefined), the sum in 64 bits. *)
Fixpoint size_bytes_loop (l : list toc_file) (acc : Z) : outcome Z :=
  match l with
  | [] => Ok acc
  | f :: l' =>
      if f_end_byte f <? f_start_byte f then Ok 0
      else obind (chk32 (f_end_byte f - f_start_byte f)) (fun d => obind (chk32 (d + 1)) (fun n =>
           if acc + n <? 2^63 then size_bytes_loop l' (acc + n) else UB))
  end.
Definition reel_size_bytes (r : reel) : outcome Z := size_bytes_loop (reel_files r) 0.
(** 892-910 *)
Definition reel_is_valid (r : reel) : bool :=
  if negb (reel_file_count r =? 0) && negb (files_is_valid (r_files r)) then false
  else negb (null_or_empty (r_id r)).
(** 202-221, 150-163 *)
Definition reel_equal (a b : reel) : bool :=
  str_equal (r_id a) (r_id b) && ptr_equal files_equal (r_files a) (r_files b).
Definition reel_clone (r : reel) : reel := mkReel (r_id r) (option_map files_clone (r_files r)).

(** * Reel lists: src/tocdatareels.c *)
(** 250-277, 323-336, 350-371, 197-233, 136-158 *)
Definition reels_add_reel (v : reels) (r : reel) : reels * bool :=
  if negb (reel_is_valid r) then (v, false) else (vec_append v r, true).
Definition reels_count (v : option reels) : Z :=
  match v with Some v => u32 (vec_size v) | None => 0 end.
Definition reels_is_valid (v : option reels) : bool :=
  match v with
  | None => false
  | Some v => if reels_count (Some v) =? 0 then true else forallb reel_is_valid (vec_list v)
  end.
Definition reels_equal : reels -> reels -> bool := vec_equal reel_equal.
Definition reels_clone : reels -> reels := clone_vec reel_clone.

(** * TOC data: src/tocdata.c *)
Definition toc_reels (t : toc_data) : list reel :=
  match t_reels t with Some v => vec_list v | None => [] end.
(** 860-912 *)
Definition toc_reel_count (t : toc_data) : Z := reels_count (t_reels t).
Definition toc_metadata_source_count (t : toc_data) : Z := metadata_count (t_metadata t).
Definition toc_layout_count (t : toc_data) : Z := layout_defs_count (t_layouts t).
(** 269-293 *)
Definition toc_equal (a b : toc_data) : bool :=
  str_equal (t_version a) (t_version b) && str_equal (t_index_type a) (t_index_type b)
  && str_equal (t_job_id a) (t_job_id b) && str_equal (t_reel_id a) (t_reel_id b)
  && (ptr_equal reels_equal (t_reels a) (t_reels b) || ((toc_reel_count a =? 0) && (toc_reel_count b =? 0)))
  && (ptr_equal metadata_equal (t_metadata a) (t_metadata b)
      || ((toc_metadata_source_count a =? 0) && (toc_metadata_source_count b =? 0)))
  && (ptr_equal layout_defs_equal (t_layouts a) (t_layouts b)
      || ((toc_layout_count a =? 0) && (toc_layout_count b =? 0))).
(** 216-230 *)
Definition toc_clone (t : toc_data) : toc_data :=
  mkToc (t_version t) (t_index_type t) (t_job_id t) (t_reel_id t)
        (option_map reels_clone (t_reels t)) (option_map metadata_clone (t_metadata t))
        (option_map layout_defs_clone (t_layouts t)).
(** 329-358 *)
Definition toc_reel_by_id (t : toc_data) (id : option cstr) : option reel :=
  find (fun r => str_equal (r_id r) id) (toc_reels t).
(** 394-415, 429-455 *)
Fixpoint scan_reels {A} (look : reel -> outcome (option A)) (l : list reel) : outcome (option A) :=
  match l with
  | [] => Ok None
  | r :: l' => obind (look r) (fun x => match x with Some a => Ok (Some a) | None => scan_reels look l' end)
  end.
Definition toc_file_by_id (t : toc_data) (id : Z) : outcome (option toc_file) :=
  scan_reels (fun r => Ok (reel_file_by_id r id)) (toc_reels t).
Definition toc_file_by_unique_id (t : toc_data) (id : option cstr) : outcome (option toc_file) :=
  match id with
  | Some (_ :: _) => scan_reels (fun r => reel_file_by_unique_id r id) (toc_reels t)
  | _ => Ok None
  end.
(** 720-733, 750-763, 780-793 *)
Definition toc_add_reel (t : toc_data) (r : reel) : toc_data * bool :=
  let (v, ok) := reels_add_reel (match t_reels t with Some v => v | None => None end) r in
  (mkToc (t_version t) (t_index_type t) (t_job_id t) (t_reel_id t) (Some v) (t_metadata t) (t_layouts t), ok).
Definition toc_add_metadata_source (t : toc_data) (s : msource) : toc_data * bool :=
  let (v, ok) := metadata_add_source (match t_metadata t with Some v => v | None => None end) s in
  (mkToc (t_version t) (t_index_type t) (t_job_id t) (t_reel_id t) (t_reels t) (Some v) (t_layouts t), ok).
Definition toc_add_layout (t : toc_data) (d : layout_def) : outcome (toc_data * bool) :=
  obind (layout_defs_add (match t_layouts t with Some v => v | None => None end) d) (fun p =>
  let (v, ok) := p in
  Ok (mkToc (t_version t) (t_index_type t) (t_job_id t) (t_reel_id t) (t_reels t) (t_metadata t) (Some v), ok)).
(** 810-846: adds clones one by one and stops at the first refusal. *)
Fixpoint toc_add_layouts_loop (t : toc_data) (l : list layout_def) : outcome (toc_data * bool) :=
  match l with
  | [] => Ok (t, true)
  | d :: l' => obind (toc_add_layout t (layout_def_clone d)) (fun p =>
               if snd p then toc_add_layouts_loop (fst p) l' else Ok (fst p, false))
  end.
Definition toc_add_layouts (t : toc_data) (defs : layout_defs) : outcome (toc_data * bool) :=
  if negb (layout_defs_is_valid (Some defs)) then Ok (t, false)
  else if layout_defs_count (Some defs) =? 0 then Ok (t, false)
  else toc_add_layouts_loop
         (mkToc (t_version t) (t_index_type t) (t_job_id t) (t_reel_id t) (t_reels t) (t_metadata t)
                (Some (match t_layouts t with Some v => v | None => None end)))
         (vec_list defs).
(** 926-945, 959-978: unsigned accumulation *)
Definition toc_file_count (t : toc_data) : Z :=
  fold_left (fun acc r => u32 (acc + reel_file_count r)) (toc_reels t) 0.
Fixpoint toc_frame_count_loop (l : list reel) (acc : Z) : outcome Z :=
  match l with
  | [] => Ok acc
  | r :: l' => obind (reel_frame_count r TYPE_DIGITAL) (fun n => toc_frame_count_loop l' (u32 (acc + n)))
  end.
Definition toc_frame_count (t : toc_data) : outcome Z := toc_frame_count_loop (toc_reels t) 0.
(** 992-1013, 1027-1048 *)
Definition toc_first_frame (t : toc_data) : Z :=
  match t_reels t with
  | None => -1
  | Some v => match vec_list v with [] => 0 | r :: _ => reel_first_frame r TYPE_DIGITAL end
  end.
Definition toc_last_frame (t : toc_data) : outcome Z :=
  match t_reels t with
  | None => Ok (-1)
  | Some v => match rev (vec_list v) with [] => Ok 0 | r :: _ => reel_last_frame r TYPE_DIGITAL end
  end.
(** 1062-1110 *)
Definition INDEX_JOB := s2z "job".
Definition INDEX_REEL := s2z "reel".
Definition toc_is_valid (t : toc_data) : bool :=
  if null_or_empty (t_version t) then false
  else if null_or_empty (t_job_id t) then false
  else if null_or_empty (t_reel_id t) then false
  else if negb (str_eqb (or_empty (t_index_type t)) INDEX_JOB) && negb (str_eqb (or_empty (t_index_type t)) INDEX_REEL) then false
  else if negb (reels_is_valid (t_reels t)) && (match t_reels t with None => false | _ => true end) then false
  else if negb (layout_defs_is_valid (t_layouts t)) && (match t_layouts t with None => false | _ => true end) then false
  else if negb (metadata_count (t_metadata t) =? 0) && negb (metadata_is_valid (t_metadata t)) then false
  else true.
(** 1126-1149 *)
Definition toc_add_frame_offset (t : toc_data) (offset sect : Z) : toc_data :=
  mkToc (t_version t) (t_index_type t) (t_job_id t) (t_reel_id t)
        (option_map (option_map (map (fun r => reel_add_frame_offset r offset sect))) (t_reels t))
        (t_metadata t) (t_layouts t).

(** 1799-1826: insertion sort; [sorted_rev] is the already sorted prefix, last element first, which
    is the order in which the inner loop walks it. *)
Fixpoint insert_back {A} (gt : A -> A -> bool) (x : A) (sorted_rev : list A) : list A :=
  match sorted_rev with
  | [] => [x]
  | y :: l' => if gt y x then y :: insert_back gt x l' else x :: y :: l'
  end.
Definition insertion_sort {A} (gt : A -> A -> bool) (l : list A) : list A :=
  rev (fold_left (fun acc x => insert_back gt x acc) l []).
(** strcmp(a->id, b->id) > 0; ids of stored definitions are never NULL. *)
Definition layout_id_gt (a b : layout_def) : bool :=
  0 <? strcmp (or_empty (ld_id a)) (or_empty (ld_id b)).
(** 528-581: one file; None = the function gives up and returns NULL. *)
Definition used_layout_step (defs : option layout_defs) (used : layout_defs) (f : toc_file)
  : outcome (option layout_defs) :=
  if file_is_preview f && negb (file_is_parent f) then
    match f_preview f with
    | Some pv =>
        match pv_pages pv with
        | Some (g :: _) =>
            obind (layout_defs_has (Some used) (pg_layout_id g)) (fun has =>
            if has then Ok (Some used)
            else obind (layout_defs_by_id defs (pg_layout_id g)) (fun r =>
                 match r with
                 | None => Ok (Some used)
                 | Some d => obind (layout_defs_add used (layout_def_clone d)) (fun p =>
                             if snd p then Ok (Some (fst p)) else Ok None)
                 end))
        | _ => Ok (Some used)
        end
    | None => Ok (Some used)
    end
  else Ok (Some used).
Fixpoint used_layout_loop (defs : option layout_defs) (used : layout_defs) (l : list toc_file)
  : outcome (option layout_defs) :=
  match l with
  | [] => Ok (Some used)
  | f :: l' => obind (used_layout_step defs used f) (fun r =>
               match r with Some u => used_layout_loop defs u l' | None => Ok None end)
  end.
(** 492-595; the two nested loops visit the files reel by reel. *)
Definition toc_used_layouts (t : toc_data) : outcome (option layout_defs) :=
  match t_layouts t with
  | None => Ok None
  | Some defs =>
      if layout_defs_count (Some defs) =? 0 then Ok None
      else if toc_reel_count t =? 0 then Ok None
      else obind (used_layout_loop (Some defs) None (flat_map reel_files (toc_reels t))) (fun r =>
           match r with
           | None => Ok None
           | Some used => Ok (Some (option_map (insertion_sort layout_id_gt) used))
           end)
  end.

(** * Frame ranges: src/framerange.c, src/frameranges.c, src/tocdatareel.c *)
(** inc/framerange.h: start and count are unsigned int. *)
Record range := mkRange { rg_start : Z; rg_count : Z }.
(** framerange.c 213-226 *)
Definition range_end (r : range) : Z :=
  if rg_count r =? 0 then 0 else u32 (rg_start r + rg_count r - 1).
(** tocdatareel.c 1241-1252: None = not mergeable. The second assignment sees the updated start. *)
Definition merge_two (a b : range) : option range :=
  if (u32 (range_end b + 1) <? rg_start a) || (u32 (range_end a + 1) <? rg_start b) then None
  else
    let a1 := mkRange (Z.min (rg_start a) (rg_start b)) (rg_count a) in
    Some (mkRange (rg_start a1) (u32 (Z.max (range_end a1) (range_end b) - rg_start a1 + 1))).
(** 1255-1272 *)
Definition range_gt (a b : range) : bool := rg_start b <? rg_start a.
(** 1289-1299; [merged_rev] is the merged list, last element first. *)
Definition merge_step (merged_rev : list range) (c : range) : list range :=
  match merged_rev with
  | [] => [c]
  | last :: l' => match merge_two last c with Some m => m :: l' | None => c :: last :: l' end
  end.
(** 1275-1304 *)
Definition merge_ranges (l : list range) : list range :=
  match l with
  | [] => []
  | [x] => [x]
  | _ => match insertion_sort range_gt l with
         | [] => []
         | x :: l' => rev (fold_left merge_step l' [x])
         end
  end.
(** 938: count is an int expression (overflow undefined), both converted to unsigned. *)
Fixpoint file_ranges (l : list toc_file) : outcome (list range) :=
  match l with
  | [] => Ok []
  | f :: l' =>
      obind (chk32 (f_end_frame f - f_start_frame f)) (fun d => obind (chk32 (d + 1)) (fun n =>
      obind (file_ranges l') (fun rs => Ok (mkRange (u32 (f_start_frame f)) (u32 n) :: rs))))
  end.
(** 924-949: NULL when there are no files. *)
Definition frame_ranges (v : option files) : outcome (option (list range)) :=
  match v with
  | Some (Some ((_ :: _) as l)) => obind (file_ranges l) (fun rs => Ok (Some (merge_ranges rs)))
  | _ => Ok None
  end.
