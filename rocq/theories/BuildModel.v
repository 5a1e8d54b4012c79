(** Access by index and number of elements of every list (the functions TocModel.v does not have), the
    setters of a table of contents, and histories of calls on a table of contents.

    Simplifications: as in TocModel.v (objects are values, NULL arguments are options, appending to a
    gvector succeeds). The size of a gvector is a size_t, the counts are unsigned int. *)
From Verif Require Import CBase TocModel.

(** src/frameranges.c 236-249, 263-281, 297-319 *)
Definition ranges_count (v : option (vec range)) : Z := match v with Some v => u32 (vec_size v) | None => 0 end.
Definition ranges_get (v : option (vec range)) (i : Z) : option range := vec_get v i.
Definition ranges_add (v : vec range) (r : range) : vec range * bool := (vec_append v r, true).
(** src/framerange.c 180-199, src/frameranges.c 183-222 *)
Definition range_equal (a b : range) : bool := (rg_start a =? rg_start b) && (rg_count a =? rg_count b).
Definition ranges_equal : vec range -> vec range -> bool := vec_equal range_equal.
(** src/toc/previewsections.c 310-323, 399-417 *)
Definition sections_size (v : option sections) : Z := match v with Some v => u32 (vec_size v) | None => 0 end.
Definition sections_get (v : option sections) (i : Z) : option section := vec_get v i.
(** src/toc/previewlayoutdefinitions.c 325-343 *)
Definition layout_defs_get (v : option layout_defs) (i : Z) : option layout_def := vec_get v i.
(** src/tocdatafilemetadata.c 346-364 *)
Definition fmetadata_get (v : option fmetadata) (i : Z) : option fsource := vec_get v i.
(** src/tocmetadata.c 355-373 *)
Definition metadata_get (v : option metadata) (i : Z) : option msource := vec_get v i.
(** src/tocfilepreview.c 352-370 *)
Definition preview_get_page (p : option preview) (i : Z) : option page := match p with Some p => vec_get (Some (pv_pages p)) i | None => None end.
(** src/tocfilepreview.c 473-481 *)
Definition preview_set_dpi (p : preview) (dpi : Z) : preview := mkPreview (pv_pages p) dpi.
(** src/tocfiles.c 389-407, 421-434: index and count are size_t *)
Definition files_get (v : option files) (i : Z) : option toc_file := vec_get v i.
Definition files_count (v : option files) : Z := match v with Some v => vec_size v | None => 0 end.
(** src/tocdatareels.c 291-309 *)
Definition reels_get (v : option reels) (i : Z) : option reel := vec_get v i.
(** src/tocdata.c 307-315, 372-380, 469-477 *)
Definition toc_reel_by_index (t : toc_data) (i : Z) : option reel := reels_get (t_reels t) i.
Definition toc_metadata_source (t : toc_data) (i : Z) : option msource := metadata_get (t_metadata t) i.
Definition toc_layout_definition (t : toc_data) (i : Z) : option layout_def := layout_defs_get (t_layouts t) i.
(** src/tocfile.c 453-456 *)
Definition file_not_equal (a b : option toc_file) : bool := if ptr_equal file_equal a b then false else true.
(** src/tocfile.c 497-506 *)
Definition file_add_type (f : toc_file) (type : Z) : toc_file :=
  mkFile (f_name f) (f_date f) (f_checksum f) (f_size f) (f_id f) (f_start_frame f) (f_start_byte f) (f_end_frame f) (f_end_byte f)
         (f_unique_id f) (f_parent_id f) (Z.lor (f_types f) type) (f_preview f) (f_file_format f) (f_metadata f).
(** src/toc/previewlayoutdefinition.c 438-457: the loop from 1 on compares with element 0 *)
Fixpoint same_sizes (first : section) (d : layout_def) (i : Z) (n : nat) : outcome bool :=
  match n with
  | O => Ok true
  | S n' => match layout_def_get_section d i with
            | None => UB
            | Some c => if negb (s_width first =? s_width c) || negb (s_height first =? s_height c) then Ok false else same_sizes first d (i + 1) n'
            end
  end.
Definition layout_def_same_sizes (d : layout_def) : outcome bool :=
  if layout_def_section_count d <=? 1 then Ok true
  else match layout_def_get_section d 0 with None => UB | Some first => same_sizes first d 1 (Z.to_nat (layout_def_section_count d - 1)) end.

(** src/tocdata.c 608-622, 635-649, 662-676, 689-703: the old string is freed, the new one copied *)
Definition toc_set_version (t : toc_data) (s : option cstr) : toc_data := mkToc s (t_index_type t) (t_job_id t) (t_reel_id t) (t_reels t) (t_metadata t) (t_layouts t).
Definition toc_set_index_type (t : toc_data) (s : option cstr) : toc_data := mkToc (t_version t) s (t_job_id t) (t_reel_id t) (t_reels t) (t_metadata t) (t_layouts t).
Definition toc_set_job_id (t : toc_data) (s : option cstr) : toc_data := mkToc (t_version t) (t_index_type t) s (t_reel_id t) (t_reels t) (t_metadata t) (t_layouts t).
Definition toc_set_reel_id (t : toc_data) (s : option cstr) : toc_data := mkToc (t_version t) (t_index_type t) (t_job_id t) s (t_reels t) (t_metadata t) (t_layouts t).

(** A call that changes a table of contents. *)
Inductive op :=
| SetVersion (s : option cstr) | SetIndexType (s : option cstr) | SetJobId (s : option cstr) | SetReelId (s : option cstr)
| AddReel (r : reel) | AddSource (s : msource) | AddLayout (d : layout_def) | AddLayouts (v : layout_defs) | AddFrameOffset (offset sect : Z).
(** The call, src/tocdata.c (functions above and TocModel.v); calls without result answer true. *)
Definition call (t : toc_data) (o : op) : outcome (toc_data * bool) :=
  match o with
  | SetVersion s => Ok (toc_set_version t s, true) | SetIndexType s => Ok (toc_set_index_type t s, true)
  | SetJobId s => Ok (toc_set_job_id t s, true) | SetReelId s => Ok (toc_set_reel_id t s, true)
  | AddReel r => Ok (toc_add_reel t r) | AddSource s => Ok (toc_add_metadata_source t s)
  | AddLayout d => toc_add_layout t d | AddLayouts v => toc_add_layouts t v
  | AddFrameOffset offset sect => Ok (toc_add_frame_offset t offset sect, true)
  end.
Fixpoint calls (t : toc_data) (l : list op) : outcome (toc_data * list bool) :=
  match l with
  | [] => Ok (t, [])
  | o :: l' => obind (call t o) (fun p => obind (calls (fst p) l') (fun q => Ok (fst q, snd p :: snd q)))
  end.
