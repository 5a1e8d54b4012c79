(** The load_xml functions on an object that is already in use.

    TocXmlModel.v and ControlModel.v give the result of loading into a new object. Here a load
    function takes the object as it is before the call and returns the object after the call and the
    result of the call, also when the call fails half way. Objects of the lists and the parts of a
    larger object are created by the load functions themselves, so the nested calls are loads into
    new objects. The old values that are overwritten without being freed are not observable here. *)
From Verif Require Import CBase TocModel XmlModel TocXmlModel ControlModel WsModel FileModel.

(** The loop over the found elements: what was added before a failure stays. *)
Fixpoint load_into {A S} (load : node -> option A) (add : S -> A -> S * bool) (s : S) (l : list node) : S * bool :=
  match l with
  | [] => (s, true)
  | x :: l' => match load x with
               | None => (s, false)
               | Some a => let (s', ok) := add s a in if ok then load_into load add s' l' else (s', false)
               end
  end.

(** * src/toc/previewsection.c 585-635: the attributes are stored one after the other. *)
Definition into_section (s : section) (node : node) : section * bool :=
  match at_or_below (s2z "section") node with
  | None => (s, false)
  | Some t =>
      match uint_attr t (s2z "id") with None => (s, false) | Some i =>
      let s := mkSection i (s_x s) (s_y s) (s_width s) (s_height s) (s_rotation s) in
      match uint_attr t (s2z "x") with None => (s, false) | Some x =>
      let s := mkSection i x (s_y s) (s_width s) (s_height s) (s_rotation s) in
      match uint_attr t (s2z "y") with None => (s, false) | Some y =>
      let s := mkSection i x y (s_width s) (s_height s) (s_rotation s) in
      match uint_attr t (s2z "w") with None => (s, false) | Some w =>
      let s := mkSection i x y w (s_height s) (s_rotation s) in
      match uint_attr t (s2z "h") with None => (s, false) | Some h =>
      let s := mkSection i x y w h (s_rotation s) in
      match uint_attr t (s2z "rotation") with None => (s, false) | Some r =>
      let s := mkSection i x y w h r in (s, section_is_valid s)
      end end end end end end
  end.
(** * src/toc/previewsections.c 655-699 *)
Definition into_sections (v : sections) (node : node) : sections * bool :=
  match at_or_below (s2z "sections") node with
  | None => (v, false)
  | Some t => load_into load_section sections_append v (find_all (s2z "section") t)
  end.
(** * src/toc/previewlayoutdefinition.c 700-734 *)
Definition into_layout_def (d : layout_def) (node : node) : layout_def * bool :=
  match at_or_below (s2z "previewLayout") node with
  | None => (d, false)
  | Some t => let (v, ok) := into_sections None t in
              (mkLayoutDef (get_text (s2z "id") t) (get_text (s2z "name") t) (Some v), ok)
  end.
(** * src/toc/previewlayoutdefinitions.c 824-868. UB: a stored definition has no id (strcmp with NULL). *)
Fixpoint defs_into (v : layout_defs) (l : list node) : outcome (layout_defs * bool) :=
  match l with
  | [] => Ok (v, true)
  | x :: l' => match load_layout_def x with
               | None => Ok (v, false)
               | Some d => obind (layout_defs_add v d) (fun p => if snd p then defs_into (fst p) l' else Ok (fst p, false))
               end
  end.
Definition into_layout_defs (v : layout_defs) (node : node) : outcome (layout_defs * bool) :=
  match at_or_below (s2z "layoutDefinitions") node with
  | None => Ok (v, false)
  | Some t => defs_into v (find_all (s2z "previewLayout") t)
  end.

(** * src/tocfilepreviewpage.c *)
(** 757-780: the two values after the call and the result; sscanf stores x as soon as it is read. *)
Definition into_xy (x y : Z) (s : option cstr) : Z * Z * bool :=
  match s with
  | None | Some [] => (0, 0, true)
  | Some s => match scan_uint s with
              | None => (x, y, false)
              | Some (x', r) => match r with
                                | 120 :: r' => match scan_uint r' with Some (y', _) => (x', y', true) | None => (x', y, false) end
                                | _ => (x', y, false)
                                end
              end
  end.
(** a field that keeps its value when the attribute is missing *)
Definition keep_uattr (d : Z) (n : cstr) (t : node) : Z := match uint_attr t n with Some z => z | None => d end.
(** 701-744 *)
Definition into_page (p : page) (node : node) : page * bool :=
  match at_or_below (s2z "pages") node with
  | None => (p, false)
  | Some t =>
      let f := keep_uattr (pg_start_frame p) (s2z "frame") t in
      let s := keep_uattr (pg_start_section p) (s2z "section") t in
      let c := keep_uattr (pg_section_count p) (s2z "count") t in
      let layout := node_attr t (s2z "layoutId") in
      match into_xy (pg_dimension_x p) (pg_dimension_y p) (node_attr t (s2z "dimension")) with
      | (dx, dy, false) => (mkPage layout f s c dx dy (pg_overlap_x p) (pg_overlap_y p), false)
      | (dx, dy, true) =>
          match into_xy (pg_overlap_x p) (pg_overlap_y p) (node_attr t (s2z "overlap")) with
          | (ox, oy, ok) => (mkPage layout f s c dx dy ox oy, ok)
          end
      end
  end.
(** * src/tocfilepreview.c 826-886 *)
Definition into_preview (p : preview) (node : node) : preview * bool :=
  match at_or_below (s2z "preview") node with
  | None => (p, false)
  | Some t => load_into load_page preview_add_page (mkPreview (pv_pages p) (get_int (pv_dpi p) (s2z "dpi") t))
                (filter (named (s2z "pages")) (node_kids t))
  end.

(** * src/tocdatafilemetadatasource.c 578-657 *)
(** 615-651 (and tocmetadatasource.c 852-889): the data after the call: a CDATA child replaces it, the
    text is taken only when there was no data before. *)
Definition into_data (d : option cstr) (t : node) : option cstr :=
  match first_cdata (node_kids t) with
  | Some s => Some s
  | None => match d with Some x => Some x | None => node_text t end
  end.
Definition into_fsource (s : fsource) (node : node) : fsource * bool :=
  match at_or_below (s2z "source") node with
  | None => (s, false)
  | Some t =>
      match int_attr t (s2z "fileId") with
      | None => (s, false)
      | Some fid =>
          let sid := get_iattr (-1) (s2z "sourceId") t in
          let s' := match find_elem (s2z "data") t with
                    | Some d => mkFsource (into_data (fs_data s) d) (node_attr d (s2z "formatId")) fid sid
                    | None => mkFsource (fs_data s) (fs_format_id s) fid sid
                    end in
          (s', fsource_is_valid s')
      end
  end.
(** * src/tocdatafilemetadata.c 720-768 *)
Definition into_fmetadata (m : fmetadata) (node : node) : fmetadata * bool :=
  match at_or_below (s2z "metadata") node with
  | None => (m, false)
  | Some t => load_into load_fsource fmetadata_add_source m (find_all (s2z "source") t)
  end.
(** * src/tocmetadatasource.c 818-900 *)
Definition into_msource (split : cstr -> list cstr) (s : msource) (node : node) : msource * bool :=
  match at_or_below (s2z "source") node with
  | None => (s, false)
  | Some t =>
      let fmt := node_attr t (s2z "formatId") in
      match int_attr t (s2z "id") with
      | None => (mkMsource fmt (ms_id s) (ms_file_id s) (ms_data s) (ms_tags s), false)
      | Some i =>
          match int_attr t (s2z "fileId") with
          | None => (mkMsource fmt i (ms_file_id s) (ms_data s) (ms_tags s), false)
          | Some fid =>
              let d := match find_elem (s2z "data") t with Some x => into_data (ms_data s) x | None => ms_data s end in
              let s0 := mkMsource fmt i fid d (ms_tags s) in
              let s' := match find_elem (s2z "tags") t with Some x => set_tags split s0 (node_text x) | None => s0 end in
              (s', msource_is_valid s')
          end
      end
  end.
(** * src/tocmetadata.c 686-740 *)
Definition into_metadata (split : cstr -> list cstr) (m : metadata) (node : node) : metadata * bool :=
  match at_or_below (s2z "metadata") node with
  | None => (m, false)
  | Some t => load_into (load_msource split) metadata_add_source m (find_all (s2z "source") t)
  end.

(** * src/tocfile.c *)
(** 937-943, 985-991 *)
Definition keep_size (d : Z) (t : node) : Z :=
  match find_elem (s2z "size") t with Some x => atoll (text_safe (Some x) (s2z "0")) | None => d end.
(** 948-960 (element = true) and 996-1008 (element = false): a position keeps what it has when its
    element is missing. *)
Definition keep_part (element : bool) (d : Z) (n k : cstr) (t : node) : Z :=
  match find_elem n t with
  | Some x => if element then get_int d k x else get_iattr d k x
  | None => d
  end.
(** 929-963 (old form) and 977-1011 (new form), on the data fields of a file *)
Definition into_data_part (v1 : bool) (f : toc_file) (t : node) : file_data :=
  mkData (Some (text_safe (find_elem (s2z "checksum") t) [])) (keep_size (f_size f) t)
         (keep_part v1 (f_start_frame f) (s2z "start") (s2z "frame") t) (keep_part v1 (f_start_byte f) (s2z "start") (s2z "byte") t)
         (keep_part v1 (f_end_frame f) (s2z "end") (s2z "frame") t) (keep_part v1 (f_end_byte f) (s2z "end") (s2z "byte") t).
Definition with_data (f : toc_file) (d : file_data) : toc_file :=
  mkFile (f_name f) (f_date f) (fd_checksum d) (fd_size d) (f_id f) (fd_sf d) (fd_sb d) (fd_ef d) (fd_eb d)
         (f_unique_id f) (f_parent_id f) (f_types f) (f_preview f) (f_file_format f) (f_metadata f).
(** 808-834: the fields that come before the parts *)
Definition into_head (f : toc_file) (t : node) : toc_file :=
  mkFile (keep_text t (s2z "name") (f_name f)) (keep_text t (s2z "date") (f_date f)) (f_checksum f) (f_size f)
         (get_int (f_id f) (s2z "id") t) (f_start_frame f) (f_start_byte f) (f_end_frame f) (f_end_byte f)
         (keep_text t (s2z "uniqueId") (f_unique_id f))
         (match int_elem t (s2z "parentId") with
          | Some z => z
          | None => match int_elem t (s2z "parentid") with Some z => z | None => FILE_NO_PARENT end
          end)
         (f_types f) (f_preview f)
         (Some (match node_attr t (s2z "formatId") with Some s => s | None => s2z "undefined" end)) (f_metadata f).
Definition with_preview (f : toc_file) (p : option preview) : toc_file :=
  mkFile (f_name f) (f_date f) (f_checksum f) (f_size f) (f_id f) (f_start_frame f) (f_start_byte f) (f_end_frame f) (f_end_byte f)
         (f_unique_id f) (f_parent_id f) (f_types f) p (f_file_format f) (f_metadata f).
Definition with_metadata (f : toc_file) (m : option fmetadata) : toc_file :=
  mkFile (f_name f) (f_date f) (f_checksum f) (f_size f) (f_id f) (f_start_frame f) (f_start_byte f) (f_end_frame f) (f_end_byte f)
         (f_unique_id f) (f_parent_id f) (f_types f) (f_preview f) (f_file_format f) m.
(** 836-851: the type is added before the preview is loaded *)
Definition into_file_preview (f : toc_file) (t : node) : toc_file * bool :=
  match find_elem (s2z "preview") t with
  | None => (f, true)
  | Some x => let f' := set_types f (Z.lor (f_types f) TYPE_PREVIEW) in
              match load_preview x with Some p => (with_preview f' (Some p), true) | None => (f', false) end
  end.
(** 853-866 *)
Definition into_file_metadata (f : toc_file) (t : node) : toc_file * bool :=
  match find_elem (s2z "metadata") t with
  | None => (f, true)
  | Some x => match load_fmetadata x with Some m => (with_metadata f (Some m), true) | None => (f, false) end
  end.
(** 868-914 *)
Definition into_file_data (f : toc_file) (t : node) : toc_file :=
  match find_below (s2z "file") (s2z "data") t with
  | Some d => let f' := with_data f (into_data_part false f d) in set_types f' (Z.lor (f_types f') TYPE_DIGITAL)
  | None =>
      let f1 := with_data f (into_data_part true f t) in
      let f2 := if present t (s2z "size") || present t (s2z "start") || present t (s2z "end")
                then set_types f1 (Z.lor (f_types f1) TYPE_DIGITAL) else f1 in
      if file_is_valid f2 then f2 else set_types f2 TYPE_UNDEFINED
  end.
(** 792-915 *)
Definition into_file (f : toc_file) (node : node) : toc_file * bool :=
  match at_or_below (s2z "file") node with
  | None => (f, false)
  | Some t =>
      let (f1, ok1) := into_file_preview (into_head f t) t in
      if negb ok1 then (f1, false)
      else let (f2, ok2) := into_file_metadata f1 t in
           if negb ok2 then (f2, false) else (into_file_data f2 t, true)
  end.
(** * src/tocfiles.c 939-976 *)
Definition into_files (v : files) (t : node) : files * bool :=
  load_into load_file files_add_toc v (find_all (s2z "file") t).
(** * src/tocdatareel.c 1189-1230 *)
Definition into_reel (r : reel) (node : node) : reel * bool :=
  match at_or_below (s2z "reel") node with
  | None => (r, false)
  | Some t =>
      match find_elem (s2z "id") t with
      | None => (r, false)
      | Some i =>
          match find_elem (s2z "files") t with
          | None => (mkReel (node_text i) (r_files r), true)
          | Some x => let (v, ok) := into_files None x in (mkReel (node_text i) (Some v), ok)
          end
      end
  end.
(** * src/tocdatareels.c 614-653 *)
Definition into_reels (v : reels) (t : node) : reels * bool := load_into load_reel reels_add_reel v (reel_nodes t).
(** * src/tocdata.c 1416-1562: a part is replaced when its new form has been loaded, and the parts
    without an element are dropped at the end. *)
Definition into_toc (split : cstr -> list cstr) (t0 : toc_data) (node : node) : toc_data * bool :=
  match at_or_below (s2z "Index") node with
  | None => (t0, false)
  | Some t =>
      let head rl md ld :=
        mkToc (node_attr t (s2z "version")) (keep_text t (s2z "indexType") (t_index_type t0))
              (keep_text t (s2z "jobId") (t_job_id t0)) (keep_text t (s2z "reelId") (t_reel_id t0)) rl md ld in
      match opt_load (load_metadata split) (find_below (s2z "Index") (s2z "metadata") t) with
      | None => (head (t_reels t0) (t_metadata t0) (t_layouts t0), false)
      | Some md =>
          let md' := match md with Some m => Some m | None => t_metadata t0 end in
          match opt_load load_layout_defs (find_elem (s2z "layoutDefinitions") t) with
          | None => (head (t_reels t0) md' (t_layouts t0), false)
          | Some ld =>
              let ld' := match ld with Some m => Some m | None => t_layouts t0 end in
              match opt_load load_reels (find_elem (s2z "reels") t) with
              | None => (head (t_reels t0) md' ld', false)
              | Some rl => (head rl md ld, true)
              end
          end
      end
  end.

(** * src/administrativemetadata.c 659-697 *)
Definition into_admin (a : admin) (t : node) : admin * bool :=
  match find_elem (s2z "AdministrativeMetadata") t with
  | None => (a, false)
  | Some x => (mkAdmin (load_field x (s2z "ReelId")) (load_field x (s2z "PrintReelId")) (load_field x (s2z "Title"))
                       (load_field x (s2z "Description")) (load_field x (s2z "Creator")) (load_field x (s2z "CreationDate")), true)
  end.
(** * src/controlframe/boxingformat.c 432-475 *)
Definition into_format (f : bformat) (t : node) : bformat * bool :=
  match load_format t with Some f' => (f', true) | None => (f, false) end.
(** * src/technicalmetadata.c 506-574 *)
Definition into_tech (o : tech) (t : node) : tech * bool :=
  match find_elem (s2z "TechnicalMetadata") t with
  | None => (o, false)
  | Some x =>
      match find_elem (s2z "BoxerFormat") x with
      | None => (o, false)
      | Some b =>
          let f := load_format b in
          match opt_load load_files (find_elem (s2z "Tocs") x) with
          | None => (mkTech None None (te_applications o), false)
          | Some tocs =>
              let tocs' := match tocs with Some v => Some v | None => te_tocs o end in
              match find_elem (s2z "Applications") x with
              | None => (mkTech f tocs' (te_applications o), true)
              | Some a => (mkTech f tocs' (load_files a), true)
              end
          end
      end
  end.
(** * src/controldata.c 466-502: both parts are new objects. *)
Definition into_control (c : control) (t : node) : control * bool :=
  match find_elem (s2z "AdministrativeMetadata") t with
  | None => (c, false)
  | Some _ => let a := Some (fst (into_admin admin_create t)) in
              match find_elem (s2z "TechnicalMetadata") t with
              | None => (mkControl a (cd_tech c), false)
              | Some _ => (mkControl a (Some (fst (into_tech tech_create t))), true)
              end
  end.

(** * *_load_string and *_load_file on an object in use: the object is not touched when the text is
    empty or cannot be parsed.
    src/toc/previewsection.c 552-570, previewsections.c 622-640, previewlayoutdefinition.c 667-685,
    previewlayoutdefinitions.c 791-809, src/tocfilepreviewpage.c 668-686, tocfilepreview.c 793-811,
    tocdatafilemetadatasource.c 545-563, tocdatafilemetadata.c 687-705, tocmetadatasource.c 915-933,
    tocmetadata.c 653-671, tocfile.c 760-778, tocfiles.c 906-924, tocdatareel.c 1156-1174,
    tocdatareels.c 581-599, tocdata.c 1383-1401, administrativemetadata.c 626-644,
    technicalmetadata.c 473-491, controldata.c 433-451, src/controlframe/boxingformat.c 490-509 *)
Definition into_string {A} (into : A -> node -> A * bool) (a : A) (s : cstr) : outcome (A * bool) :=
  match s with
  | [] => Ok (a, false)
  | _ => match load_string s with
         | Ret (Some t) => Ok (into a t)
         | Ret None | Fail => Ok (a, false)
         | OverRead | NoFuel => UB
         end
  end.
(** *_load_file on an object in use (the lines cited at [fetch] in FileModel.v). *)
Definition into_from_file {A} (into : A -> node -> A * bool) (a : A) (can_open : bool) (d : disk) (name : cstr) : outcome (A * bool) :=
  match (if can_open then d name else None) with
  | None => Ok (a, false)
  | Some s => match load_bytes s with
              | Ret (Some t) => Ok (into a t)
              | Ret None | Fail => Ok (a, false)
              | OverRead | NoFuel => UB
              end
  end.
(** * Constructors that load a document and ignore the result of the load:
    src/toc/previewlayoutdefinition.c 133-138, src/toc/previewsections.c 86-91, src/tocmetadata.c 98-103. *)
Definition layout_def_create4 (t : node) : layout_def := fst (into_layout_def (mkLayoutDef None None None) t).
Definition sections_create2 (t : node) : sections := fst (into_sections None t).
Definition metadata_create3 (split : cstr -> list cstr) (t : node) : metadata := fst (into_metadata split None t).
