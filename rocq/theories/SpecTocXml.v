(** What a saved table-of-contents object looks like after it is loaded again, and which objects
    come back unchanged. Independent of the save and load functions. *)
From Verif Require Import CBase TocModel SpecToc XmlModel SpecXml.

(** * Strings *)
(** A string without its leading and trailing spaces and line breaks. *)
Fixpoint drop_blank (s : cstr) : cstr :=
  match s with
  | c :: l => if (c =? 10) || (c =? 13) || (c =? 32) then drop_blank l else s
  | [] => []
  end.
Definition strip (s : cstr) : cstr := rev (drop_blank (rev (drop_blank s))).
(** A text field that XML can carry; a field that is kept in the content of an element loses its
    outer blanks, and an empty one is read as NULL. *)
Definition carried (s : option cstr) : Prop := forall x, s = Some x -> is_text x.
Definition read_back (s : option cstr) : option cstr :=
  match s with None | Some [] => None | Some x => Some (strip x) end.
(** Fields that survive as they are. *)
Definition clean (s : option cstr) : Prop := forall x, s = Some x -> strip x = x.
(** A payload that a CDATA section can carry. *)
Definition payload (s : option cstr) : Prop := forall x, s = Some x -> cdata_ok x.
(** Not only blanks. *)
Definition solid (s : option cstr) : Prop := forall x, s = Some x -> strip x <> [].

(** * Sections and layouts *)
Definition section_range (s : section) : Prop :=
  is_u32 (s_id s) /\ is_u32 (s_x s) /\ is_u32 (s_y s) /\ is_u32 (s_width s) /\ is_u32 (s_height s) /\ is_u32 (s_rotation s).
(** A list the loader accepts: the append function refuses repeated ids. *)
Definition sections_carried (l : list section) : Prop := Forall section_range l /\ NoDup (map s_id l).
Definition layout_carried (d : layout_def) : Prop :=
  carried (ld_id d) /\ carried (ld_name d) /\ sections_carried (def_sections d).
Definition layout_back (d : layout_def) : layout_def := mkLayoutDef (read_back (ld_id d)) (read_back (ld_name d)) (ld_sections d).
Definition layout_clean (d : layout_def) : Prop := clean (ld_id d) /\ clean (ld_name d).
(** A collection: names and ids are not blank, and the stripped ids are different. *)
Definition layouts_carried (l : list layout_def) : Prop :=
  Forall layout_carried l /\ Forall (fun d => solid (ld_id d) /\ solid (ld_name d)) l /\ NoDup (map (fun d => read_back (ld_id d)) l).
Definition back_list {A} (f : A -> A) (l : list A) : vec A := match l with [] => None | _ => Some (map f l) end.

(** * Pages and previews *)
Definition page_carried (p : page) : Prop :=
  carried (pg_layout_id p) /\ is_u32 (pg_start_frame p) /\ is_u32 (pg_start_section p) /\ is_u32 (pg_section_count p) /\
  is_u32 (pg_dimension_x p) /\ is_u32 (pg_dimension_y p) /\ is_u32 (pg_overlap_x p) /\ is_u32 (pg_overlap_y p).
(** A pair of numbers is written only when both are non-zero. *)
Definition pair_back (x y : Z) : Z * Z := if (x =? 0) || (y =? 0) then (0, 0) else (x, y).
Definition page_back (p : page) : page :=
  let d := pair_back (pg_dimension_x p) (pg_dimension_y p) in
  let o := pair_back (pg_overlap_x p) (pg_overlap_y p) in
  mkPage (pg_layout_id p) (pg_start_frame p) (pg_start_section p) (pg_section_count p) (fst d) (snd d) (fst o) (snd o).
Definition page_clean (p : page) : Prop :=
  (pg_dimension_x p = 0 <-> pg_dimension_y p = 0) /\ (pg_overlap_x p = 0 <-> pg_overlap_y p = 0).
Definition preview_carried (p : preview) : Prop := Forall page_carried (pages_of p) /\ is_i32 (pv_dpi p).
(** A negative resolution means unknown and is not written. *)
Definition preview_back (p : preview) : preview :=
  mkPreview (back_list page_back (pages_of p)) (if pv_dpi p <? 0 then -1 else pv_dpi p).
Definition preview_clean (p : preview) : Prop := Forall page_clean (pages_of p) /\ -1 <= pv_dpi p.

(** * Metadata sources *)
Definition fsource_carried (s : fsource) : Prop :=
  payload (fs_data s) /\ carried (fs_format_id s) /\ is_i32 (fs_file_id s) /\ is_i32 (fs_source_id s).
(** The format id is an attribute of the data element: it is lost without data. *)
Definition fsource_back (s : fsource) : fsource :=
  mkFsource (fs_data s) (match fs_data s with Some _ => fs_format_id s | None => None end) (fs_file_id s) (fs_source_id s).
Definition fsource_clean (s : fsource) : Prop := fs_data s = None -> fs_format_id s = None \/ fs_format_id s = Some [].
Definition fmetadata_list (m : fmetadata) : list fsource := match m with Some l => l | None => [] end.
(** Containers of less than 2^32 elements. *)
Definition short {A} (l : list A) : Prop := Z.of_nat (List.length l) < 2^32.
(** Tags as one string. *)
Fixpoint tags_string (l : list cstr) : cstr :=
  match l with [] => [] | [x] => x | x :: l' => x ++ s2z ";" ++ tags_string l' end.
Definition tags_carried (v : vec cstr) : Prop := forall l, v = Some l -> is_text (tags_string l).
Definition msource_carried (s : msource) : Prop :=
  carried (ms_format s) /\ payload (ms_data s) /\ is_i32 (ms_id s) /\ is_i32 (ms_file_id s) /\ tags_carried (ms_tags s).
Definition tags_back (split : cstr -> list cstr) (v : vec cstr) : vec cstr :=
  match v with
  | None => None
  | Some l => match strip (tags_string l) with [] => None | x => Some (split x) end
  end.
Definition msource_back (split : cstr -> list cstr) (s : msource) : msource :=
  mkMsource (ms_format s) (ms_id s) (ms_file_id s) (ms_data s) (tags_back split (ms_tags s)).
(** boxing_string_split: the parts between the separators. *)
Definition splits (split : cstr -> list cstr) : Prop :=
  forall l, l <> [] -> Forall (fun x => x <> [] /\ ~ In 59 x) l -> split (tags_string l) = l.
Definition msource_clean (s : msource) : Prop :=
  forall l, ms_tags s = Some l ->
    l <> [] /\ Forall (fun x => x <> [] /\ ~ In 59 x) l /\ strip (tags_string l) = tags_string l.

(** * Files *)
Definition file_carried (f : toc_file) : Prop :=
  carried (f_name f) /\ carried (f_date f) /\ carried (f_checksum f) /\ carried (f_unique_id f) /\ carried (f_file_format f) /\
  is_i32 (f_id f) /\ is_i32 (f_parent_id f) /\ is_i64 (f_size f) /\
  is_i32 (f_start_frame f) /\ is_i32 (f_start_byte f) /\ is_i32 (f_end_frame f) /\ is_i32 (f_end_byte f) /\
  (forall p, f_preview f = Some p -> preview_carried p) /\ Forall fsource_carried (fsources_of f) /\ short (fsources_of f).
Definition digitalb (f : toc_file) : bool := Z.testbit (f_types f) 0.
Definition previewedb (f : toc_file) : bool := Z.testbit (f_types f) 1.
(** Only the low two type bits are kept; the data fields are written for digital files only; a
    preview only when the type says so; a file without format id gets the id "undefined"; a
    non-digital file whose name or date is blank comes back without any type. *)
Definition file_back (f : toc_file) : toc_file :=
  let d := digitalb f in let p := previewedb f in
  let blank_text := match read_back (f_name f), read_back (f_date f) with Some (_ :: _), Some (_ :: _) => false | _, _ => true end in
  mkFile (read_back (f_name f)) (read_back (f_date f))
         (if d then Some (match read_back (f_checksum f) with Some x => x | None => [] end) else Some [])
         (if d then f_size f else 0) (f_id f)
         (if d then f_start_frame f else -1) (if d then f_start_byte f else -1)
         (if d then f_end_frame f else -1) (if d then f_end_byte f else -1)
         (read_back (f_unique_id f)) (f_parent_id f)
         (if negb d && blank_text then 0 else (if d then 1 else 0) + (if p then 2 else 0))
         (if p then option_map preview_back (f_preview f) else None)
         (Some (match f_file_format f with Some x => x | None => s2z "undefined" end))
         (match fsources_of f with [] => None | l => Some (Some (map fsource_back l)) end).
(** Files in normal form: nothing of the above applies. *)
Definition file_clean (f : toc_file) : Prop :=
  clean (f_name f) /\ clean (f_date f) /\ clean (f_checksum f) /\ clean (f_unique_id f) /\ f_file_format f <> None /\
  0 <= f_types f <= 3 /\
  (~ digital f -> (f_checksum f = None \/ f_checksum f = Some []) /\ f_size f = 0 /\
                  f_start_frame f = -1 /\ f_start_byte f = -1 /\ f_end_frame f = -1 /\ f_end_byte f = -1) /\
  (~ previewed f -> f_preview f = None) /\ (forall p, f_preview f = Some p -> preview_clean p) /\
  Forall fsource_clean (fsources_of f) /\ (f_metadata f = None \/ fsources_of f <> []).
(** The name and the date are not blank. *)
Definition file_solid (f : toc_file) : Prop := solid (f_name f) /\ solid (f_date f).
Definition files_carried (l : list toc_file) : Prop := Forall file_carried l /\ Forall file_solid l.

(** * Reels *)
Definition reel_carried (r : reel) : Prop := carried (r_id r) /\ files_carried (files_of r) /\ short (files_of r).
Definition reel_back (r : reel) : reel :=
  mkReel (read_back (r_id r)) (match r_files r with None => None | Some _ => Some (back_list file_back (files_of r)) end).
Definition reel_clean (r : reel) : Prop := clean (r_id r) /\ Forall file_clean (files_of r) /\ r_files r <> Some (Some []).
Definition reels_carried (l : list reel) : Prop := Forall reel_carried l /\ Forall (fun r => solid (r_id r)) l.

(** * Table of contents *)
Definition toc_carried (t : toc_data) : Prop :=
  carried (t_version t) /\ carried (t_job_id t) /\ carried (t_reel_id t) /\
  Forall msource_carried (msources_of t) /\ layouts_carried (layouts_of t) /\ reels_carried (reels_of t) /\
  short (msources_of t) /\ short (layouts_of t) /\ short (reels_of t).
Definition back_opt {A} (f : A -> A) (l : list A) : option (vec A) := match l with [] => None | _ => Some (Some (map f l)) end.
Definition toc_back (split : cstr -> list cstr) (t : toc_data) : toc_data :=
  mkToc (t_version t) (t_index_type t) (read_back (t_job_id t)) (read_back (t_reel_id t))
        (back_opt reel_back (reels_of t)) (back_opt (msource_back split) (msources_of t)) (back_opt layout_back (layouts_of t)).
Definition toc_clean (t : toc_data) : Prop :=
  clean (t_job_id t) /\ clean (t_reel_id t) /\ Forall msource_clean (msources_of t) /\ Forall layout_clean (layouts_of t) /\
  Forall reel_clean (reels_of t).
(** The older form has no place for the checksum, and the type is checked for digital files too. *)
Definition file_back_v1 (f : toc_file) : toc_file :=
  let d := digitalb f in let p := previewedb f in
  let blank_text := match read_back (f_name f), read_back (f_date f) with Some (_ :: _), Some (_ :: _) => false | _, _ => true end in
  let b := file_back f in
  mkFile (f_name b) (f_date b) (Some []) (f_size b) (f_id b) (f_start_frame b) (f_start_byte b) (f_end_frame b) (f_end_byte b)
         (f_unique_id b) (f_parent_id b) (if blank_text then 0 else (if d then 1 else 0) + (if p then 2 else 0))
         (f_preview b) (f_file_format b) (f_metadata b).

(** * Round trips *)
From Verif Require Import TocXmlModel.
(** Whatever the indentation (MXML_NO_CALLBACK is the empty one), with or without the XML
    declaration, and with or without the final line feed: saving gives a text and loading that text
    gives the object [x], without any undefined behaviour; the text is well-formed UTF-8. *)
Definition round_trips {A} (saved : list node * bool) (load : node -> option A) (x : A) : Prop :=
  forall ws nl decl, indenting ws -> exists s, save_object decl saved ws nl = Some s /\ load_object load s = Ok (Some x) /\ is_text s.
(** Saving is refused: there is no text. *)
Definition not_saved (saved : list node * bool) : Prop := forall ws nl decl, save_object decl saved ws nl = None /\ fst saved = [].
