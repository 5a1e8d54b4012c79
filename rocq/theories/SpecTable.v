(** What the text tables must contain: a title, a line naming the columns, and one line per row with
    the cells separated by single spaces. A column is as wide as its longest text (or a fixed least
    width); numbers are filled with zeros on the left, texts with spaces on the right. *)
From Verif Require Import CBase TocModel.

(** The width of a column with these texts *)
Definition widest (least : nat) (texts : list cstr) : nat := fold_right Nat.max least (map (@List.length Z) texts).
Fixpoint line (cells : list cstr) : cstr :=
  match cells with [] => [10] | [x] => x ++ [10] | x :: l => x ++ 32 :: line l end.
Definition left_aligned (w : nat) (s : cstr) : cstr := s ++ repeat 32 (w - List.length s).
Definition text (s : option cstr) : cstr := match s with Some s => s | None => [] end.
Definition number (w : nat) (z : Z) : cstr := print_dec_pad w z.
(** A table is small enough when [rows] lines of [width] bytes are below 1 GiB. *)
Definition small (rows width : nat) : Prop := Z.of_nat rows * Z.of_nat width < 2^30.

(** ** Files *)
Definition parent_text (p : Z) : cstr := if p =? FILE_NO_PARENT then s2z "N" else if p =? FILE_PARENT then s2z "P" else print_dec p.
Definition parent_cell (w : nat) (p : Z) : cstr :=
  if p =? FILE_NO_PARENT then pad_zero w (s2z "N") else if p =? FILE_PARENT then pad_zero w (s2z "P") else number w p.
Definition format_text (f : toc_file) : cstr := match text (f_file_format f) with [] => s2z "N" | t => t end.
Record files_widths := mkFw { fw_id : nat; fw_unique : nat; fw_parent : nat; fw_format : nat; fw_name : nat }.
Definition files_columns (l : list toc_file) : files_widths :=
  mkFw (widest 1 (map (fun f => print_dec (f_id f)) l)) (widest 36 (map (fun f => text (f_unique_id f)) l))
       (widest 1 (map (fun f => parent_text (f_parent_id f)) l)) (widest 0 (map format_text l))
       (widest 0 (map (fun f => text (f_name f)) l)).
Definition files_line (w : files_widths) (f : toc_file) : cstr :=
  line [number (fw_id w) (f_id f); left_aligned 36 (text (f_unique_id f)); parent_cell (fw_parent w) (f_parent_id f);
        left_aligned (fw_format w) (format_text f); text (f_name f)].
Definition files_table (l : list toc_file) : cstr :=
  s2z "<fileId> <uniqueId> <parentId> <formatId> <fileName>" ++ [10] ++
  match l with [] => [10] | _ => flat_map (files_line (files_columns l)) l end.
(** What the renderer needs of a file: its three strings, and a format of fewer than 255 bytes *)
Definition file_in_table (f : toc_file) : Prop :=
  f_unique_id f <> None /\ f_file_format f <> None /\ f_name f <> None /\
  (List.length (text (f_file_format f)) < 255)%nat /\ is_i32 (f_id f) /\ is_i32 (f_parent_id f).
Definition files_width (w : files_widths) : nat := fw_id w + fw_unique w + fw_parent w + fw_format w + fw_name w + 5.

(** ** Locations *)
Definition file_pages (f : toc_file) : list page := match f_preview f with Some pv => vec_list (pv_pages pv) | None => [] end.
(** every page with the id of its file; the visible ones are those of preview files that are no parents *)
Definition all_pages (l : list toc_file) : list (Z * page) := flat_map (fun f => map (pair (f_id f)) (file_pages f)) l.
Definition visual_pages (l : list toc_file) : list (Z * page) :=
  all_pages (filter (fun f => set_bit TYPE_PREVIEW (f_types f) && negb (f_parent_id f =? FILE_PARENT)) l).
Definition digital_files (l : list toc_file) : list toc_file := filter (fun f => set_bit TYPE_DIGITAL (f_types f)) l.
Record digital_widths := mkDw { dw_id : nat; dw_frame1 : nat; dw_byte1 : nat; dw_frame2 : nat; dw_byte2 : nat; dw_size : nat; dw_sum : nat }.
(** the width of the size column counts two bytes per digit of a negative size *)
Definition size_text (z : Z) : cstr := if z <? 0 then print_nonneg (- z) ++ print_nonneg (- z) else print_dec z.
Definition digital_columns (l : list toc_file) : digital_widths :=
  mkDw (widest 1 (map (fun f => print_dec (f_id f)) l)) (widest 3 (map (fun f => print_dec (f_start_frame f)) l))
       (widest 7 (map (fun f => print_dec (f_start_byte f)) l)) (widest 3 (map (fun f => print_dec (f_end_frame f)) l))
       (widest 7 (map (fun f => print_dec (f_end_byte f)) l)) (widest 12 (map (fun f => size_text (f_size f)) l))
       (widest 40 (map (fun f => text (f_checksum f)) l)).
Definition digital_line (w : digital_widths) (f : toc_file) : cstr :=
  line [number (dw_id w) (f_id f); number (dw_frame1 w) (f_start_frame f); number (dw_byte1 w) (f_start_byte f);
        number (dw_frame2 w) (f_end_frame f); number (dw_byte2 w) (f_end_byte f); number (dw_size w) (f_size f); text (f_checksum f)].
Definition digital_width (w : digital_widths) : nat := dw_id w + dw_frame1 w + dw_byte1 w + dw_frame2 w + dw_byte2 w + dw_size w + dw_sum w + 7.
Record visual_widths := mkVw { vw_id : nat; vw_layout : nat; vw_frame : nat; vw_section : nat; vw_count : nat }.
Definition visual_columns (l : list (Z * page)) : visual_widths :=
  mkVw (widest 1 (map (fun q => print_dec (fst q)) l)) (widest 1 (map (fun q => text (pg_layout_id (snd q))) l))
       (widest 3 (map (fun q => print_dec (pg_start_frame (snd q))) l)) (widest 1 (map (fun q => print_dec (pg_start_section (snd q))) l))
       (widest 3 (map (fun q => print_dec (pg_section_count (snd q))) l)).
(** the last two columns have at most 21 bytes *)
Definition visual_width (w : visual_widths) : nat := vw_id w + vw_layout w + vw_frame w + vw_section w + vw_count w + 21 + 21 + 7.
Definition by_cell (w : nat) (x y : Z) : cstr := number w x ++ s2z "x" ++ number w y.
Definition visual_line (w : visual_widths) (q : Z * page) : cstr :=
  line [number (vw_id w) (fst q); pad_zero (vw_layout w) (text (pg_layout_id (snd q))); number (vw_frame w) (pg_start_frame (snd q));
        number (vw_section w) (pg_start_section (snd q)); number (vw_count w) (pg_section_count (snd q));
        by_cell 5 (pg_dimension_x (snd q)) (pg_dimension_y (snd q)); by_cell 2 (pg_overlap_x (snd q)) (pg_overlap_y (snd q))].
Definition location_table (l : list toc_file) : cstr :=
  match digital_files l with
  | [] => []
  | d => s2z "DIGITAL DATA LOCATIONS" ++ [10] ++ s2z "======================" ++ [10] ++
         s2z "<fileId> <startFrame> <startByte> <endFrame> <endByte> <size> <sha1Checksum>" ++ [10] ++
         flat_map (digital_line (digital_columns l)) d ++ [10]
  end ++
  match visual_pages l with
  | [] => []
  | v => s2z "VISUAL DATA LOCATIONS" ++ [10] ++ s2z "=====================" ++ [10] ++
         s2z "<fileId> <layoutId> <startFrame> <startSection> <sectionCount> <dimensionWxH> <overlapWxH>" ++ [10] ++
         flat_map (visual_line (visual_columns (all_pages l))) v
  end.
Definition file_in_location (f : toc_file) : Prop :=
  f_checksum f <> None /\ is_i32 (f_id f) /\ is_i32 (f_start_frame f) /\ is_i32 (f_start_byte f) /\ is_i32 (f_end_frame f) /\
  is_i32 (f_end_byte f) /\ is_i64 (f_size f).
(** Two numbers are padded alike when both reach [w] digits or none exceeds them. *)
Definition alike (w x y : Z) : Prop := (x < 10 ^ w /\ y < 10 ^ w) \/ (10 ^ (w - 1) <= x /\ 10 ^ (w - 1) <= y).
Definition page_in_table (p : page) : Prop :=
  pg_layout_id p <> None /\ (List.length (text (pg_layout_id p)) < 255)%nat /\ is_u32 (pg_start_frame p) /\ is_u32 (pg_start_section p) /\
  is_u32 (pg_section_count p) /\ is_u32 (pg_dimension_x p) /\ is_u32 (pg_dimension_y p) /\ is_u32 (pg_overlap_x p) /\ is_u32 (pg_overlap_y p).
Definition page_in_location (p : page) : Prop :=
  page_in_table p /\ alike 5 (pg_dimension_x p) (pg_dimension_y p) /\ alike 2 (pg_overlap_x p) (pg_overlap_y p).
(** The bytes set aside for the location table: the titles and three more bytes, and for every file and
    every page (shown or not) a line as wide as all columns; the last two columns are measured by their
    numbers without the zeros in front. *)
Definition longest (least : Z) (l : list Z) : Z := fold_right Z.max least l.
Definition pair_length (x y : Z) : Z := Z.of_nat (List.length (print_dec x)) + 1 + Z.of_nat (List.length (print_dec y)).
Definition visual_room (v : list (Z * page)) : Z :=
  let w := visual_columns v in
  Z.of_nat (vw_id w + vw_layout w + vw_frame w + vw_section w + vw_count w) + 7 +
  longest 11 (map (fun q => pair_length (pg_dimension_x (snd q)) (pg_dimension_y (snd q))) v) +
  longest 5 (map (fun q => pair_length (pg_overlap_x (snd q)) (pg_overlap_y (snd q))) v).
Definition location_room (l : list toc_file) : Z :=
  46 + 77 + 135 + 2 + Z.of_nat (List.length l) * Z.of_nat (digital_width (digital_columns l)) + Z.of_nat (List.length (all_pages l)) * visual_room (all_pages l).

(** ** Metadata of all files *)
Definition file_sources (f : toc_file) : list fsource := match f_metadata f with Some m => vec_list m | None => [] end.
Definition all_sources (l : list toc_file) : list (Z * fsource) := flat_map (fun f => map (pair (f_id f)) (file_sources f)) l.
(** long data is cut to 51 characters and dots; line breaks and tabs are removed *)
Definition stripped (d : cstr) : cstr := filter (fun c => negb ((c =? 10) || (c =? 13) || (c =? 9))) d.
Definition data_text (d : cstr) : cstr :=
  if (55 <=? List.length d)%nat && (51 <=? List.length (stripped d))%nat then firstn 51 (stripped d) ++ s2z "..." else stripped d.
Record meta_widths := mkMw { mw_file : nat; mw_source_file : nat; mw_source : nat; mw_format : nat; mw_data : nat }.
Definition meta_columns (l : list (Z * fsource)) : meta_widths :=
  mkMw (widest 0 (map (fun q => print_dec (fst q)) l)) (widest 0 (map (fun q => print_dec (fs_file_id (snd q))) l))
       (widest 0 (map (fun q => print_dec (fs_source_id (snd q))) l)) (widest 0 (map (fun q => text (fs_format_id (snd q))) l))
       (widest 0 (map (fun q => text (fs_data (snd q))) l)).
(** a missing source id is printed as zeros and N, one wider than the column *)
Definition source_id_cell (w : nat) (id : Z) : cstr := if id =? -1 then pad_zero (w + 1) (s2z "N") else number w id.
Definition meta_line (w : meta_widths) (q : Z * fsource) : cstr :=
  line [number (mw_file w) (fst q); number (mw_source_file w) (fs_file_id (snd q)); source_id_cell (mw_source w) (fs_source_id (snd q));
        left_aligned (mw_format w) (text (fs_format_id (snd q))); data_text (text (fs_data (snd q)))].
Definition metadata_table (l : list toc_file) : cstr :=
  match all_sources l with
  | [] => []
  | s => [10] ++ s2z "USER DATA FILES METADATA" ++ [10] ++ s2z "========================" ++ [10] ++
         s2z "<fileId> <sourceFileId> <sourceId> <formatId> <data>" ++ [10] ++ flat_map (meta_line (meta_columns s)) s
  end.
Definition source_in_table (s : fsource) : Prop := fs_format_id s <> None /\ fs_data s <> None /\ is_i32 (fs_file_id s) /\ is_i32 (fs_source_id s).
Definition meta_width (w : meta_widths) : nat := mw_file w + mw_source_file w + mw_source w + mw_format w + mw_data w + 17.

(** ** Metadata of one file: ids are printed as unsigned numbers *)
Fixpoint indexed {A} (i : Z) (l : list A) : list (Z * A) := match l with [] => [] | x :: l => (i, x) :: indexed (i + 1) l end.
Definition one_columns (l : list (Z * fsource)) : nat * meta_widths :=
  (widest 1 (map (fun q => print_dec (fst q)) l),
   mkMw 0 (widest 0 (map (fun q => print_dec (u32 (fs_file_id (snd q)))) l))
       (widest 0 (map (fun q => print_dec (u32 (fs_source_id (snd q)))) l)) (widest 0 (map (fun q => text (fs_format_id (snd q))) l))
       (widest 0 (map (fun q => text (fs_data (snd q))) l))).
Definition one_line (w : nat * meta_widths) (q : Z * fsource) : cstr :=
  line [number (fst w) (fst q); number (mw_source_file (snd w)) (u32 (fs_file_id (snd q))); number (mw_source (snd w)) (u32 (fs_source_id (snd q)));
        left_aligned (mw_format (snd w)) (text (fs_format_id (snd q))); text (fs_data (snd q))].
Definition one_table (l : list fsource) : cstr :=
  s2z "METADATA SOURCES" ++ [10] ++ s2z "================" ++ [10] ++ s2z "<id> <fileId> <sourceId> <formatId> <data>" ++ [10] ++
  flat_map (one_line (one_columns (indexed 0 l))) (indexed 0 l).
Definition one_width (w : nat * meta_widths) : nat := fst w + meta_width (snd w).

(** ** Layouts *)
Definition layout_sections (d : layout_def) : list section := match ld_sections d with Some v => vec_list v | None => [] end.
Definition section_count (d : layout_def) : Z := Z.of_nat (List.length (layout_sections d)).
Definition all_sections (l : list layout_def) : list (cstr * section) := flat_map (fun d => map (pair (text (ld_id d))) (layout_sections d)) l.
(** an id is filled up with at most eleven zeros *)
Definition layout_id_cell (w : nat) (id : cstr) : cstr := repeat 48 (Nat.min 11 (w - List.length id)) ++ id.
Record layout_widths := mkLw { lw_id : nat; lw_sections : nat; lw_name : nat; lw_section : nat; lw_x : nat; lw_y : nat; lw_w : nat; lw_h : nat; lw_r : nat }.
Definition layout_columns (l : list layout_def) : layout_widths :=
  let s := map snd (all_sections l) in
  mkLw (widest 0 (map (fun d => text (ld_id d)) l)) (widest 0 (map (fun d => print_dec (section_count d)) l)) (widest 0 (map (fun d => text (ld_name d)) l))
       (widest 0 (map (fun s => print_dec (s_id s)) s)) (widest 0 (map (fun s => print_dec (s_x s)) s)) (widest 0 (map (fun s => print_dec (s_y s)) s))
       (widest 0 (map (fun s => print_dec (s_width s)) s)) (widest 0 (map (fun s => print_dec (s_height s)) s)) (widest 3 (map (fun s => print_dec (s_rotation s)) s)).
Definition layout_line (w : layout_widths) (d : layout_def) : cstr :=
  line [layout_id_cell (lw_id w) (text (ld_id d)); number (lw_sections w) (section_count d); text (ld_name d)].
Definition section_line (w : layout_widths) (q : cstr * section) : cstr :=
  let (id, s) := q in
  line [layout_id_cell (lw_id w) id; number (lw_section w) (s_id s); number (lw_x w) (s_x s); number (lw_y w) (s_y s);
        number (lw_w w) (s_width s); number (lw_h w) (s_height s); number (lw_r w) (s_rotation s)].
Definition layouts_table (l : list layout_def) : cstr :=
  s2z "VISUAL LAYOUT DEFINITIONS" ++ [10] ++ s2z "=========================" ++ [10] ++ s2z "<layoutId> <sections> <name>" ++ [10] ++
  flat_map (layout_line (layout_columns l)) l ++
  [10] ++ s2z "<layoutId> <sectionId> <x> <y> <width> <height> <rotation>" ++ [10] ++
  flat_map (section_line (layout_columns l)) (all_sections l) ++ match l with [] => [] | _ => [10] end.
Definition section_in_table (s : section) : Prop :=
  is_u32 (s_id s) /\ is_u32 (s_x s) /\ is_u32 (s_y s) /\ is_u32 (s_width s) /\ is_u32 (s_height s) /\ is_u32 (s_rotation s).
Definition layout_in_table (d : layout_def) : Prop := ld_id d <> None /\ ld_name d <> None /\ Forall section_in_table (layout_sections d).
Definition layout_width1 (w : layout_widths) : nat := lw_id w + lw_sections w + lw_name w + 3.
Definition layout_width2 (w : layout_widths) : nat := lw_id w + lw_section w + lw_x w + lw_y w + lw_w w + lw_h w + lw_r w + 7.
