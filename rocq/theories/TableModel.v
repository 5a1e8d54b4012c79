(** The text tables: afs_toc_files_save_as_table, _as_location_table, _as_metadata_table
    (src/tocfiles.c), afs_toc_data_file_metadata_save_as_table (src/tocdatafilemetadata.c) and
    afs_toc_preview_layout_definitions_save_as_table (src/toc/previewlayoutdefinitions.c), at the
    level of their buffers. malloc is assumed to succeed. size_t has 64 bits. Line numbers below are
    those of src/tocfiles.c until another file is named. *)
From Verif Require Import CBase TocModel.

(** A block from malloc: its size and the string written into it so far; [None]: nothing has been
    written, the bytes are indeterminate. *)
Record block := mkBlock { bk_size : Z; bk_text : option cstr }.
Definition len (s : cstr) : Z := Z.of_nat (List.length s).
(** current_string += sprintf(current_string, ...): the text and its NUL are written behind what was
    written before; undefined beyond the end of the block. *)
Definition put (b : block) (s : cstr) : outcome block :=
  let t := or_empty (bk_text b) ++ s in
  if len t + 1 <=? bk_size b then Ok (mkBlock (bk_size b) (Some t)) else UB.
(** n = snprintf(current_string, remaining, ...); assert(n >= 0 && n < (int)remaining); the block is
    advanced by n. A failing assertion aborts, and without assertions the next write is out of
    bounds: both are counted as UB. *)
Definition put_asserted (b : block) (s : cstr) : outcome block :=
  let remaining := u64 (bk_size b - len (or_empty (bk_text b))) in
  if (len s <=? INT_MAX) && (len s <? i32 remaining) then put b s else UB.
(** sprintf into a local array of [n] bytes *)
Definition local_text (n : Z) (s : cstr) : outcome cstr := if len s + 1 <=? n then Ok s else UB.
(** strlen, converted to unsigned int; and the string itself as an argument of %s: undefined on NULL *)
Definition deref (s : option cstr) : outcome cstr := match s with Some s => Ok s | None => UB end.
Definition strlen32 (s : cstr) : Z := u32 (len s).
(** The width argument of a conversion is an unsigned int where an int is expected: undefined when
    it does not fit (C11 7.16.1.1). *)
Definition width (w : Z) : outcome nat := if w <? 2^31 then Ok (Z.to_nat w) else UB.
(** %0*d (and %0*lld), %0*u, %-*s *)
Definition fmt_d (w n : Z) : outcome cstr := obind (width w) (fun w => Ok (print_dec_pad w n)).
Definition fmt_u (w n : Z) : outcome cstr := obind (width w) (fun w => Ok (pad_zero w (print_nonneg n))).
Definition left_pad (w : nat) (s : cstr) : cstr := s ++ repeat 32 (w - List.length s).
Definition fmt_s (w : Z) (s : cstr) : outcome cstr := obind (width w) (fun w => Ok (left_pad w s)).
(** Space-separated conversions with a final newline *)
Fixpoint cells (l : list (outcome cstr)) : outcome cstr :=
  match l with
  | [] => Ok [10]
  | [x] => obind x (fun x => Ok (x ++ [10]))
  | x :: l => obind x (fun x => obind (cells l) (fun r => Ok (x ++ 32 :: r)))
  end.
Fixpoint ofold {A B} (f : B -> A -> outcome B) (b : B) (l : list A) : outcome B :=
  match l with [] => Ok b | x :: l => obind (f b x) (fun b => ofold f b l) end.

(** tocfiles.c 1564-1590 and the unsigned variants in tocdatafilemetadata.c 865-868 and
    previewlayoutdefinitions.c 933-936; the recursion ends after at most 20 digits. *)
Fixpoint digits_loop (fuel : nat) (n : Z) : Z :=
  match fuel with
  | O => 1
  | S fuel => let c := if negb (Z.quot n 10 =? 0) then 1 + digits_loop fuel (Z.quot n 10) else 1 in
              if (n <? 0) && (c =? 1) then c + 1 else c
  end.
Definition digits_count (n : Z) : Z := digits_loop 20 n.
Fixpoint udigits_loop (fuel : nat) (n : Z) : Z :=
  match fuel with
  | O => 1
  | S fuel => if negb (n / 10 =? 0) then 1 + udigits_loop fuel (n / 10) else 1
  end.
Definition udigits_count (n : Z) : Z := udigits_loop 20 n.
Fixpoint digits64_loop (fuel : nat) (n : Z) : Z :=
  match fuel with
  | O => 1
  | S fuel => let c := if negb (Z.quot n 10 =? 0) then 1 + digits64_loop fuel (Z.quot n 10) else 1 in
              if n <? 0 then c + 1 else c
  end.
Definition digits64_count (n : Z) : Z := digits64_loop 20 n.
(** SET_MAX_LENGTH, 30 *)
Definition set_max (saved new : Z) : Z := if saved <? new then new else saved.

(** 982 *)
Definition EPSILON := 1024 * 1024.

(** * The file table: 996-1066 *)
Record files_lengths := mkFilesLengths { fl_id : Z; fl_unique : Z; fl_parent : Z; fl_format : Z; fl_name : Z }.
(** 1384-1397 *)
Definition files_lengths_step (a : files_lengths) (f : toc_file) : outcome files_lengths :=
  obind (deref (f_unique_id f)) (fun uid =>
  obind (deref (f_file_format f)) (fun format =>
  obind (deref (f_name f)) (fun name =>
  let parent := if negb (f_parent_id f =? FILE_PARENT) && negb (f_parent_id f =? FILE_NO_PARENT) then digits_count (f_parent_id f) else 1 in
  let fmt := if len format =? 0 then 1 else strlen32 format in
  Ok (mkFilesLengths (set_max (fl_id a) (digits_count (f_id f))) (set_max (fl_unique a) (strlen32 uid))
        (set_max (fl_parent a) parent) (set_max (fl_format a) fmt) (set_max (fl_name a) (strlen32 name)))))).
(** 1364-1400 *)
Definition files_lengths_of (l : list toc_file) : outcome files_lengths :=
  ofold files_lengths_step (mkFilesLengths 1 36 1 0 0) l.
Definition FILES_HEADER := s2z "<fileId> <uniqueId> <parentId> <formatId> <fileName>".
(** 1032-1039: "%0*d%s" with a width of one less *)
Definition parent_mark (w : Z) (c : cstr) : outcome cstr :=
  if 1 <? w then obind (fmt_d (u32 (w - 1)) 0) (fun z => Ok (z ++ c)) else Ok c.
(** 1027-1063 *)
Definition files_row (a : files_lengths) (b : block) (f : toc_file) : outcome block :=
  obind (if f_parent_id f =? FILE_NO_PARENT then parent_mark (fl_parent a) (s2z "N")
         else if f_parent_id f =? FILE_PARENT then parent_mark (fl_parent a) (s2z "P")
         else fmt_d (fl_parent a) (f_parent_id f)) (fun parent =>
  obind (local_text 255 parent) (fun parent =>
  obind (deref (f_file_format f)) (fun format =>
  obind (local_text 255 (if negb (len format =? 0) then format else s2z "N")) (fun format =>
  obind (cells [fmt_d (fl_id a) (f_id f); obind (deref (f_unique_id f)) (fmt_s 36); Ok parent;
                fmt_s (fl_format a) format; deref (f_name f)]) (fun row =>
  put_asserted b row))))).
(** 996-1066; the argument NULL counts as an empty list. Some None: a block never written. *)
Definition files_table_save (v : option files) : outcome (option (option cstr)) :=
  let l := match v with Some v => vec_list v | None => [] end in
  match l with
  | [] => obind (put (mkBlock (len FILES_HEADER + 2 + 1) None) (FILES_HEADER ++ [10; 10])) (fun b => Ok (Some (bk_text b)))
  | _ =>
      obind (files_lengths_of l) (fun a =>
      let table1_width := u32 (fl_id a + fl_unique a + fl_parent a + fl_format a + fl_name a + 5) in
      let table1_length := u64 (len FILES_HEADER + table1_width * Z.of_nat (List.length l) + 1) in
      obind (put_asserted (mkBlock (u64 (table1_length + 1 + EPSILON)) None) (FILES_HEADER ++ [10])) (fun b =>
      obind (ofold (files_row a) b l) (fun b => Ok (Some (bk_text b)))))
  end.

(** * The location table: 1077-1212 *)
Record loc_lengths := mkLoc {
  ll_did : Z; ll_dstart_frame : Z; ll_dstart_byte : Z; ll_dend_frame : Z; ll_dend_byte : Z; ll_dsize : Z; ll_dsum : Z;
  ll_vid : Z; ll_vlayout : Z; ll_vframe : Z; ll_vsection : Z; ll_vcount : Z; ll_vdim : Z; ll_voverlap : Z; ll_pages : Z }.
(** 1464-1484 *)
Definition loc_page (id : Z) (a : loc_lengths) (p : page) : outcome loc_lengths :=
  obind (deref (pg_layout_id p)) (fun layout =>
  Ok (mkLoc (ll_did a) (ll_dstart_frame a) (ll_dstart_byte a) (ll_dend_frame a) (ll_dend_byte a) (ll_dsize a) (ll_dsum a)
        (set_max (ll_vid a) (digits_count id)) (set_max (ll_vlayout a) (strlen32 layout))
        (set_max (ll_vframe a) (udigits_count (pg_start_frame p))) (set_max (ll_vsection a) (udigits_count (pg_start_section p)))
        (set_max (ll_vcount a) (udigits_count (pg_section_count p)))
        (set_max (ll_vdim a) (udigits_count (pg_dimension_x p) + udigits_count (pg_dimension_y p) + 1))
        (set_max (ll_voverlap a) (udigits_count (pg_overlap_x p) + udigits_count (pg_overlap_y p) + 1))
        (u32 (ll_pages a + 1)))).
(** 1452-1464: no pages without a preview or with a NULL page vector *)
Definition pages_of (f : toc_file) : list page := match f_preview f with Some pv => vec_list (pv_pages pv) | None => [] end.
(** 1435-1485 *)
Definition loc_file (a : loc_lengths) (f : toc_file) : outcome loc_lengths :=
  obind (deref (f_checksum f)) (fun sum =>
  let a := mkLoc (set_max (ll_did a) (digits_count (f_id f))) (set_max (ll_dstart_frame a) (digits_count (f_start_frame f)))
    (set_max (ll_dstart_byte a) (digits_count (f_start_byte f))) (set_max (ll_dend_frame a) (digits_count (f_end_frame f)))
    (set_max (ll_dend_byte a) (digits_count (f_end_byte f))) (set_max (ll_dsize a) (digits64_count (f_size f)))
    (set_max (ll_dsum a) (strlen32 sum))
    (ll_vid a) (ll_vlayout a) (ll_vframe a) (ll_vsection a) (ll_vcount a) (ll_vdim a) (ll_voverlap a) (ll_pages a) in
  ofold (loc_page (f_id f)) a (pages_of f)).
(** 1403-1488 *)
Definition loc_lengths_of (l : list toc_file) : outcome loc_lengths :=
  ofold loc_file (mkLoc 1 3 7 3 7 12 40 1 1 3 1 3 11 5 0) l.
Definition DIGITAL_HEADER := s2z "DIGITAL DATA LOCATIONS" ++ [10] ++ s2z "======================" ++ [10].
Definition DIGITAL_HEADER2 := s2z "<fileId> <startFrame> <startByte> <endFrame> <endByte> <size> <sha1Checksum>" ++ [10].
Definition VISUAL_HEADER := s2z "VISUAL DATA LOCATIONS" ++ [10] ++ s2z "=====================" ++ [10] ++
  s2z "<fileId> <layoutId> <startFrame> <startSection> <sectionCount> <dimensionWxH> <overlapWxH>" ++ [10].
(** 1129-1140; the flag is digital_header_done *)
Definition digital_row (a : loc_lengths) (s : block * bool) (f : toc_file) : outcome (block * bool) :=
  if file_is_digital f then
    obind (if snd s then Ok (fst s) else put (fst s) (DIGITAL_HEADER ++ DIGITAL_HEADER2)) (fun b =>
    obind (cells [fmt_d (ll_did a) (f_id f); fmt_d (ll_dstart_frame a) (f_start_frame f); fmt_d (ll_dstart_byte a) (f_start_byte f);
                  fmt_d (ll_dend_frame a) (f_end_frame f); fmt_d (ll_dend_byte a) (f_end_byte f); fmt_d (ll_dsize a) (f_size f);
                  deref (f_checksum f)]) (fun row =>
    obind (put b row) (fun b => Ok (b, true))))
  else Ok s.
(** 1188-1202 *)
Definition layout_cell (w : Z) (layout : cstr) : outcome cstr :=
  obind (if strlen32 layout <? w then obind (fmt_d (w - strlen32 layout) 0) (fun z => Ok (z ++ layout)) else Ok layout) (local_text 255).
Definition pair_cell (w x y : Z) : outcome cstr :=
  obind (fmt_u w x) (fun x => obind (fmt_u w y) (fun y => local_text 255 (x ++ s2z "x" ++ y))).
(** 1173-1207; the flag is visual_header_done *)
Definition visual_row (a : loc_lengths) (id : Z) (s : block * bool) (p : page) : outcome (block * bool) :=
  obind (if snd s then Ok (fst s) else put (fst s) VISUAL_HEADER) (fun b =>
  obind (deref (pg_layout_id p)) (fun layout =>
  obind (cells [fmt_d (ll_vid a) id; layout_cell (ll_vlayout a) layout; fmt_u (ll_vframe a) (pg_start_frame p);
                fmt_u (ll_vsection a) (pg_start_section p); fmt_u (ll_vcount a) (pg_section_count p);
                pair_cell 5 (pg_dimension_x p) (pg_dimension_y p); pair_cell 2 (pg_overlap_x p) (pg_overlap_y p)]) (fun row =>
  obind (put b row) (fun b => Ok (b, true))))).
(** 1150-1209 *)
Definition visual_file (a : loc_lengths) (s : block * bool) (f : toc_file) : outcome (block * bool) :=
  if file_is_preview f && negb (file_is_parent f) then ofold (visual_row a (f_id f)) s (pages_of f) else Ok s.
(** 1077-1212 *)
Definition location_table_save (v : option files) : outcome (option (option cstr)) :=
  match v with
  | None => Ok None
  | Some None => Ok (Some (Some []))
  | Some (Some l) =>
      obind (loc_lengths_of l) (fun a =>
      let dwidth := u64 (u32 (ll_did a + ll_dstart_frame a + ll_dstart_byte a + ll_dend_frame a + ll_dend_byte a + ll_dsize a + ll_dsum a + 6) + 1) in
      let dlength := u64 (len DIGITAL_HEADER + len DIGITAL_HEADER2 + dwidth * Z.of_nat (List.length l) + 1) in
      let vwidth := u64 (u32 (ll_vid a + ll_vlayout a + ll_vframe a + ll_vsection a + ll_vcount a + ll_vdim a + ll_voverlap a + 6) + 1) in
      let vlength := u64 (len VISUAL_HEADER + vwidth * ll_pages a) in
      obind (ofold (digital_row a) (mkBlock (u64 (dlength + vlength + 1)) None, false) l) (fun s =>
      obind (if snd s then put (fst s) [10] else Ok (fst s)) (fun b =>
      obind (ofold (visual_file a) (b, false) l) (fun s => Ok (Some (bk_text (fst s)))))))
  end.

(** * The metadata table: 1226-1351 *)
Record meta_lengths := mkMeta { me_file_id : Z; me_id : Z; me_source_file : Z; me_source : Z; me_format : Z; me_data : Z; me_count : Z }.
(** 1528-1556; [j] is the index of the source in its file *)
Definition meta_source (id : Z) (a : Z * meta_lengths) (s : fsource) : outcome (Z * meta_lengths) :=
  let (j, a) := a in
  obind (deref (fs_format_id s)) (fun format =>
  obind (deref (fs_data s)) (fun data =>
  Ok (j + 1, mkMeta (set_max (me_file_id a) (digits_count id)) (set_max (me_id a) (digits_count (i32 j)))
        (set_max (me_source_file a) (digits_count (fs_file_id s))) (set_max (me_source a) (digits_count (fs_source_id s)))
        (set_max (me_format a) (strlen32 format)) (set_max (me_data a) (strlen32 data)) (u32 (me_count a + 1))))).
(** 1523-1527: sources_count of the metadata, 0 for NULL *)
Definition sources_of (f : toc_file) : list fsource := match f_metadata f with Some m => vec_list m | None => [] end.
(** 1514-1558 *)
Definition meta_file (a : meta_lengths) (f : toc_file) : outcome meta_lengths :=
  obind (ofold (meta_source (f_id f)) (0, a) (sources_of f)) (fun r => Ok (snd r)).
(** 1491-1561 *)
Definition meta_lengths_of (l : list toc_file) : outcome meta_lengths := ofold meta_file (mkMeta 0 0 0 0 0 0 0) l.
Definition META_HEADER := [10] ++ s2z "USER DATA FILES METADATA" ++ [10] ++ s2z "========================" ++ [10].
Definition META_COLUMNS := s2z "<fileId> <sourceFileId> <sourceId> <formatId> <data>" ++ [10].
(** 1671-1687: at most [n] bytes besides the NUL, without newlines, carriage returns and tabs *)
Fixpoint strip_copy (n : nat) (s : cstr) : cstr :=
  match s with
  | [] => []
  | c :: s' => match n with
               | O => []
               | S n' => if (c =? 10) || (c =? 13) || (c =? 9) then strip_copy n s' else c :: strip_copy n' s'
               end
  end.
(** 1299-1310: strcpy to data+51 is visible only when the text reaches it, in place of its last
    characters; both arms stay within the 55 bytes by construction of strip_copy *)
Definition data_cell (d : cstr) : outcome cstr :=
  if 55 <=? strlen32 d then
    let t := strip_copy 54 d in
    local_text 55 (if 51 <=? len t then firstn 51 t ++ s2z "..." else t)
  else local_text 55 (strip_copy (Z.to_nat (strlen32 d)) d).
(** 1312-1333; the length was checked against sizeof(source_id) before *)
Definition source_cell (w id : Z) : outcome cstr :=
  obind (if negb (id =? -1) then fmt_d w id
         else if 1 <? w then obind (fmt_d w 0) (fun z => Ok (z ++ s2z "N")) else Ok (s2z "N")) (local_text 32).
(** 1275-1346; the flag is metadata_header_done; None: NULL is returned *)
Definition meta_row (a : meta_lengths) (id : Z) (s : option (block * bool)) (src : fsource) : outcome (option (block * bool)) :=
  match s with
  | None => Ok None
  | Some (b, done) =>
      obind (if done then Ok b else obind (put_asserted b META_HEADER) (fun b => put_asserted b META_COLUMNS)) (fun b =>
      obind (deref (fs_data src)) (fun data =>
      obind (data_cell data) (fun data =>
      if 32 <? me_source a then Ok None
      else
        obind (source_cell (me_source a) (fs_source_id src)) (fun source =>
        obind (cells [fmt_d (me_file_id a) id; fmt_d (me_source_file a) (fs_file_id src); Ok source;
                      obind (deref (fs_format_id src)) (fmt_s (me_format a)); Ok data]) (fun row =>
        obind (put_asserted b row) (fun b => Ok (Some (b, true))))))))
  end.
(** 1261-1348 *)
Definition meta_rows (a : meta_lengths) (s : option (block * bool)) (f : toc_file) : outcome (option (block * bool)) :=
  ofold (meta_row a (f_id f)) s (sources_of f).
(** 1226-1351: the block is cleared by memset, so it holds the empty string from the start *)
Definition metadata_table_save (v : option files) : outcome (option (option cstr)) :=
  match v with
  | Some (Some l) =>
      obind (meta_lengths_of l) (fun a =>
      let hlength := u32 (len META_HEADER + len META_COLUMNS) in
      let mwidth := u32 (me_file_id a + me_id a + me_source_file a + me_source a + me_format a + me_data a + 5 + 1) in
      let mlength := u32 (hlength + mwidth * me_count a + 1) in
      obind (ofold (meta_rows a) (Some (mkBlock (u64 (u32 (mlength + 1) + EPSILON)) (Some []), false)) l) (fun r =>
      Ok (match r with Some (b, _) => Some (bk_text b) | None => None end)))
  | _ => Ok None
  end.

(** * The metadata table of one file: src/tocdatafilemetadata.c 544-575 *)
Record fm_lengths := mkFm { fm_id : Z; fm_file : Z; fm_source : Z; fm_format : Z; fm_data : Z }.
(** 850-859: int arguments are converted to unsigned *)
Definition fm_step (a : Z * fm_lengths) (s : fsource) : outcome (Z * fm_lengths) :=
  let (i, a) := a in
  obind (deref (fs_format_id s)) (fun format =>
  obind (deref (fs_data s)) (fun data =>
  Ok (i + 1, mkFm (set_max (fm_id a) (udigits_count i)) (set_max (fm_file a) (udigits_count (u32 (fs_file_id s))))
        (set_max (fm_source a) (udigits_count (u32 (fs_source_id s)))) (set_max (fm_format a) (strlen32 format))
        (set_max (fm_data a) (strlen32 data))))).
(** 830-862 *)
Definition fm_lengths_of (l : list fsource) : outcome fm_lengths :=
  obind (ofold fm_step (0, mkFm 1 0 0 0 0) l) (fun r => Ok (snd r)).
Definition FM_HEADER := s2z "METADATA SOURCES" ++ [10] ++ s2z "================" ++ [10] ++ s2z "<id> <fileId> <sourceId> <formatId> <data>" ++ [10].
(** 568-572 *)
Definition fm_row (a : fm_lengths) (s : Z * block) (src : fsource) : outcome (Z * block) :=
  let (i, b) := s in
  obind (cells [fmt_u (fm_id a) i; fmt_u (fm_file a) (u32 (fs_file_id src)); fmt_u (fm_source a) (u32 (fs_source_id src));
                obind (deref (fs_format_id src)) (fmt_s (fm_format a)); deref (fs_data src)]) (fun row =>
  obind (put b row) (fun b => Ok (i + 1, b))).
(** 544-575 *)
Definition fmetadata_table_save (m : option fmetadata) : outcome (option (option cstr)) :=
  match m with
  | None => Ok None
  | Some v =>
      let l := vec_list v in
      obind (fm_lengths_of l) (fun a =>
      let twidth := u32 (fm_id a + fm_file a + fm_source a + fm_format a + fm_data a + 4 + 1) in
      let tlength := u32 (twidth * u32 (vec_size v) + 1) in
      obind (put (mkBlock (u32 (len FM_HEADER + tlength + 1)) None) FM_HEADER) (fun b =>
      obind (ofold (fm_row a) (0, b) l) (fun r => Ok (Some (bk_text (snd r))))))
  end.

(** * The layout table: src/toc/previewlayoutdefinitions.c 631-690 *)
Record ld_lengths := mkLd { ldl_id : Z; ldl_sections : Z; ldl_name : Z; ldl_section_id : Z; ldl_x : Z; ldl_y : Z;
  ldl_width : Z; ldl_height : Z; ldl_rotation : Z; ldl_count : Z }.
Definition sections_of (d : layout_def) : list section := match ld_sections d with Some v => vec_list v | None => [] end.
(** 915-926 *)
Definition ld_section (a : ld_lengths) (s : section) : ld_lengths :=
  mkLd (ldl_id a) (ldl_sections a) (ldl_name a) (set_max (ldl_section_id a) (udigits_count (s_id s)))
    (set_max (ldl_x a) (udigits_count (s_x s))) (set_max (ldl_y a) (udigits_count (s_y s)))
    (set_max (ldl_width a) (udigits_count (s_width s))) (set_max (ldl_height a) (udigits_count (s_height s)))
    (set_max (ldl_rotation a) (udigits_count (s_rotation s))) (u32 (ldl_count a + 1)).
(** 906-927 *)
Definition ld_step (a : ld_lengths) (d : layout_def) : outcome ld_lengths :=
  obind (deref (ld_id d)) (fun id =>
  obind (deref (ld_name d)) (fun name =>
  Ok (fold_left ld_section (sections_of d)
       (mkLd (set_max (ldl_id a) (strlen32 id)) (set_max (ldl_sections a) (udigits_count (layout_def_section_count d)))
         (set_max (ldl_name a) (strlen32 name)) (ldl_section_id a) (ldl_x a) (ldl_y a) (ldl_width a) (ldl_height a)
         (ldl_rotation a) (ldl_count a))))).
(** 880-930 *)
Definition ld_lengths_of (l : list layout_def) : outcome ld_lengths := ofold ld_step (mkLd 0 0 0 0 0 0 0 0 3 0) l.
Definition LD_HEADER := s2z "VISUAL LAYOUT DEFINITIONS" ++ [10] ++ s2z "=========================" ++ [10].
Definition LD_COLUMNS1 := s2z "<layoutId> <sections> <name>" ++ [10].
Definition LD_COLUMNS2 := [10] ++ s2z "<layoutId> <sectionId> <x> <y> <width> <height> <rotation>" ++ [10].
(** "%.*s%s" with string_id_pad: at most its 11 zeros; a negative precision would print them all *)
Definition id_cell (w : Z) (id : cstr) : cstr :=
  let p := i32 (u64 (w - len id)) in
  (if p <? 0 then repeat 48 11 else firstn (Z.to_nat p) (repeat 48 11)) ++ id.
(** 660-666 *)
Definition ld_row1 (a : ld_lengths) (b : block) (d : layout_def) : outcome block :=
  obind (deref (ld_id d)) (fun id =>
  obind (cells [Ok (id_cell (ldl_id a) id); fmt_u (ldl_sections a) (layout_def_section_count d); deref (ld_name d)]) (put b)).
(** 675-681 *)
Definition ld_row2 (a : ld_lengths) (d : layout_def) (b : block) (s : section) : outcome block :=
  obind (deref (ld_id d)) (fun id =>
  obind (cells [Ok (id_cell (ldl_id a) id); fmt_u (ldl_section_id a) (s_id s); fmt_u (ldl_x a) (s_x s); fmt_u (ldl_y a) (s_y s);
                fmt_u (ldl_width a) (s_width s); fmt_u (ldl_height a) (s_height s); fmt_u (ldl_rotation a) (s_rotation s)]) (put b)).
(** 631-690 *)
Definition layouts_table_save (v : option layout_defs) : outcome (option (option cstr)) :=
  match v with
  | None => Ok None
  | Some v =>
      let l := vec_list v in
      obind (ld_lengths_of l) (fun a =>
      let hlength := u32 (len LD_HEADER) in
      let width1 := u32 (ldl_id a + ldl_sections a + ldl_name a + 3) in
      let length1 := u32 (len LD_COLUMNS1 + width1 * u32 (vec_size v) + 1) in
      let width2 := u32 (ldl_id a + ldl_section_id a + ldl_x a + ldl_y a + ldl_width a + ldl_height a + ldl_rotation a + 7) in
      let length2 := u32 (len LD_COLUMNS2 + width2 * ldl_count a + 1) in
      obind (put (mkBlock (u64 (u32 (hlength + length1 + length2) + 1 + 1)) None) (LD_HEADER ++ LD_COLUMNS1)) (fun b =>
      obind (ofold (ld_row1 a) b l) (fun b =>
      obind (put b LD_COLUMNS2) (fun b =>
      obind (ofold (fun b d => ofold (ld_row2 a d) b (sections_of d)) b l) (fun b =>
      obind (if negb (u32 (vec_size v) =? 0) then put b [10] else Ok b) (fun b => Ok (Some (bk_text b))))))))
  end.
