(** The constructors (the create and init functions) as what they are: sequences of writes to the fields of a
    block of memory that malloc returned with unknown contents. malloc is assumed to succeed (the
    functions do not check it). boxing_string_clone is external: copies the bytes, NULL for NULL;
    boxing_string_split is a parameter. Boxing formats: FormatModel.v. *)
From Coq Require Import String.
From Verif Require Import CBase TocModel ControlModel.

(** What a field can hold: a number, a string pointer, or a pointer to one of the objects. *)
Inductive cell :=
| Num (z : Z) | Text (s : option cstr)
| PSections (v : option (vec section)) | PSectionVec (v : vec section) | PDefVec (v : vec layout_def) | PRangeVec (v : vec range)
| PPageVec (v : vec page) | PPreview (v : option preview) | PFsourceVec (v : vec fsource) | PFmetadata (v : option (vec fsource))
| PTags (v : vec cstr) | PMsourceVec (v : vec msource) | PMetadata (v : option (vec msource)) | PFileVec (v : vec toc_file) | PFiles (v : option (vec toc_file))
| PReelVec (v : vec reel) | PReels (v : option (vec reel)) | PDefs (v : option (vec layout_def))
| PFormat (v : option bformat) | PAdmin (v : option admin) | PTech (v : option tech).
Definition block := string -> cell.
(** p->f = v *)
Definition assign (p : block) (f : string) (v : cell) : block := fun g => if String.eqb g f then v else p g.
Notation "p '|->' f '=' v" := (assign p f%string v) (at level 50, left associativity, f at level 9, v at level 9, only parsing).
(** The init functions do nothing for NULL. *)
Definition unless_null (f : block -> block) (p : option block) : option block := option_map f p.

(** src/framerange.c 239-250, 253-264; 64-69, 85-90 (create: malloc and init) *)
Definition range_create (p : block) : block := p |-> "start" = (Num 0) |-> "count" = (Num 0) |-> "reference_count" = (Num 1).
Definition range_create2 (start count : Z) (p : block) : block := p |-> "start" = (Num start) |-> "count" = (Num count) |-> "reference_count" = (Num 1).
(** src/frameranges.c 64-70 *)
Definition ranges_create (p : block) : block := p |-> "frame_ranges" = (PRangeVec None) |-> "reference_count" = (Num 1).
(** src/toc/previewsection.c 116-131, 91-97, 65-71 *)
Definition section_init (id x y width height rotation : Z) (p : block) : block :=
  p |-> "id" = (Num id) |-> "x" = (Num x) |-> "y" = (Num y) |-> "width" = (Num width) |-> "height" = (Num height) |-> "rotation" = (Num rotation)
    |-> "reference_count" = (Num 1).
Definition section_create (p : block) : block := section_init 0 0 0 0 0 0 p.
(** src/toc/previewsections.c 66-72 *)
Definition sections_create (p : block) : block := p |-> "sections" = (PSectionVec None) |-> "reference_count" = (Num 1).
(** src/toc/previewlayoutdefinition.c 153-164, 180-191, 66-72, 88-95, 112-118 *)
Definition layout_init (id name : option cstr) (p : block) : block :=
  p |-> "id" = (Text id) |-> "name" = (Text name) |-> "reference_count" = (Num 1).
Definition layout_init2 (id name : option cstr) (sections : option (vec section)) (p : block) : block :=
  p |-> "id" = (Text id) |-> "name" = (Text name) |-> "sections" = (PSections sections) |-> "reference_count" = (Num 1).
Definition layout_create (p : block) : block := layout_init2 None None None p.
Definition layout_create2 (id name : option cstr) (p : block) : block := layout_init id name (p |-> "sections" = (PSections None)).
Definition layout_create3 (id name : option cstr) (sections : option (vec section)) (p : block) : block := layout_init2 id name sections p.
(** src/toc/previewlayoutdefinitions.c 85-91 *)
Definition layouts_create (p : block) : block := p |-> "layout_definitions" = (PDefVec None) |-> "reference_count" = (Num 1).
(** src/tocdata.c 122-137, 155-170 *)
Definition toc_create (p : block) : block :=
  p |-> "version" = (Text None) |-> "index_type" = (Text None) |-> "job_id" = (Text None) |-> "reel_id" = (Text None) |-> "reels" = (PReels None)
    |-> "metadata" = (PMetadata None) |-> "preview_layout_definitions" = (PDefs None) |-> "reference_count" = (Num 1).
Definition toc_create2 (version index_type job_id reel_id : option cstr) (p : block) : block :=
  toc_create p |-> "version" = (Text version) |-> "index_type" = (Text index_type) |-> "job_id" = (Text job_id) |-> "reel_id" = (Text reel_id)
    |-> "reels" = (PReels None) |-> "metadata" = (PMetadata None) |-> "preview_layout_definitions" = (PDefs None) |-> "reference_count" = (Num 1).
(** src/tocdatafilemetadata.c 107-116, 130-139, 69-74, 89-94 *)
Definition fmetadata_init (p : block) : block := p |-> "sources" = (PFsourceVec None) |-> "reference_count" = (Num 1).
Definition fmetadata_init2 (sources : vec fsource) (p : block) : block := p |-> "sources" = (PFsourceVec sources) |-> "reference_count" = (Num 1).
(** src/tocdatafilemetadatasource.c 121-134, 76-81, 99-104 *)
Definition fsource_init (data format_id : option cstr) (file_id source_id : Z) (p : block) : block :=
  p |-> "data" = (Text data) |-> "format_id" = (Text format_id) |-> "file_id" = (Num file_id) |-> "source_id" = (Num source_id) |-> "reference_count" = (Num 1).
Definition fsource_create (p : block) : block := fsource_init None None (-1) (-1) p.
Definition fsource_create2 (data format_id : option cstr) (file_id source_id : Z) (p : block) : block := fsource_init data format_id file_id source_id (fsource_create p).
(** src/tocdatareel.c 80-87, 102-109 *)
Definition reel_create (p : block) : block := p |-> "id" = (Text None) |-> "files" = (PFiles None) |-> "reference_count" = (Num 1).
Definition reel_create2 (id : option cstr) (p : block) : block :=
  reel_create p |-> "id" = (Text id) |-> "files" = (PFiles None) |-> "reference_count" = (Num 1).
(** src/tocdatareels.c 61-67, 81-87 *)
Definition reels_create (p : block) : block := p |-> "reels" = (PReelVec None) |-> "reference_count" = (Num 1).
Definition reels_create2 (v : vec reel) (p : block) : block := p |-> "reels" = (PReelVec v) |-> "reference_count" = (Num 1).
(** src/tocfile.c 205-230, 258-298, 125-130, 157-193 *)
Definition file_init (p : block) : block :=
  p |-> "name" = (Text None) |-> "date" = (Text None) |-> "checksum" = (Text None) |-> "unique_id" = (Text None) |-> "preview" = (PPreview None)
    |-> "file_format" = (Text None) |-> "metadata" = (PFmetadata None)
    |-> "size" = (Num 0) |-> "id" = (Num FILE_ID_UNDEFINED) |-> "start_frame" = (Num (-1)) |-> "start_byte" = (Num (-1)) |-> "end_frame" = (Num (-1)) |-> "end_byte" = (Num (-1))
    |-> "parent_id" = (Num FILE_NO_PARENT) |-> "types" = (Num TYPE_UNDEFINED) |-> "reference_count" = (Num 1).
Definition file_init2 (name date checksum : option cstr) (size id start_frame start_byte end_frame end_byte : Z) (unique_id : option cstr) (parent_id types : Z)
  (preview : option preview) (file_format : option cstr) (metadata : option (vec fsource)) (p : block) : block :=
  p |-> "name" = (Text name) |-> "date" = (Text date) |-> "checksum" = (Text checksum) |-> "size" = (Num size) |-> "id" = (Num id)
    |-> "start_frame" = (Num start_frame) |-> "start_byte" = (Num start_byte) |-> "end_frame" = (Num end_frame) |-> "end_byte" = (Num end_byte)
    |-> "unique_id" = (Text unique_id) |-> "parent_id" = (Num parent_id) |-> "types" = (Num types) |-> "preview" = (PPreview preview)
    |-> "file_format" = (Text file_format) |-> "metadata" = (PFmetadata metadata) |-> "reference_count" = (Num 1).
Definition file_create2 (name date checksum : option cstr) (size id start_frame start_byte end_frame end_byte : Z) (unique_id : option cstr) (parent_id types : Z)
  (preview : option preview) (file_format : option cstr) (metadata : option (vec fsource)) (p : block) : block :=
  file_init2 name date checksum size id start_frame start_byte end_frame end_byte unique_id parent_id types preview file_format metadata (file_init p).
(** src/tocfilepreview.c 108-119, 133-144, 70-75, 90-95 *)
Definition preview_init (p : block) : block := p |-> "pages" = (PPageVec None) |-> "dpi" = (Num (-1)) |-> "reference_count" = (Num 1).
Definition preview_init2 (pages : vec page) (p : block) : block := p |-> "pages" = (PPageVec pages) |-> "dpi" = (Num (-1)) |-> "reference_count" = (Num 1).
(** src/tocfilepreviewpage.c 131-148, 169-195, 78-83, 105-118 *)
Definition page_init (p : block) : block :=
  p |-> "layout_id" = (Text None) |-> "start_frame" = (Num 0) |-> "start_section" = (Num 0) |-> "section_count" = (Num 0) |-> "dimension_x" = (Num 0)
    |-> "dimension_y" = (Num 0) |-> "overlap_x" = (Num 0) |-> "overlap_y" = (Num 0) |-> "reference_count" = (Num 1).
Definition page_init2 (layout_id : option cstr) (start_frame start_section section_count dimension_x dimension_y overlap_x overlap_y : Z) (p : block) : block :=
  p |-> "layout_id" = (Text layout_id) |-> "start_frame" = (Num start_frame) |-> "start_section" = (Num start_section) |-> "section_count" = (Num section_count)
    |-> "dimension_x" = (Num dimension_x) |-> "dimension_y" = (Num dimension_y) |-> "overlap_x" = (Num overlap_x) |-> "overlap_y" = (Num overlap_y)
    |-> "reference_count" = (Num 1).
(** src/tocfiles.c 151-161, 175-185, 114-119, 133-138 *)
Definition files_init (p : block) : block := p |-> "tocs" = (PFileVec None) |-> "reference_count" = (Num 1).
Definition files_init2 (tocs : vec toc_file) (p : block) : block := p |-> "tocs" = (PFileVec tocs) |-> "reference_count" = (Num 1).
(** src/tocmetadata.c 116-125, 139-148, 58-63, 78-83 *)
Definition metadata_init (p : block) : block := p |-> "sources" = (PMsourceVec None) |-> "reference_count" = (Num 1).
Definition metadata_init2 (sources : vec msource) (p : block) : block := p |-> "sources" = (PMsourceVec sources) |-> "reference_count" = (Num 1).
(** src/tocmetadatasource.c 318-332, 350-364, 381-395 *)
Definition msource_init (p : block) : block :=
  p |-> "format" = (Text None) |-> "id" = (Num (-1)) |-> "file_id" = (Num (-1)) |-> "data" = (Text None) |-> "tags" = (PTags None) |-> "reference_count" = (Num 1).
Definition msource_init2 (split : option cstr -> vec cstr) (format : option cstr) (file_id : Z) (data tags : option cstr) (id : Z) (p : block) : block :=
  p |-> "format" = (Text format) |-> "id" = (Num id) |-> "file_id" = (Num file_id) |-> "data" = (Text data) |-> "tags" = (PTags (split tags)) |-> "reference_count" = (Num 1).
Definition msource_init3 (format : option cstr) (file_id : Z) (tags : vec cstr) (id : Z) (p : block) : block :=
  p |-> "format" = (Text format) |-> "id" = (Num id) |-> "file_id" = (Num file_id) |-> "data" = (Text None) |-> "tags" = (PTags tags) |-> "reference_count" = (Num 1).
(** 120-305 *)
Definition msource_create2 split (format : option cstr) (file_id : Z) (p : block) : block := msource_init2 split format file_id None None (-1) (msource_init p).
Definition msource_create3 split (format : option cstr) (file_id id : Z) (p : block) : block := msource_init2 split format file_id None None id (msource_init p).
Definition msource_create4 split (format : option cstr) (file_id : Z) (data : option cstr) (p : block) : block := msource_init2 split format file_id data None (-1) (msource_init p).
Definition msource_create5 split (format : option cstr) (file_id : Z) (data : option cstr) (id : Z) (p : block) : block := msource_init2 split format file_id data None id (msource_init p).
Definition msource_create6 split (format : option cstr) (file_id : Z) (data tags : option cstr) (p : block) : block := msource_init2 split format file_id data tags (-1) (msource_init p).
Definition msource_create7 split (format : option cstr) (file_id : Z) (data tags : option cstr) (id : Z) (p : block) : block := msource_init2 split format file_id data tags id (msource_init p).
Definition msource_create8 (format : option cstr) (file_id : Z) (tags : vec cstr) (p : block) : block := msource_init3 format file_id tags (-1) (msource_init p).
Definition msource_create9 (format : option cstr) (file_id : Z) (tags : vec cstr) (id : Z) (p : block) : block := msource_init3 format file_id tags id (msource_init p).
(** src/administrativemetadata.c 78-92, 112-131 *)
Definition administrative_create (p : block) : block :=
  p |-> "reel_id" = (Text None) |-> "print_reel_id" = (Text None) |-> "title" = (Text None) |-> "description" = (Text None) |-> "creator" = (Text None)
    |-> "creation_date" = (Text None) |-> "reference_count" = (Num 1).
Definition administrative_create2 (reel_id print_reel_id title description creator creation_date : option cstr) (p : block) : block :=
  p |-> "reel_id" = (Text reel_id) |-> "print_reel_id" = (Text print_reel_id) |-> "title" = (Text title) |-> "description" = (Text description)
    |-> "creator" = (Text creator) |-> "creation_date" = (Text creation_date) |-> "reference_count" = (Num 1).
(** src/technicalmetadata.c 73-84, 100-111 *)
Definition technical_create (p : block) : block :=
  p |-> "afs_content_boxing_format" = (PFormat None) |-> "afs_tocs" = (PFiles None) |-> "afs_applications" = (PFiles None) |-> "reference_count" = (Num 1).
Definition technical_create2 (tocs : option (vec toc_file)) (format : option bformat) (p : block) : block :=
  p |-> "afs_tocs" = (PFiles tocs) |-> "afs_content_boxing_format" = (PFormat format) |-> "afs_applications" = (PFiles None) |-> "reference_count" = (Num 1).
(** src/controldata.c 74-84, 100-110 *)
Definition control_create (p : block) : block := p |-> "administrative_metadata" = (PAdmin None) |-> "technical_metadata" = (PTech None) |-> "reference_count" = (Num 1).
Definition control_create2 (a : option admin) (t : option tech) (p : block) : block :=
  p |-> "administrative_metadata" = (PAdmin a) |-> "technical_metadata" = (PTech t) |-> "reference_count" = (Num 1).
