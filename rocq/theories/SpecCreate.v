(** Reading an object out of a block of memory, following the struct declarations in inc/. [None]: some
    field does not hold a value of its type (it was never written). *)
From Coq Require Import String.
From Verif Require Import CBase TocModel ControlModel CreateModel.

Definition num (p : block) (f : string) : option Z := match p f with Num z => Some z | _ => None end.
Definition text (p : block) (f : string) : option (option cstr) := match p f with Text s => Some s | _ => None end.
Definition bind {A B} (x : option A) (f : A -> option B) : option B := match x with Some a => f a | None => None end.
Notation "x <- e ; r" := (bind e (fun x => r)) (at level 100, e at next level, right associativity).
(** inc/framerange.h 27-33 *)
Definition range_at (p : block) : option range := s <- num p "start"; c <- num p "count"; Some (mkRange s c).
(** inc/frameranges.h 27-32 *)
Definition ranges_at (p : block) : option (vec range) := match p "frame_ranges"%string with PRangeVec v => Some v | _ => None end.
(** inc/toc/previewsection.h 29-39 *)
Definition section_at (p : block) : option section :=
  i <- num p "id"; x <- num p "x"; y <- num p "y"; w <- num p "width"; h <- num p "height"; r <- num p "rotation"; Some (mkSection i x y w h r).
(** inc/toc/previewsections.h 29-34 *)
Definition sections_at (p : block) : option (vec section) := match p "sections"%string with PSectionVec v => Some v | _ => None end.
(** inc/toc/previewlayoutdefinition.h 24-31 *)
Definition layout_at (p : block) : option layout_def :=
  i <- text p "id"; n <- text p "name"; s <- (match p "sections"%string with PSections v => Some v | _ => None end); Some (mkLayoutDef i n s).
(** inc/toc/previewlayoutdefinitions.h 26-31 *)
Definition layouts_at (p : block) : option (vec layout_def) := match p "layout_definitions"%string with PDefVec v => Some v | _ => None end.
(** inc/tocdata_c.h 25-36 *)
Definition toc_at (p : block) : option toc_data :=
  v <- text p "version"; i <- text p "index_type"; j <- text p "job_id"; r <- text p "reel_id";
  rl <- (match p "reels"%string with PReels x => Some x | _ => None end); md <- (match p "metadata"%string with PMetadata x => Some x | _ => None end);
  ld <- (match p "preview_layout_definitions"%string with PDefs x => Some x | _ => None end); Some (mkToc v i j r rl md ld).
(** inc/tocdatafilemetadata_c.h, inc/tocdatafilemetadatasource_c.h *)
Definition fmetadata_at (p : block) : option (vec fsource) := match p "sources"%string with PFsourceVec v => Some v | _ => None end.
Definition fsource_at (p : block) : option fsource :=
  d <- text p "data"; f <- text p "format_id"; i <- num p "file_id"; s <- num p "source_id"; Some (mkFsource d f i s).
(** inc/tocdatareel_c.h, inc/tocdatareels.h *)
Definition reel_at (p : block) : option reel := i <- text p "id"; f <- (match p "files"%string with PFiles v => Some v | _ => None end); Some (mkReel i f).
Definition reels_at (p : block) : option (vec reel) := match p "reels"%string with PReelVec v => Some v | _ => None end.
(** inc/tocfile.h 50-69 *)
Definition file_at (p : block) : option toc_file :=
  n <- text p "name"; d <- text p "date"; c <- text p "checksum"; sz <- num p "size"; i <- num p "id"; sf <- num p "start_frame"; sb <- num p "start_byte";
  ef <- num p "end_frame"; eb <- num p "end_byte"; u <- text p "unique_id"; pa <- num p "parent_id"; ty <- num p "types";
  pv <- (match p "preview"%string with PPreview v => Some v | _ => None end); ff <- text p "file_format";
  md <- (match p "metadata"%string with PFmetadata v => Some v | _ => None end); Some (mkFile n d c sz i sf sb ef eb u pa ty pv ff md).
(** inc/tocfilepreview.h 28-34, inc/tocfilepreviewpage.h 26-38 *)
Definition preview_at (p : block) : option preview := v <- (match p "pages"%string with PPageVec v => Some v | _ => None end); d <- num p "dpi"; Some (mkPreview v d).
Definition page_at (p : block) : option page :=
  l <- text p "layout_id"; sf <- num p "start_frame"; ss <- num p "start_section"; c <- num p "section_count"; dx <- num p "dimension_x"; dy <- num p "dimension_y";
  ox <- num p "overlap_x"; oy <- num p "overlap_y"; Some (mkPage l sf ss c dx dy ox oy).
(** inc/tocfiles.h *)
Definition files_at (p : block) : option (vec toc_file) := match p "tocs"%string with PFileVec v => Some v | _ => None end.
(** inc/tocmetadata_c.h, inc/tocmetadatasource_c.h *)
Definition metadata_at (p : block) : option (vec msource) := match p "sources"%string with PMsourceVec v => Some v | _ => None end.
Definition msource_at (p : block) : option msource :=
  f <- text p "format"; i <- num p "id"; fi <- num p "file_id"; d <- text p "data"; t <- (match p "tags"%string with PTags v => Some v | _ => None end); Some (mkMsource f i fi d t).
(** inc/administrativemetadata.h, inc/technicalmetadata.h 27-34, inc/controldata.h *)
Definition admin_at (p : block) : option admin :=
  a <- text p "reel_id"; b <- text p "print_reel_id"; c <- text p "title"; d <- text p "description"; e <- text p "creator"; f <- text p "creation_date"; Some (mkAdmin a b c d e f).
Definition tech_at (p : block) : option tech :=
  t <- (match p "afs_tocs"%string with PFiles v => Some v | _ => None end); f <- (match p "afs_content_boxing_format"%string with PFormat v => Some v | _ => None end);
  a <- (match p "afs_applications"%string with PFiles v => Some v | _ => None end); Some (mkTech f t a).
Definition control_at (p : block) : option control :=
  a <- (match p "administrative_metadata"%string with PAdmin v => Some v | _ => None end); t <- (match p "technical_metadata"%string with PTech v => Some v | _ => None end);
  Some (mkControl a t).

(** A constructor makes [x]: whatever was in the memory, every declared field is written, the object
    read from the block is [x], and there is one reference to it. *)
Definition makes {A} (at_block : block -> option A) (create : block -> block) (x : A) : Prop :=
  forall garbage, at_block (create garbage) = Some x /\ num (create garbage) "reference_count" = Some 1.
