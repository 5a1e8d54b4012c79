(** The *_clone functions on the heap: which blocks the copy owns. A copy is listed after its contents
    here, while the code often allocates the object first; only the order of the fresh addresses differs. *)
From Verif Require Import CBase RefModel.

Definition copier := heap -> nat -> outcome (heap * nat).
(** boxing_string_clone, boxing_config_clone *)
Definition clone_block : copier := fun h a =>
  match fetch h a with Some o => Ok (h ++ [Some (mkObject (o_kind o) 1 [])], List.length h) | None => UB end.
Fixpoint clone_each (f : copier) (h : heap) (l : list nat) : outcome (heap * list nat) :=
  match l with
  | [] => Ok (h, [])
  | a :: l => obind (f h a) (fun r => obind (clone_each f (fst r) l) (fun q => Ok (fst q, snd r :: snd q)))
  end.
Fixpoint clone_fields (fs : list copier) (h : heap) (fields : list (list nat)) : outcome (heap * list (list nat)) :=
  match fs, fields with
  | f :: fs, l :: fields => obind (clone_each f h l) (fun r => obind (clone_fields fs (fst r) fields) (fun q => Ok (fst q, snd r :: snd q)))
  | _, _ => Ok (h, [])
  end.
(** The common shape: a new object of the same type with copies of all pointers *)
Definition clone_object (fs : list copier) : copier := fun h a =>
  match fetch h a with
  | None => UB
  | Some o => obind (clone_fields fs h (o_fields o)) (fun r => Ok (fst r ++ [Some (mkObject (o_kind o) 1 (snd r))], List.length (fst r)))
  end.
(** src/toc/previewsection.c 170-187 *)
Definition section_clone := clone_object [].
(** src/toc/previewsections.c 142-165 *)
Definition sections_clone := clone_object [section_clone].
(** src/toc/previewlayoutdefinition.c 231-244 *)
Definition layout_clone := clone_object [clone_block; clone_block; sections_clone].
(** src/toc/previewlayoutdefinitions.c 142-165 *)
Definition layouts_clone := clone_object [layout_clone].
(** src/tocfilepreviewpage.c 235-252 *)
Definition page_clone := clone_object [clone_block].
(** src/tocfilepreview.c 193-219 *)
Definition preview_clone := clone_object [page_clone].
(** src/tocdatafilemetadatasource.c 175-191 *)
Definition fsource_clone := clone_object [clone_block; clone_block].
(** src/tocdatafilemetadata.c 188-210 *)
Definition fmetadata_clone := clone_object [fsource_clone].
(** src/tocfile.c 344-368 *)
Definition file_clone := clone_object [clone_block; clone_block; clone_block; clone_block; preview_clone; clone_block; fmetadata_clone].
(** src/tocfiles.c 234-256 *)
Definition files_clone := clone_object [file_clone].
(** src/tocdatareel.c 150-163 *)
Definition reel_clone := clone_object [clone_block; files_clone].
(** src/tocdatareels.c 136-158 *)
Definition reels_clone := clone_object [reel_clone].
(** src/tocmetadatasource.c 446-475: tags, format, data *)
Definition msource_clone := clone_object [clone_block; clone_block; clone_block].
(** src/tocmetadata.c 197-219 *)
Definition metadata_clone := clone_object [msource_clone].
(** src/tocdata.c 216-230 *)
Definition toc_data_clone := clone_object [clone_block; clone_block; clone_block; clone_block; reels_clone; metadata_clone; layouts_clone].
(** src/controlframe/boxingformat.c 201-224 *)
Definition format_clone := clone_object [clone_block].
(** src/administrativemetadata.c 176-193 *)
Definition admin_clone := clone_object [clone_block; clone_block; clone_block; clone_block; clone_block; clone_block].
(** src/technicalmetadata.c 158-172: the format by afs_boxing_format_create2, which copies the configuration (boxingformat.c 157) *)
Definition technical_clone := clone_object [format_clone; files_clone; files_clone].
(** src/controldata.c 153-166 *)
Definition control_clone := clone_object [admin_clone; technical_clone].
(** src/framerange.c 132-141 *)
Definition range_clone := clone_object [].
(** src/frameranges.c 121-144 *)
Definition ranges_clone := clone_object [range_clone].
Definition clone_of (k : kind) : copier :=
  match k with
  | KString | KConfig => clone_block
  | KSection => section_clone | KSections => sections_clone | KLayout => layout_clone | KLayouts => layouts_clone
  | KPage => page_clone | KPreview => preview_clone | KFsource => fsource_clone | KFmetadata => fmetadata_clone | KFile => file_clone | KFiles => files_clone
  | KReel => reel_clone | KReels => reels_clone | KMsource => msource_clone | KMetadata => metadata_clone | KTocData => toc_data_clone
  | KFormat => format_clone | KAdmin => admin_clone | KTechnical => technical_clone | KControl => control_clone
  | KRange => range_clone | KRanges => ranges_clone
  end.
(** The setters: free what the field holds, store a copy of what is given. A setter that ignores NULL
    and empty values (src/tocdatafilemetadatasource.c 294-307, 321-334) does nothing in that case.
    src/tocfile.c 519-670, 683-697; src/administrativemetadata.c 268-282, 295-309, 322-336, 349-363, 376-390, 403-417;
    src/tocdata.c 608-622, 635-649, 662-676, 689-703; src/tocdatareel.c 234-248; src/controlframe/boxingformat.c 329-343 *)
Definition set_field (k k' : kind) (h : heap) (a : nat) (i : nat) (value : option nat) : outcome heap :=
  obind (exec h (Clear k k' a i)) (fun h =>
    match value with
    | None => Ok h
    | Some s => obind (clone_of k' h s) (fun r => exec (fst r) (Append k a i (snd r)))
    end).
(** src/tocmetadatasource.c 584-602. [pieces]: how many strings boxing_string_split makes of the text
    (their contents are in TagsModel.v); None for the empty text, which strlen finds. The new vector
    belongs to the object. As in [Clear] the old pointers are taken out first. *)
Fixpoint add_pieces (h : heap) (a : nat) (n : nat) : outcome heap :=
  match n with
  | O => Ok h
  | S n => obind (exec (h ++ [Some (mkObject KString 1 [])]) (Append KMsource a 0 (List.length h))) (fun h => add_pieces h a n)
  end.
Definition set_tags (h : heap) (a : nat) (tags : option nat) (pieces : option nat) : outcome heap :=
  match tags with
  | None => Ok h
  | Some s =>
      match fetch h s, pieces with
      | None, _ => UB
      | Some _, None => Ok h
      | Some _, Some n => obind (exec h (Clear KMsource KString a 0)) (fun h => match fetch h s with Some _ => add_pieces h a n | None => UB end)
      end
  end.
