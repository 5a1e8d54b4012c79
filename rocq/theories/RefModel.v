(** Reference counting: create, append, get_new_reference and free of every object type, on a heap.
    Strings and boxing configurations are blocks of their own without a count. malloc is assumed to
    succeed and to return an address never used before; the vectors inside lists, which belong to one
    object each, are part of the object. A pointer that is NULL in a field is left out. *)
From Verif Require Import CBase.

(** The object types: inc/*.h, inc/toc/*.h, inc/controlframe/boxingformat.h *)
Inductive kind :=
  KString | KConfig | KSection | KSections | KLayout | KLayouts | KPage | KPreview | KFsource | KFmetadata | KFile | KFiles |
  KReel | KReels | KMsource | KMetadata | KTocData | KFormat | KAdmin | KTechnical | KControl | KRange | KRanges.
Notation address := nat (only parsing).
(** One field of pointers after another, in the order in which the free function releases them *)
Record object := mkObject { o_kind : kind; o_count : Z; o_fields : list (list address) }.
Definition heap := list (option object).
Definition fetch (h : heap) (a : address) : option object := match nth_error h a with Some (Some o) => Some o | _ => None end.
Fixpoint store (h : heap) (a : address) (x : option object) : heap :=
  match h, a with
  | [], _ => []
  | _ :: h, O => x :: h
  | y :: h, S a => y :: store h a x
  end.

(** free() of a string, boxing_config_free: undefined on a block that is not allocated *)
Definition free_block (h : heap) (a : address) : outcome heap :=
  match fetch h a with Some _ => Ok (store h a None) | None => UB end.
Fixpoint each (f : heap -> address -> outcome heap) (h : heap) (l : list address) : outcome heap :=
  match l with [] => Ok h | a :: l => obind (f h a) (fun h => each f h l) end.
Fixpoint free_fields (fs : list (heap -> address -> outcome heap)) (h : heap) (fields : list (list address)) : outcome heap :=
  match fs, fields with
  | f :: fs, l :: fields => obind (each f h l) (fun h => free_fields fs h fields)
  | _, _ => Ok h
  end.
(** The common shape of the free functions: decrement, test, release the fields in order, free. The
    object is read and written, so it must be allocated. *)
Definition free_object (test : Z -> bool) (fs : list (heap -> address -> outcome heap)) (h : heap) (a : address) : outcome heap :=
  match fetch h a with
  | None => UB
  | Some o =>
      let count := o_count o - 1 in
      let h := store h a (Some (mkObject (o_kind o) count (o_fields o))) in
      if test count then obind (free_fields fs h (o_fields o)) (fun h => Ok (store h a None)) else Ok h
  end.
Definition le0 (n : Z) : bool := n <=? 0.
Definition eq0 (n : Z) : bool := n =? 0.

(** src/toc/previewsection.c 143-156 *)
Definition section_free := free_object eq0 [].
(** src/toc/previewsections.c 103-128 *)
Definition sections_free := free_object eq0 [section_free].
(** src/toc/previewlayoutdefinition.c 203-217: id, name, sections *)
Definition layout_free := free_object eq0 [free_block; free_block; sections_free].
(** src/toc/previewlayoutdefinitions.c 103-128 *)
Definition layouts_free := free_object eq0 [layout_free].
(** src/tocfilepreviewpage.c 207-221: layout_id *)
Definition page_free := free_object le0 [free_block].
(** src/tocfilepreview.c 156-179 *)
Definition preview_free := free_object le0 [page_free].
(** src/tocdatafilemetadatasource.c 146-161: data, format_id *)
Definition fsource_free := free_object le0 [free_block; free_block].
(** src/tocdatafilemetadata.c 151-174 *)
Definition fmetadata_free := free_object le0 [fsource_free].
(** src/tocfile.c 310-330: name, date, checksum, unique_id, preview, file_format, metadata *)
Definition file_free := free_object le0 [free_block; free_block; free_block; free_block; preview_free; free_block; fmetadata_free].
(** src/tocfiles.c 197-220 *)
Definition files_free := free_object le0 [file_free].
(** src/tocdatareel.c 121-136: id, files *)
Definition reel_free := free_object le0 [free_block; files_free].
(** src/tocdatareels.c 99-122 *)
Definition reels_free := free_object le0 [reel_free].
(** src/tocmetadatasource.c 407-432: tags, format, data *)
Definition msource_free := free_object le0 [free_block; free_block; free_block].
(** src/tocmetadata.c 160-183 *)
Definition metadata_free := free_object le0 [msource_free].
(** src/tocdata.c 182-202: version, index_type, job_id, reel_id, reels, metadata, preview_layout_definitions *)
Definition toc_data_free := free_object le0 [free_block; free_block; free_block; free_block; reels_free; metadata_free; layouts_free].
(** src/controlframe/boxingformat.c 173-187: config *)
Definition format_free := free_object le0 [free_block].
(** src/administrativemetadata.c 143-162: the six strings *)
Definition admin_free := free_object le0 [free_block; free_block; free_block; free_block; free_block; free_block].
(** src/technicalmetadata.c 123-144: content boxing format, tables of contents, applications *)
Definition technical_free := free_object le0 [format_free; files_free; files_free].
(** src/controldata.c 122-139 *)
Definition control_free := free_object le0 [admin_free; technical_free].
(** src/framerange.c 105-118 *)
Definition range_free := free_object le0 [].
(** src/frameranges.c 82-107 *)
Definition ranges_free := free_object le0 [range_free].
Definition free_of (k : kind) : heap -> address -> outcome heap :=
  match k with
  | KString | KConfig => free_block
  | KSection => section_free | KSections => sections_free | KLayout => layout_free | KLayouts => layouts_free
  | KPage => page_free | KPreview => preview_free | KFsource => fsource_free | KFmetadata => fmetadata_free | KFile => file_free | KFiles => files_free
  | KReel => reel_free | KReels => reels_free | KMsource => msource_free | KMetadata => metadata_free | KTocData => toc_data_free
  | KFormat => format_free | KAdmin => admin_free | KTechnical => technical_free | KControl => control_free
  | KRange => range_free | KRanges => ranges_free
  end.

(** The calls of a client, with the type of the function called. The result of a creation is the
    next address. [Create] stands for *_create2 as well as for a copied string: pointers given to it
    are stored without taking a reference, e.g. src/tocfile.c 293-295, src/controldata.c 104-107.
    [Append] is *_add_* / *_append when it succeeds, e.g. src/tocfiles.c 367, src/tocdatareel.c 289:
    the pointer is stored without taking a reference. [Clear] is the first half of a setter, and all
    of one called with NULL: what the field holds, of type k', is freed, e.g. src/tocfile.c 527-530,
    663-666. The code leaves the old pointer in the field until the new one is stored; nothing reads
    it meanwhile, so the field is emptied first here. *)
Inductive call :=
| Create (k : kind) (fields : list (list address))
| Append (k : kind) (a : address) (field : nat) (child : address)
| Clear (k k' : kind) (a : address) (field : nat)
| NewReference (k : kind) (a : option address)
| Free (k : kind) (a : option address).
Fixpoint append_field (fields : list (list address)) (i : nat) (c : address) : list (list address) :=
  match fields, i with
  | [], _ => []
  | l :: fields, O => (l ++ [c]) :: fields
  | l :: fields, S i => l :: append_field fields i c
  end.
Fixpoint clear_field (fields : list (list address)) (i : nat) : list (list address) :=
  match fields, i with
  | [], _ => []
  | _ :: fields, O => [] :: fields
  | l :: fields, S i => l :: clear_field fields i
  end.
(** reference_count = 1, e.g. src/tocfile.c 229; reference_count++ of an int,
    in the same way for NULL and for every type: src/tocfile.c 383-393, src/tocfiles.c 271-281,
    src/tocfilepreview.c 234-244, src/tocfilepreviewpage.c 267-277, src/tocdatafilemetadata.c 225-235,
    src/tocdatafilemetadatasource.c 206-216, src/tocmetadata.c 234-244, src/tocmetadatasource.c 490-500,
    src/tocdatareel.c 178-188, src/tocdatareels.c 173-183, src/tocdata.c 245-255,
    src/toc/previewsection.c 202-211, src/toc/previewsections.c 180-190,
    src/toc/previewlayoutdefinition.c 259-270, src/toc/previewlayoutdefinitions.c 180-191,
    src/administrativemetadata.c 208-218, src/technicalmetadata.c 187-197, src/controldata.c 181-191,
    src/controlframe/boxingformat.c 239-249, src/framerange.c 156-166, src/frameranges.c 159-169 *)
Definition exec (h : heap) (c : call) : outcome heap :=
  match c with
  | Create k fields => Ok (h ++ [Some (mkObject k 1 fields)])
  | Append k a i child =>
      match fetch h a with
      | Some o => Ok (store h a (Some (mkObject (o_kind o) (o_count o) (append_field (o_fields o) i child))))
      | None => UB
      end
  | Clear k k' a i =>
      match fetch h a with
      | Some o => each (free_of k') (store h a (Some (mkObject (o_kind o) (o_count o) (clear_field (o_fields o) i)))) (nth i (o_fields o) [])
      | None => UB
      end
  | NewReference _ None => Ok h
  | NewReference k (Some a) =>
      match fetch h a with
      | Some o => if o_count o <? 2147483647 then Ok (store h a (Some (mkObject (o_kind o) (o_count o + 1) (o_fields o)))) else UB
      | None => UB
      end
  | Free _ None => Ok h
  | Free k (Some a) => free_of k h a
  end.
Fixpoint exec_all (h : heap) (l : list call) : outcome heap :=
  match l with [] => Ok h | c :: l => obind (exec h c) (fun h => exec_all h l) end.
