(** Loading from and saving to files: mxml_file_getc, mxmlLoadFile, mxmlSaveFile and the 19
    *_save_file / *_load_file functions of the library. A disk maps file names to contents (bytes);
    stdio reads and writes faithfully, writing never runs out of space, and whether fopen succeeds is
    given by [can_open]. *)
From Verif Require Import CBase XmlEntity XmlModel TocModel TocXmlModel ControlModel WsModel.

(** * mxml_file_getc (mxml-file.c 1095-1303) as a stream, like tok8 in XmlModel.v. A byte read and
    found unsuitable is consumed; at the end of the file getc gives EOF, which as part of a UTF-16 word
    makes the word negative, hence a bad character (or a bad second word). *)
(** 1240-1267 *)
Fixpoint ftok16be (l : list Z) : list tok :=
  match l with
  | [] => []
  | _ :: [] => [Bad]
  | c :: d :: l1 =>
      let w := c * 256 + d in
      if bad_char w then Bad :: ftok16be l1
      else if is_high w then
        match l1 with
        | e :: f :: l2 => pair_tok w (e * 256 + f) :: ftok16be l2
        | _ => [Bad]
        end
      else Ch w :: ftok16be l1
  end.
(** 1269-1297 *)
Fixpoint ftok16le (l : list Z) : list tok :=
  match l with
  | [] => []
  | _ :: [] => [Bad]
  | c :: d :: l1 =>
      let w := c + d * 256 in
      if bad_char w then Bad :: ftok16le l1
      else if is_high w then
        match l1 with
        | e :: f :: l2 => pair_tok w (e + f * 256) :: ftok16le l2
        | _ => [Bad]
        end
      else Ch w :: ftok16le l1
  end.
(** 1109-1238 *)
Fixpoint ftok8 (l : list Z) : list tok :=
  match l with
  | [] => []
  | c :: l1 =>
      if c <? 128 then emit c :: ftok8 l1
      else if c =? 254 then match l1 with d :: l2 => if d =? 255 then ftok16be l2 else Bad :: ftok8 l2 | [] => [Bad] end
      else if c =? 255 then match l1 with d :: l2 => if d =? 254 then ftok16le l2 else Bad :: ftok8 l2 | [] => [Bad] end
      else if Z.land c 224 =? 192 then
        match l1 with
        | d :: l2 =>
            if is_cont d then
              let ch := Z.lor (Z.shiftl (Z.land c 31) 6) (Z.land d 63) in
              (if ch <? 128 then Bad else Ch ch) :: ftok8 l2
            else Bad :: ftok8 l2
        | [] => [Bad]
        end
      else if Z.land c 240 =? 224 then
        match l1 with
        | [] => [Bad]
        | d :: l2 =>
            if is_cont d then
              match l2 with
              | [] => [Bad]
              | e :: l3 =>
                  if is_cont e then
                    let ch := Z.lor (Z.shiftl (Z.lor (Z.shiftl (Z.land c 15) 6) (Z.land d 63)) 6) (Z.land e 63) in
                    if ch <? 2048 then Bad :: ftok8 l3
                    else if ch =? 65279 then ftok8 l3
                    else Ch ch :: ftok8 l3
                  else Bad :: ftok8 l3
              end
            else Bad :: ftok8 l2
        end
      else if Z.land c 248 =? 240 then
        match l1 with
        | [] => [Bad]
        | d :: l2 =>
            if is_cont d then
              match l2 with
              | [] => [Bad]
              | e :: l3 =>
                  if is_cont e then
                    match l3 with
                    | [] => [Bad]
                    | f :: l4 =>
                        if is_cont f then
                          let ch := Z.lor (Z.shiftl (Z.lor (Z.shiftl (Z.lor (Z.shiftl (Z.land c 7) 6) (Z.land d 63)) 6) (Z.land e 63)) 6) (Z.land f 63) in
                          (if ch <? 65536 then Bad else Ch ch) :: ftok8 l4
                        else Bad :: ftok8 l4
                    end
                  else Bad :: ftok8 l3
              end
            else Bad :: ftok8 l2
        end
      else Bad :: ftok8 l1
  end.
(** mxmlLoadFile(NULL, fp, MXML_OPAQUE_CALLBACK), 156-165: the parser of load_string on the file. *)
Definition load_bytes (s : list Z) : res (option node) :=
  run_parser (S (List.length (ftok8 s))) (mkP [] None [] false) (ftok8 s).

(** * The disk *)
Definition disk := cstr -> option (list Z).
Definition write_file (d : disk) (name : cstr) (content : list Z) : disk :=
  fun n => if str_eqb n name then Some content else d n.

(** *_load_file with non-NULL arguments: all 19 are alike (src/toc/previewsection.c 502-537, previewsections.c
    572-607, previewlayoutdefinition.c 617-652, previewlayoutdefinitions.c 741-776, src/tocfilepreviewpage.c
    618-653, tocfilepreview.c 743-778, tocdatafilemetadatasource.c 495-530, tocdatafilemetadata.c 637-672,
    tocmetadatasource.c 948-983, tocmetadata.c 603-638, tocfile.c 711-746, tocfiles.c 856-891,
    tocdatareel.c 1106-1141, tocdatareels.c 531-566, tocdata.c 1333-1368, administrativemetadata.c 576-611,
    technicalmetadata.c 423-458, controldata.c 383-418, src/controlframe/boxingformat.c 590-624). *)
Definition fetch {A} (load : node -> option A) (can_open : bool) (d : disk) (name : cstr) : outcome (option A) :=
  match (if can_open then d name else None) with
  | None => Ok None
  | Some s => match load_bytes s with
              | Ret (Some t) => Ok (load t)
              | Ret None | Fail => Ok None
              | OverRead | NoFuel => UB
              end
  end.
(** *_save_file: [guard] is the test made before anything else. Some open (and so empty) the file
    before building the document, others after. The document is written whole, with its declaration,
    compactly or with the callback; mxmlSaveFile 323-346 ends with a line feed depending on the column. *)
Inductive order := OpenFirst | BuildFirst.
Definition store (o : order) (guard : bool) (saved : list node * bool) (cb : checked_cb)
  (compact nl can_open : bool) (d : disk) (name : cstr) : outcome (disk * bool) :=
  let text := save_indented true saved (if compact then guarded no_ws else cb) nl in
  let finish d1 := obind text (fun s => match s with Some x => Ok (write_file d1 name x, true) | None => Ok (d1, false) end) in
  if negb guard then Ok (d, false)
  else match o with
       | OpenFirst => if negb can_open then Ok (d, false)
                      else if snd saved then finish (write_file d name []) else Ok (write_file d name [], false)
       | BuildFirst => if negb (snd saved) then Ok (d, false)
                       else if negb can_open then Ok (d, false) else finish (write_file d name [])
       end.

(** src/toc/previewsection.c 366-408 *)
Definition section_to_file (s : section) := store OpenFirst (section_is_valid s) (save_section s) (guarded ws_section).
(** src/toc/previewsections.c 433-475 *)
Definition sections_to_file (v : sections) := store OpenFirst (sections_is_valid (Some v)) (save_sections (Some v)) (guarded ws_sections).
(** src/toc/previewlayoutdefinition.c 473-515 *)
Definition layout_to_file (d : layout_def) := store BuildFirst true (save_layout_def d) (guarded ws_layout).
(** src/toc/previewlayoutdefinitions.c 529-571 *)
Definition layouts_to_file (v : layout_defs) := store OpenFirst (layout_defs_is_valid (Some v)) (save_layout_defs (Some v)) (guarded ws_layouts).
(** src/tocfilepreviewpage.c 468-511 *)
Definition page_to_file (p : page) := store OpenFirst true (save_page p) (guarded ws_page).
(** src/tocfilepreview.c 593-635 *)
Definition preview_to_file (p : preview) := store BuildFirst true (save_preview (Some p)) (guarded ws_preview).
(** src/tocdatafilemetadatasource.c 350-394 *)
Definition fsource_to_file (s : fsource) := store OpenFirst (fsource_is_valid s) (save_fsource s) (guarded ws_fsource).
(** src/tocdatafilemetadata.c 447-489 *)
Definition fmetadata_to_file (m : fmetadata) := store BuildFirst true (save_fmetadata (Some m)) (guarded ws_fmetadata).
(** src/tocmetadatasource.c 760-803 *)
Definition msource_to_file (s : msource) := store OpenFirst (msource_is_valid s) (save_msource s) (guarded ws_msource).
(** src/tocmetadata.c 456-498 *)
Definition metadata_to_file (m : metadata) := store BuildFirst true (save_metadata (Some m)) (guarded ws_metadata).
(** src/tocfile.c 1144-1187 *)
Definition file_to_file (v1 : bool) (f : toc_file) := store OpenFirst true (save_file v1 f) ws_file.
(** src/tocfiles.c 712-754 *)
Definition files_to_file (v : files) := store BuildFirst true (save_files (Some v)) ws_files.
(** src/tocdatareel.c 965-1008 *)
Definition reel_to_file (r : reel) := store OpenFirst (reel_is_valid r) (save_reel r) (guarded ws_reel).
(** src/tocdatareels.c 387-429 *)
Definition reels_to_file (v : reels) := store BuildFirst true (save_reels (Some v)) (guarded ws_reels).
(** src/tocdata.c 1165-1208 *)
Definition toc_to_file (t : toc_data) := store OpenFirst (toc_is_valid t) (save_toc t) (guarded ws_toc_data).
(** src/administrativemetadata.c 433-476 *)
Definition admin_to_file (a : admin) := store OpenFirst true (save_admin (Some a)) (guarded ws_administrative).
(** src/technicalmetadata.c 261-310 *)
Definition tech_to_file (t : tech) :=
  store OpenFirst (match te_tocs t, te_format t with Some _, Some _ => true | _, _ => false end) (save_tech (Some t)) (guarded ws_technical).
(** src/controldata.c 240-287 *)
Definition control_to_file (c : control) :=
  store BuildFirst (match cd_admin c, cd_tech c with Some _, Some _ => true | _, _ => false end) (save_control c) ws_control.
(** src/controlframe/boxingformat.c 525-575 (afs_boxing_format_save_config_file) *)
Definition format_to_file (f : bformat) := store OpenFirst true (save_format (Some f)) (guarded ws_format).
