(** The surroundings of the recovery tool, as its theorems assume them. *)
From Verif Require Import CBase TocModel ControlModel FileModel ImageModel ShaModel ToolModel SpecTool SpecSha.
Notation length := List.length.
(** The tool can run: a template for the names of the frames, a boxing format, an image size, and the decoder [dec] of that format. *)
Definition ready (lib : library) (p : parameters) (template : cstr) (dec : decoder) : Prop :=
  pr_input p = Some template /\ template <> [] /\ pr_format p <> None /\ pr_x p <> 0 /\ pr_y p <> 0 /\ lib_unboxer lib (pr_format p) (pr_raw p) = Some dec.
(** Frame [i] of the reel is the image [im], in a file other than [out]. *)
Definition frame_is (lib : library) (p : parameters) (d : disk) (template out : cstr) (i : Z) (im : option image) : Prop :=
  exists name, get_input_file_name template i = Ok name /\ name <> out /\
               read_input_file (lib_fresh lib) d name (u32 (pr_x p)) (u32 (pr_y p)) = Ok im.
(** The frame numbers of an entry are usable: ints that do not overflow. [k] frames hold nothing, as the decoder needs that many before it gives data. *)
Definition frames_in_range (lib : library) (p : parameters) (f : toc_file) (k : nat) : Prop :=
  lib_stripe_size lib (pr_format p) = Z.of_nat k + 1 /\ - 2 ^ 31 <= f_start_frame f /\ f_start_frame f + Z.of_nat k < 2 ^ 31 /\ f_end_frame f < 2 ^ 31 - 1 /\ Z.of_nat k < 2 ^ 31 - 1.
(** Files are read without errors, by this machine's checksum functions. *)
Definition reads_well (lib : library) : Prop :=
  (lib_long lib = 32 \/ lib_long lib = 64) /\ length (lib_junk lib) = 64%nat /\ forall k, error_at (lib_reader lib) k = false.
(** The files called [name] for every [name] but [out] are as before. *)
Definition only_changes (d d' : disk) (out : cstr) : Prop := forall n, n <> out -> d' n = d n.
(** * The command line *)
Definition with_input i p := mkParameters i (pr_format p) (pr_raw p) (pr_read p) (pr_x p) (pr_y p) (pr_numbers p) (pr_help p).
Definition with_size x y p := mkParameters (pr_input p) (pr_format p) (pr_raw p) (pr_read p) x y (pr_numbers p) (pr_help p).
Definition with_raw p := mkParameters (pr_input p) (pr_format p) true (pr_read p) (pr_x p) (pr_y p) (pr_numbers p) (pr_help p).
Definition with_numbers l p := mkParameters (pr_input p) (pr_format p) (pr_raw p) true (pr_x p) (pr_y p) (Some l) (pr_help p).
Definition with_help p := mkParameters (pr_input p) (pr_format p) (pr_raw p) (pr_read p) (pr_x p) (pr_y p) (pr_numbers p) true.
Definition nothing_set := mkParameters None None false false 0 0 None false.
(** The options in any order and number, a later one replacing an earlier one. *)
Inductive says : list cstr -> parameters -> parameters -> Prop :=
| says_nothing p : says [] p p
| says_help l p p' : says l (with_help p) p' -> says (s2z "-h" :: l) p p'
| says_input s l p p' : says l (with_input (Some s) p) p' -> says (s2z "-i" :: s :: l) p p'
| says_size x y l p p' : digits x -> digits y -> value x < 2 ^ 31 -> value y < 2 ^ 31 -> says l (with_size (value x) (value y) p) p' -> says (s2z "-s" :: x :: y :: l) p p'
| says_raw l p p' : says l (with_raw p) p' -> says (s2z "-is_raw" :: l) p p'
| says_read args ls l p p' : Forall2 denotes args ls -> says l (with_numbers (List.concat ls) p) p' -> says (s2z "-read" :: args ++ l) p p'.
(** * Recovery *)
(** The entry [f] can be recovered as the file [out] with these [bytes]: its frames are in files that are not among [outs], the decoder gives
    data that holds the placed bytes (not a single byte of a longer frame), and the checksum is theirs. *)
Definition recoverable (lib : library) (p : parameters) (d : disk) (outs : list cstr) (f : toc_file) (out : cstr) (bytes : list Z) : Prop :=
  exists template dec images empty frames,
    ready lib p template dec /\ prepare_file_name f = Ok out /\ lib_creatable lib out = true /\
    Forall2 (fun i im => exists name, get_input_file_name template i = Ok name /\ ~ In name outs /\ read_input_file (lib_fresh lib) d name (u32 (pr_x p)) (u32 (pr_y p)) = Ok im)
            (from_to (f_start_frame f) (f_end_frame f)) images /\
    map dc_data (outputs dec [] images) = empty ++ frames /\ Forall (eq []) empty /\ frames_in_range lib p f (length empty) /\
    Forall message frames /\ Forall (fun o => Z.of_nat (length o) < 2 ^ 32) frames /\ Z.of_nat (length (List.concat frames)) < 2 ^ 61 /\
    last (map dc_result (outputs dec [] images)) (-1) = 0 /\
    well_placed frames (f_start_byte f) (f_end_byte f) /\ never_one_byte frames (f_start_byte f) (f_end_byte f) /\
    bytes = placed_bytes frames (f_start_byte f) (f_end_byte f) /\ f_checksum f = Some (hexadecimal (SHA1 bytes)).
(** The control frame, image 1, is decoded by the last format that can decode it as one; [bytes] is its content. *)
Definition control_frame (lib : library) (p : parameters) (d : disk) (bytes : list Z) : Prop :=
  exists template name im before c after dec,
    pr_input p = Some template /\ get_input_file_name template 1 = Ok name /\ name <> s2z "control_data.xml" /\
    read_input_file (lib_fresh lib) d name (u32 (pr_x p)) (u32 (pr_y p)) = Ok im /\ lib_creatable lib (s2z "control_data.xml") = true /\
    lib_control_formats lib = before ++ c :: after /\
    Forall (fun c' => forall dec', lib_unboxer lib c' (pr_raw p) = Some dec' -> dc_result (dec' [im]) <> 0) after /\
    lib_unboxer lib c (pr_raw p) = Some dec /\ dc_result (dec [im]) = 0 /\
    (dc_content_type (dec [im]) = None \/ dc_content_type (dec [im]) = Some (lib_control_type lib)) /\
    dc_data (dec [im]) = bytes /\ Z.of_nat (length bytes) < 2 ^ 32.
(** No format decodes image 1 as a control frame. *)
Definition no_control_frame (lib : library) (p : parameters) (im : option image) : Prop :=
  Forall (fun c => forall dec, lib_unboxer lib c (pr_raw p) = Some dec -> dc_result (dec [im]) <> 0 \/ exists t, dc_content_type (dec [im]) = Some t /\ t <> lib_control_type lib)
         (lib_control_formats lib).
Definition with_format c p := mkParameters (pr_input p) c (pr_raw p) (pr_read p) (pr_x p) (pr_y p) (pr_numbers p) (pr_help p).
(** The table of contents [content] is in the file [name] already, or another file is there and it can be recovered. *)
Definition toc_available (lib : library) (p : parameters) (d : disk) (outs : list cstr) (f : toc_file) (name : cstr) (content : list Z) : Prop :=
  f_name f = Some name /\ message content /\ Z.of_nat (length content) < 2 ^ 61 /\ f_checksum f = Some (hexadecimal (SHA1 content)) /\
  (d name = Some content \/
   exists old, d name = Some old /\ message old /\ Z.of_nat (length old) < 2 ^ 61 /\ hexadecimal (SHA1 content) <> hexadecimal (SHA1 old) /\ recoverable lib p d outs f name content).
(** What a chosen entry leaves on the disk, whether or not it can be recovered. A damaged entry: the frames decode, but to other bytes than the
    checksum says, or the decoder fails on the last frame. *)
Definition damaged (lib : library) (p : parameters) (d : disk) (outs : list cstr) (f : toc_file) (out : cstr) (bytes : list Z) : Prop :=
  exists template dec images empty frames c,
    ready lib p template dec /\ prepare_file_name f = Ok out /\ lib_creatable lib out = true /\
    Forall2 (fun i im => exists name, get_input_file_name template i = Ok name /\ ~ In name outs /\ read_input_file (lib_fresh lib) d name (u32 (pr_x p)) (u32 (pr_y p)) = Ok im)
            (from_to (f_start_frame f) (f_end_frame f)) images /\
    map dc_data (outputs dec [] images) = empty ++ frames /\ Forall (eq []) empty /\ frames_in_range lib p f (length empty) /\
    Forall message frames /\ Forall (fun o => Z.of_nat (length o) < 2 ^ 32) frames /\ Z.of_nat (length (List.concat frames)) < 2 ^ 61 /\
    well_placed frames (f_start_byte f) (f_end_byte f) /\ never_one_byte frames (f_start_byte f) (f_end_byte f) /\
    bytes = placed_bytes frames (f_start_byte f) (f_end_byte f) /\ f_checksum f = Some c /\
    (c <> hexadecimal (SHA1 bytes) \/ last (map dc_result (outputs dec [] images)) (-1) <> 0).
Inductive attempt (lib : library) (p : parameters) (d : disk) (outs : list cstr) (f : toc_file) : cstr * option (list Z) -> Prop :=
| attempt_good out bytes : recoverable lib p d outs f out bytes -> attempt lib p d outs f (out, Some bytes)
| attempt_damaged out bytes : damaged lib p d outs f out bytes -> attempt lib p d outs f (out, Some bytes)
| attempt_uncreatable out : prepare_file_name f = Ok out -> lib_creatable lib out = false -> attempt lib p d outs f (out, None).
