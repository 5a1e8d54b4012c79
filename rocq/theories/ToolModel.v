(** The recovery tool tests/assemblytool: unboxingtool.c and main.c. It reads the frames of a reel (image
    files), decodes the control frame, then the table of contents, then the chosen files.

    Outside the model: the boxing library (decoder, stripe size, list of control frame formats) is a
    parameter, [library]; what is printed; memory that is not released. fopen for reading succeeds exactly
    for existing files; fread and fwrite transfer everything that is there; files grow by appending. *)
From Verif Require Import CBase XmlModel TocModel TocXmlModel ControlModel FileModel ShaModel ImageModel BuildModel LoadModel.
Notation length := List.length.

(** * Names of files (unboxingtool.c) *)
Definition is_separator (c : Z) : bool := (c =? 92) || (c =? 47).
(** 706-717: [i] runs down from strlen(path) - 1; [fin] is strlen(path). Result: begin. *)
Fixpoint begin_loop (path : cstr) (fin i begin : nat) : nat :=
  let begin' := if is_separator (nth i path 0) then S i else begin in
  match i with
  | O => begin'
  | S j => if negb (begin' =? 0)%nat && negb (fin =? 0)%nat then begin' else begin_loop path fin j begin'
  end.
(** strncpy of [fin - begin] bytes; a negative difference would be a huge size_t *)
Definition between (path : cstr) (begin fin : nat) : outcome cstr :=
  if (fin <? begin)%nat then UB else Ok (firstn (fin - begin) (skipn begin path)).
(** 699-725; an empty path is read at index (size_t)-1 *)
Definition get_file_name_with_extension_from_path (path : cstr) : outcome cstr :=
  match path with
  | [] => UB
  | _ => between path (begin_loop path (length path) (length path - 1) 0) (length path)
  end.
(** 672-688: begin and end *)
Fixpoint name_loop (path : cstr) (i begin fin : nat) : nat * nat :=
  let fin' := if nth i path 0 =? 46 then i else fin in
  let begin' := if is_separator (nth i path 0) then S i else begin in
  match i with
  | O => (begin', fin')
  | S j => if negb (begin' =? 0)%nat && negb (fin' =? 0)%nat then (begin', fin') else name_loop path j begin' fin'
  end.
(** 665-696 *)
Definition get_file_name_from_path (path : cstr) : outcome cstr :=
  match path with
  | [] => UB
  | _ => let (begin, fin) := name_loop path (length path - 1) 0 (length path) in between path begin fin
  end.
(** 728-751 *)
Fixpoint starts_with (p s : cstr) : bool :=
  match p, s with
  | [], _ => true
  | x :: p', y :: s' => (x =? y) && starts_with p' s'
  | _, [] => false
  end.
Definition check_tar_format (s : option cstr) : bool :=
  match s with
  | None => false
  | Some s => if (length s <? length (s2z "afs/tar"))%nat then false else starts_with (s2z "afs/tar") s
  end.
(** 632-653; strlen(NULL) is undefined *)
Definition prepare_file_name (f : toc_file) : outcome cstr :=
  match f_name f with
  | None => UB
  | Some path =>
      if file_has_parent f && check_tar_format (f_file_format f)
      then obind (get_file_name_from_path path) (fun n => Ok (n ++ s2z ".tar"))
      else get_file_name_with_extension_from_path path
  end.
(** 599-608 *)
Definition change_symbols (s : cstr) : cstr := map (fun c => if c =? 42 then 37 else c) s.
(** sprintf(buffer, format, n) for formats with conversions %d, %<width>d, %0<width>d and %%. A second
    conversion has no argument: undefined. Other conversions are not modelled (UB stands for them). *)
Fixpoint sprintf_d (fuel : nat) (used : bool) (format : cstr) (n : Z) : outcome cstr :=
  match fuel with
  | O => Ok []
  | S fuel' =>
      match format with
      | [] => Ok []
      | c :: r =>
          if negb (c =? 37) then obind (sprintf_d fuel' used r n) (fun s => Ok (c :: s))
          else match r with
               | [] => UB
               | c1 :: r1 =>
                   if c1 =? 37 then obind (sprintf_d fuel' used r1 n) (fun s => Ok (37 :: s))
                   else if used then UB
                   else let (w, r2) := read_digits r 0 in
                        match r2 with
                        | 100 :: r3 =>
                            let number := if c1 =? 48 then print_dec_pad (Z.to_nat w) n
                                          else repeat 32 (Z.to_nat w - length (print_dec n)) ++ print_dec n in
                            obind (sprintf_d fuel' true r3 n) (fun s => Ok (number ++ s))
                        | _ => UB
                        end
               end
      end
  end.
(** 611-629: the buffer has strlen(template) + 10 bytes. The number is printed as an int. *)
Definition get_input_file_name (template : cstr) (n : Z) : outcome cstr :=
  obind (sprintf_d (S (length template)) false (change_symbols template) (i32 n)) (fun s =>
  if (length s + 1 <=? length template + 10)%nat then Ok s else UB).

(** * Reading frames (unboxingtool.c) *)
(** 483-508: colour depth and whether there is a header; unsigned arithmetic of 32 bits *)
Fixpoint check_depths (depths : list Z) (file_size width height : Z) : option (Z * bool) :=
  match depths with
  | [] => None
  | b :: l => if u32 (u32 (width * height) * b) / 8 =? file_size then Some (b, false)
              else if u32 (u32 (u32 (width * height) * b) / 8 + 64) =? file_size then Some (b, true)
              else check_depths l file_size width height
  end.
Definition check_frame_size := check_depths [1; 2; 4; 8].
(** 463-480 *)
Fixpoint power_loop (j : nat) : Z := match j with O => 1 | S j' => u32 (power_loop j' * 2) end.
Fixpoint max_loop (i : nat) : Z := match i with O => 0 | S i' => u32 (max_loop i' + power_loop i') end.
Definition get_max_decimal_value (bit_rate : Z) : Z := max_loop (Z.to_nat bit_rate).
(** 442-454: the pixels of one byte; boxing_image8_pixel is unsigned char *)
Definition normalize_byte (depth byte : Z) : list Z :=
  map (fun j => u8 (Z.shiftr (u8 (Z.shiftl byte (8 - depth * (Z.of_nat j + 1)))) (8 - depth) * (255 / get_max_decimal_value depth)))
      (seq 0 (Z.to_nat (8 / depth))).
(** 419-460 for a depth below 8; the new buffer has count * 8 / depth bytes *)
Definition normalize_image_data (im : image) (depth : Z) : outcome image :=
  let count := u32 (im_width im * im_height im) in
  if u32 (count * 8) / depth <? 8 / depth * count then UB
  else Ok (mkImage (im_width im) (im_height im) (flat_map (normalize_byte depth) (firstn (Z.to_nat count) (im_data im)))).
(** 351-416. [fresh] is the content of the allocated image, width * height bytes. fread of 0 bytes gives 0. *)
Definition read_input_file (fresh : nat -> Z) (d : disk) (name : cstr) (width height : Z) : outcome (option image) :=
  match d name with
  | None => Ok None
  | Some bytes =>
      match check_frame_size (Z.of_nat (length bytes)) width height with
      | None => Ok None
      | Some (depth, header) =>
          let wanted := Z.to_nat (u64 (u64 (width * height) * depth) / 8) in
          let all := Z.to_nat (width * height) in
          let got := firstn wanted (skipn (if header : bool then 32 else 0) bytes) in
          if (wanted =? 0)%nat || (length got <? wanted)%nat then Ok None
          else if (all <? wanted)%nat then UB
          else let im := mkImage width height (got ++ map fresh (seq wanted (all - wanted))) in
               if depth <? 8 then obind (normalize_image_data im depth) (fun im => Ok (Some im)) else Ok (Some im)
      end
  end.

(** * Extracting (unboxingtool.c) *)
(** 290-348: the bytes appended to the output file *)
Definition save_output_data (data : list Z) (is_first is_last : bool) (start_byte_number end_byte_number : Z) : list Z :=
  let size := Z.of_nat (length data) in
  let start_byte := if is_first then start_byte_number else 0 in
  let end_byte := if is_last then end_byte_number else u32 (u32 size - 1) in
  if (start_byte <? end_byte) && (end_byte <? size)
  then firstn (Z.to_nat (u32 (end_byte - start_byte + 1))) (skipn (Z.to_nat start_byte) data)
  else data.
(** fopen(name, "a+") and fwrite *)
Definition append_file (d : disk) (name : cstr) (bytes : list Z) : disk :=
  write_file d name (match d name with Some s => s ++ bytes | None => bytes end).
Definition remove_file (d : disk) (name : cstr) : disk := fun n => if str_eqb n name then None else d n.

(** What one call of boxing_unboxer_utility_unbox gives: result (0 is OK), output, and the content type if the
    metadata callback reported one. It depends on all the images the decoder has been given so far. *)
Record decoded := mkDecoded { dc_result : Z; dc_data : list Z; dc_content_type : option Z }.
Definition decoder := list (option image) -> decoded.
(** The parts outside the repository. [creatable]: fopen for writing succeeds. [control_type] is the value
    BOXING_METADATA_CONTENT_TYPES_CONTROLFRAME. *)
Record library := mkLibrary {
  lib_unboxer : option config -> bool -> option decoder;
  lib_stripe_size : option config -> Z;
  lib_control_formats : list (option config);
  lib_control_type : Z;
  lib_creatable : cstr -> bool;
  lib_fresh : nat -> Z;
  lib_long : Z; lib_junk : list Z; lib_reader : reader }.
(** tests/assemblytool/unboxingtool.h 30-43; sizes are size_t *)
Record parameters := mkParameters {
  pr_input : option cstr; pr_format : option config; pr_raw : bool; pr_read : bool; pr_x : Z; pr_y : Z; pr_numbers : option (list Z); pr_help : bool }.
(** afs_sha1_sum1 of a file on the disk *)
Definition sha1_of (lib : library) (d : disk) (name : option cstr) : outcome (option cstr) :=
  afs_sha1_sum1 (lib_long lib) (lib_junk lib) (lib_reader lib) name (match name with Some n => d n | None => None end).
(** 122-164: the frames [l], with the images [fed] already given to the decoder. None: return -1. *)
Fixpoint unbox_frames (lib : library) (template : cstr) (w h : Z) (f : toc_file) (out : cstr) (dec : decoder) (first : Z)
  (fed : list (option image)) (l : list Z) (d : disk) (result : Z) : outcome (disk * option Z) :=
  match l with
  | [] => Ok (d, Some result)
  | i :: l' =>
      obind (get_input_file_name template i) (fun name =>
      obind (read_input_file (lib_fresh lib) d name w h) (fun im =>
      let r := dec (fed ++ [im]) in
      if lib_creatable lib out
      then unbox_frames lib template w h f out dec first (fed ++ [im]) l'
             (append_file d out (save_output_data (dc_data r) (i =? first) (i =? f_end_frame f) (u32 (f_start_byte f)) (u32 (f_end_byte f))))
             (dc_result r)
      else Ok (d, None)))
  end.
Definition frame_numbers (a b : Z) : list Z := map (fun k => a + Z.of_nat k) (seq 0 (Z.to_nat (b - a + 1))).
(** 72-183 with a non-NULL entry. The loop variable is an int: a last frame INT_MAX makes it overflow.
    strcmp with NULL is undefined. *)
Definition unbox_file (lib : library) (p : parameters) (f : toc_file) (d : disk) : outcome (disk * Z) :=
  match pr_input p, pr_format p with
  | Some ((_ :: _) as template), Some _ =>
      if (pr_x p =? 0) || (pr_y p =? 0) then Ok (d, -1)
      else
      obind (prepare_file_name f) (fun out =>
      if negb (lib_creatable lib out) then Ok (d, -1)
      else
      let d1 := write_file d out [] in
      match lib_unboxer lib (pr_format p) (pr_raw p) with
      | None => Ok (d1, -1)
      | Some dec =>
          obind (chk32 (lib_stripe_size lib (pr_format p) - 1)) (fun strip =>
          obind (if 0 <? strip then chk32 (f_start_frame f + strip) else Ok (f_start_frame f)) (fun first =>
          if (f_start_frame f <=? f_end_frame f) && (f_end_frame f =? 2 ^ 31 - 1) then UB
          else
          obind (unbox_frames lib template (u32 (pr_x p)) (u32 (pr_y p)) f out dec first [] (frame_numbers (f_start_frame f) (f_end_frame f)) d1 (-1)) (fun r =>
          match snd r with
          | None => Ok (fst r, -1)
          | Some result =>
              obind (sha1_of lib (fst r) (Some out)) (fun hash =>
              match f_checksum f, hash with
              | Some c, Some x => Ok (fst r, if str_eqb c x then result else -1)
              | _, _ => UB
              end)
          end)))
      end)
  | _, _ => Ok (d, -1)
  end.
Definition CONTROL_FILE := s2z "control_data.xml".
(** 225-274: the formats from the last to the first. [d] is the disk. *)
Fixpoint control_loop (lib : library) (raw : bool) (im : option image) (formats : list (option config)) (d : disk) (result : Z) : disk * Z :=
  match formats with
  | [] => (d, result)
  | c :: l =>
      match lib_unboxer lib c raw with
      | None => control_loop lib raw im l d result
      | Some dec =>
          let r := dec [im] in
          if (dc_result r =? 0) && (match dc_content_type r with Some t => t =? lib_control_type lib | None => true end)
          then if lib_creatable lib CONTROL_FILE
               then (append_file d CONTROL_FILE (save_output_data (dc_data r) true true 0 (u32 (u32 (Z.of_nat (length (dc_data r))) - 1))), dc_result r)
               else (d, -1)
          else control_loop lib raw im l (remove_file d CONTROL_FILE) (dc_result r)
      end
  end.
(** 200-284; fclose(NULL) is undefined, and so is the use of a NULL template *)
Definition unbox_control (lib : library) (p : parameters) (d : disk) : outcome (disk * Z) :=
  match pr_input p with
  | None => UB
  | Some template =>
      obind (get_input_file_name template 1) (fun name =>
      if negb (lib_creatable lib CONTROL_FILE) then UB
      else let d1 := write_file d CONTROL_FILE [] in
           obind (read_input_file (lib_fresh lib) d1 name (u32 (pr_x p)) (u32 (pr_y p))) (fun im =>
           Ok (control_loop lib (pr_raw p) im (rev (lib_control_formats lib)) d1 (-1))))
  end.

(** * The command line (main.c) *)
(** 196-217; isdigit of bytes above 127 is false *)
Definition boxing_is_digit (s : cstr) : bool := match s with [] => false | _ => forallb c_isdigit s end.
(** 236-239 *)
Fixpoint digits_loop (s : cstr) : nat := match s with c :: l => if c_isdigit c then S (digits_loop l) else O | [] => O end.
(** 220-260; [string_length - 2] is a size_t *)
Definition boxing_is_range (s : cstr) : bool :=
  match s with
  | [] => false
  | _ => let i := digits_loop s in
         if (i =? 0)%nat || (u64 (Z.of_nat (length s) - 2) <? Z.of_nat i) then false
         else if negb (nth i s 0 =? 45) then false
         else forallb c_isdigit (skipn (S i) s)
  end.
(** 164-193; None: NULL *)
Definition boxing_get_substring (s : cstr) (start_index end_index : nat) : option cstr :=
  if (end_index <=? start_index)%nat then None
  else if (length s <=? start_index)%nat || (length s <? end_index)%nat then None
  else if (start_index =? 0)%nat && (end_index =? length s)%nat then None
  else Some (firstn (end_index - start_index) (skipn start_index s)).
(** 116-129: the first '-' *)
Fixpoint dash_index (s : cstr) : option nat :=
  match s with [] => None | c :: l => if c =? 45 then Some O else option_map S (dash_index l) end.
(** 114-140: the numbers of a range; atoi(NULL) is undefined; the counter is an int *)
Definition range_numbers (s : cstr) : outcome (list Z) :=
  obind (match dash_index s with
         | None => Ok (0, 0)
         | Some i => match boxing_get_substring s 0 i, boxing_get_substring s (i + 1) (length s) with
                     | Some a, Some b => Ok (atoi a, atoi b)
                     | _, _ => UB
                     end
         end) (fun r =>
  if (fst r <=? snd r) && (snd r =? 2 ^ 31 - 1) then UB
  else Ok (map u64 (frame_numbers (fst r) (snd r)))).
Definition first_is_dash (s : cstr) : bool := match s with 45 :: _ => true | _ => false end.
(** 105-142: the numbers and the remaining arguments *)
Fixpoint read_numbers (args : list cstr) (numbers : list Z) : outcome (list Z * list cstr) :=
  match args with
  | [] => Ok (numbers, [])
  | a :: l =>
      if negb (first_is_dash a) && (boxing_is_digit a || boxing_is_range a)
      then if boxing_is_digit a then read_numbers l (numbers ++ [u64 (atoi a)])
           else obind (range_numbers a) (fun r => read_numbers l (numbers ++ r))
      else Ok (numbers, args)
  end.
(** 55-148: [args] are the arguments after the program's name. A missing argument of -i is NULL. *)
Fixpoint parse_args (fuel : nat) (args : list cstr) (p : parameters) : outcome parameters :=
  match fuel with
  | O => Ok p
  | S fuel' =>
      match args with
      | [] => Ok p
      | a :: l =>
          if str_eqb a (s2z "-h") then parse_args fuel' l (mkParameters (pr_input p) (pr_format p) (pr_raw p) (pr_read p) (pr_x p) (pr_y p) (pr_numbers p) true)
          else if str_eqb a (s2z "-i") then
            match l with
            | [] => Ok (mkParameters None (pr_format p) (pr_raw p) (pr_read p) (pr_x p) (pr_y p) (pr_numbers p) (pr_help p))
            | i :: l' => parse_args fuel' l' (mkParameters (Some i) (pr_format p) (pr_raw p) (pr_read p) (pr_x p) (pr_y p) (pr_numbers p) (pr_help p))
            end
          else if str_eqb a (s2z "-s") then
            match l with
            | x :: y :: l' => if first_is_dash x || first_is_dash y then Ok p
                              else parse_args fuel' l' (mkParameters (pr_input p) (pr_format p) (pr_raw p) (pr_read p) (u64 (atoi x)) (u64 (atoi y)) (pr_numbers p) (pr_help p))
            | _ => Ok p
            end
          else if str_eqb a (s2z "-is_raw") then parse_args fuel' l (mkParameters (pr_input p) (pr_format p) true (pr_read p) (pr_x p) (pr_y p) (pr_numbers p) (pr_help p))
          else if str_eqb a (s2z "-read") then
            obind (read_numbers l []) (fun r =>
            parse_args fuel' (snd r) (mkParameters (pr_input p) (pr_format p) (pr_raw p) true (pr_x p) (pr_y p) (Some (fst r)) (pr_help p)))
          else parse_args fuel' l p
      end
  end.
(** 150-160 *)
Definition get_command_line_parameters (args : list cstr) : outcome parameters :=
  obind (parse_args (S (length args)) args (mkParameters None None false false 0 0 None false)) (fun p =>
  Ok (match pr_input p with
      | Some _ => if (pr_x p =? 0) || (pr_y p =? 0)
                  then mkParameters None (pr_format p) (pr_raw p) (pr_read p) (pr_x p) (pr_y p) (pr_numbers p) (pr_help p) else p
      | None => p
      end)).
(** 263-284 *)
Definition boxing_value_is_present (numbers : list Z) (n : Z) : bool := existsb (fun x => x =? n) numbers.
(** 306-314 *)
Fixpoint check_loop (count : Z) (numbers chosen : list Z) : list Z :=
  match numbers with
  | [] => chosen
  | n :: l => check_loop count l (if (n <? count) && negb (boxing_value_is_present chosen n) then chosen ++ [n] else chosen)
  end.
(** 287-320 *)
Definition boxing_check_files_numbers (numbers : option (list Z)) (count : Z) : option (list Z) :=
  match numbers with
  | None => None
  | Some [] => Some (map Z.of_nat (seq 0 (Z.to_nat count)))
  | Some l => Some (check_loop count l [])
  end.

(** * The whole run (main.c 364-493) *)
(** 403-424: until a table of contents is there or has been unboxed. The last entry looked at and the
    last result. strcmp with NULL is undefined. *)
Fixpoint toc_loop (lib : library) (p : parameters) (l : list toc_file) (current : option toc_file) (d : disk) (result : Z) : outcome (disk * option toc_file * Z) :=
  match l with
  | [] => Ok (d, current, result)
  | f :: l' =>
      obind (sha1_of lib d (f_name f)) (fun hash =>
      match f_checksum f, hash with
      | Some c, Some x =>
          if str_eqb c x then Ok (d, Some f, result)
          else obind (unbox_file lib p f d) (fun r =>
               if snd r =? 0 then Ok (fst r, Some f, 0) else toc_loop lib p l' (Some f) (fst r) (snd r))
      | _, _ => UB
      end)
  end.
(** 475-485: the chosen files, whatever the results *)
Fixpoint files_loop (lib : library) (p : parameters) (v : files) (numbers : list Z) (d : disk) : outcome disk :=
  match numbers with
  | [] => Ok d
  | n :: l => match files_get (Some v) (u32 n) with
              | None => UB
              | Some f => obind (unbox_file lib p f d) (fun r => files_loop lib p v l (fst r))
              end
  end.
(** 433-434: afs_toc_files_load_file into a new list; its result is only printed, what has been loaded stays *)
Definition load_toc_files (d : disk) (name : option cstr) : outcome files :=
  match (match name with Some n => d n | None => None end) with
  | None => Ok None
  | Some s => match load_bytes s with
              | Ret (Some t) => Ok (fst (into_files None t))
              | Ret None | Fail => Ok None
              | OverRead | NoFuel => UB
              end
  end.
(** The disk and the exit status. *)
Definition main (lib : library) (args : list cstr) (d : disk) : outcome (disk * Z) :=
  obind (get_command_line_parameters args) (fun p =>
  match pr_input p with
  | None => Ok (d, -1)
  | Some _ =>
      obind (unbox_control lib p d) (fun r =>
      let d1 := fst r in
      obind (fetch load_control true d1 CONTROL_FILE) (fun c =>
      match c with
      | None => Ok (d1, -1)
      | Some c =>
          match cd_tech c with
          | None => UB
          | Some t =>
              match te_format t with
              | None => UB
              | Some b =>
                  let p1 := mkParameters (pr_input p) (bf_config b) (pr_raw p) (pr_read p) (pr_x p) (pr_y p) (pr_numbers p) (pr_help p) in
                  obind (toc_loop lib p1 (match te_tocs t with Some v => vec_list v | None => [] end) None d1 0) (fun r =>
                  let '(d2, current, result) := r in
                  if negb (result =? 0) then Ok (d2, -1)
                  else match current with
                       | None => UB
                       | Some f =>
                           obind (load_toc_files d2 (f_name f)) (fun v =>
                           if pr_read p1
                           then match boxing_check_files_numbers (pr_numbers p1) (files_count (Some v)) with
                                | None => UB
                                | Some numbers => obind (files_loop lib p1 v numbers d2) (fun d3 => Ok (d3, 0))
                                end
                           else Ok (d2, 0))
                       end)
              end
          end
      end))
  end).
