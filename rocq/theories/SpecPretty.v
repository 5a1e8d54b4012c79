(** The indented form, as a reader sees it: a pretty printer of its own, written from the English
    description and not from the callbacks of the library. *)
From Verif Require Import CBase XmlModel.



(** The four characters that XML texts and attribute values replace. *)
Definition quoted (s : cstr) : cstr :=
  flat_map (fun c => if c =? 38 then s2z "&amp;" else if c =? 60 then s2z "&lt;" else if c =? 62 then s2z "&gt;" else if c =? 34 then s2z "&quot;" else [c]) s.
Definition shown_attr (a : cstr * option cstr) : cstr :=
  32 :: fst a ++ match snd a with Some v => s2z "=" ++ 34 :: quoted v ++ [34] | None => [] end.
(** How an element is set: [Block]: on a line of its own, every element inside on a line of its own, the end tag on a line of its
    own. [Text]: the same with a text inside, which stands on a line of its own (an empty text leaves an
    empty line behind the tag). [Inline]: on a line of its own, everything inside and the end tag on the
    same line. [Run]: everything on the line that is already there. *)
Inductive style := Block | Text | Inline | Run.
(** A style sheet: the elements with a name from the list, inside an element of the given name ("" for any); the first entry
    that fits counts, the other elements are blocks. *)
Definition sheet := list (style * string * list string).
Fixpoint style_of (sh : sheet) (parent name : cstr) : style :=
  match sh with
  | [] => Block
  | (st, p, ns) :: r =>
      if (str_eqb (s2z p) [] || str_eqb (s2z p) parent) && existsb (fun n => str_eqb (s2z n) name) ns then st else style_of r parent name
  end.
(** A new line at a depth: four blanks for every element around. *)
Definition new_line (depth : nat) : cstr := 10 :: repeat 32 (4 * depth).
(** An element at a depth, inside an element called [parent]; [inline]: it continues a line. CDATA sections are kept as they are. *)
Fixpoint pretty (sh : sheet) (inline : bool) (depth : nat) (parent : cstr) (t : node) : cstr :=
  match t with
  | Opaque s => quoted s
  | Elem n attrs kids =>
      let st := if inline then Run else style_of sh parent n in
      let before := match st with Run => [] | _ => new_line depth end in
      if has_prefix (s2z "![CDATA[") n then (if inline then [] else new_line depth) ++ s2z "<" ++ n ++ s2z ">"
      else
        let open := s2z "<" ++ n ++ flat_map shown_attr attrs in
        let inside := match st with Text => new_line (S depth) | _ => [] end in
        let behind := match st with Block | Text => new_line depth | _ => [] end in
        before ++ open ++
        match kids with
        | [] => s2z " />" ++ inside
        | _ => s2z ">" ++ inside ++ flat_map (pretty sh (match st with Block => false | _ => true end) (S depth) n) kids ++
               behind ++ s2z "</" ++ n ++ s2z ">"
        end
  end.
(** A whole document in its indented form. *)
Definition declaration_line : cstr := s2z "<?xml version=" ++ 34 :: s2z "1.0" ++ 34 :: s2z " encoding=" ++ 34 :: s2z "utf-8" ++ 34 :: s2z "?>".
Definition laid_out (sh : sheet) (declared : bool) (t : node) (s : cstr) : Prop :=
  s = (if declared then declaration_line else []) ++ pretty sh false 0 [] t ++ [10].
(** The house style of the library. *)
Definition house : sheet := Eval cbv beta in
  let e (st : style) (parent : string) (names : list string) := (st, parent, names) in
  [e Text "file"%string ["id"; "uniqueId"; "name"; "date"; "parentId"; "size"]%string;
   e Text "data"%string ["checksum"; "size"]%string;
   e Text "start"%string ["frame"; "byte"]%string;
   e Text "end"%string ["frame"; "byte"]%string;
   e Text "source"%string ["tags"]%string;
   e Text "previewLayout"%string ["id"; "name"]%string;
   e Text "reel"%string ["id"]%string;
   e Text "Index"%string ["indexType"; "jobId"; "reelId"]%string;
   e Text "AdministrativeMetadata"%string ["ReelId"; "PrintReelId"; "Title"; "Description"; "Creator"; "CreationDate"]%string;
   e Inline "preview"%string ["dpi"]%string;
   e Run ""%string ["NULL"]%string].
(** The payload of a metadata source set as a text: with a payload this is the same as a block. *)
Definition with_payload (sh : sheet) : sheet := (Text, "source"%string, ["data"%string]) :: sh.
(** A table of contents sets the data of a file on the line of the element before it. *)
Definition toc_style : sheet := (Run, "file"%string, ["data"%string]) :: with_payload house.
(** A file entry sets the resolution of its preview on the line of the preview. *)
Definition file_style : sheet := (Run, "preview"%string, ["dpi"%string]) :: with_payload house.
(** The indented form of a saved object, which is one element. *)
Definition indented_as (sh : sheet) (declared : bool) (to_string : bool -> outcome (option cstr)) (saved : list node) : Prop :=
  exists t s, saved = [t] /\ to_string false = Ok (Some s) /\ laid_out sh declared t s.
