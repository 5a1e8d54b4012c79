(** XML Schema (W3C), as far as the published schemas of the library use it, and those schemas: xsd/tocdatafile.xsd,
    xsd/tocdata.xsd, xsd/control_frame.xsd and xsd/boxing_format.xsd. Independent of the model of the code.
    Simplified: [\d] and [\s] of the patterns are the ASCII digits and the XML blanks; namespaces are left out (the saved
    documents have none). *)
From Verif Require Import CBase XmlModel SpecXml.

(** * Content of a node: CDATA sections are text, comments, instructions and declarations do not count *)
Definition is_markup_name (n : cstr) : bool := match n with c :: _ => (c =? 33) || (c =? 63) | [] => false end.
Definition children (ks : list node) : list node :=
  filter (fun k => match k with Elem n _ _ => negb (is_markup_name n) | Opaque _ => false end) ks.
Definition own_text (k : node) : cstr :=
  match k with
  | Opaque s => s
  | Elem n _ _ => if str_eqb (firstn 8 n) (s2z "![CDATA[") then firstn (List.length n - 10) (skipn 8 n) else []
  end.
Definition text_in (ks : list node) : cstr := flat_map own_text ks.

(** * Simple types: predicates on the text of an element or the value of an attribute *)
Definition xml_blank (c : Z) : bool := (c =? 32) || (c =? 9) || (c =? 10) || (c =? 13).
Fixpoint drop_blanks (s : cstr) : cstr := match s with c :: l => if xml_blank c then drop_blanks l else s | [] => [] end.
(** whiteSpace = collapse; the types that use it have no inner blanks *)
Definition collapse (s : cstr) : cstr := rev (drop_blanks (rev (drop_blanks s))).
Definition digitp (c : Z) : bool := (48 <=? c) && (c <=? 57).
Definition digits_value (s : cstr) : option Z :=
  match s with
  | [] => None
  | _ => if forallb digitp s then Some (fold_left (fun a c => 10 * a + (c - 48)) s 0) else None
  end.
(** The number a text stands for: digits with an optional sign. *)
Definition integer_value (s : cstr) : option Z :=
  match collapse s with
  | 43 :: t => digits_value t
  | 45 :: t => option_map Z.opp (digits_value t)
  | t => digits_value t
  end.
Definition xs_string (s : cstr) : Prop := True.
Definition xs_integer (s : cstr) : Prop := integer_value s <> None.
Definition xs_unsignedInt (s : cstr) : Prop := exists z, integer_value s = Some z /\ 0 <= z < 2^32.
(** Pieces of patterns. *)
Definition all_digits (s : cstr) : Prop := Forall (fun c => digitp c = true) s.
Definition all_blanks (s : cstr) : Prop := Forall (fun c => xml_blank c = true) s.
Definition n_digits (n : nat) (s : cstr) : Prop := List.length s = n /\ all_digits s.
Definition one_char (s : cstr) : Prop := exists c, good_cp c /\ c <> 10 /\ c <> 13 /\ s = rfc_utf8 c.
Definition dash (s : cstr) : Prop := s = s2z ":" \/ s = s2z "-".
(** tocdata.xsd VersionType: \d*.\d*.\d* (the dot stands for any character) *)
Definition VersionType (s : cstr) : Prop :=
  exists a p b q c, s = a ++ p ++ b ++ q ++ c /\ all_digits a /\ one_char p /\ all_digits b /\ one_char q /\ all_digits c.
(** tocdatafile.xsd DateType: \s*((\d{2}(:|-)\d{2}(:|-)\d{4})|(\d{4}(:|-)\d{2}(:|-)\d{2}))(( |T)\d{2}:\d{2}:\d{2})?\s* *)
Definition day (s : cstr) : Prop :=
  exists a p b q c, s = a ++ p ++ b ++ q ++ c /\ dash p /\ dash q /\
    (n_digits 2 a /\ n_digits 2 b /\ n_digits 4 c \/ n_digits 4 a /\ n_digits 2 b /\ n_digits 2 c).
Definition clock (s : cstr) : Prop :=
  s = [] \/ exists a p b c, s = p ++ a ++ s2z ":" ++ b ++ s2z ":" ++ c /\ (p = s2z " " \/ p = s2z "T") /\ n_digits 2 a /\ n_digits 2 b /\ n_digits 2 c.
Definition DateType (s : cstr) : Prop := exists w d t v, s = w ++ d ++ t ++ v /\ all_blanks w /\ day d /\ clock t /\ all_blanks v.
(** tocdatafile.xsd ParentIdType: an integer, (-[0]*[1|2])|([0-9]+) *)
Definition ParentIdType (s : cstr) : Prop :=
  xs_integer s /\
  ((exists z c, collapse s = 45 :: z ++ [c] /\ Forall (eq 48) z /\ (c = 49 \/ c = 124 \/ c = 50)) \/ (collapse s <> [] /\ all_digits (collapse s))).
(** tocdatafile.xsd DimensionType: \d*(x|X)\d* *)
Definition DimensionType (s : cstr) : Prop := exists a c b, s = a ++ c :: b /\ all_digits a /\ (c = 120 \/ c = 88) /\ all_digits b.

(** * Types of elements *)
(** An attribute: name, use="required", type. A particle of a sequence: name, minOccurs, maxOccurs ([None]: unbounded), type. *)
Notation attribute := (cstr * bool * (cstr -> Prop))%type.
Inductive etype := EType (attributes : list attribute) (content : content_model)
with content_model := Text (p : cstr -> Prop) | Sequence (l : list particle) | Empty
with particle := Part (name : cstr) (lo : nat) (hi : option nat) (t : etype).
(** Every attribute is declared and of its type, the required ones are there. *)
Definition attributes_conform (atts : list attribute) (a : list (cstr * option cstr)) : Prop :=
  (forall n v, In (n, v) a -> exists r p x, In (n, r, p) atts /\ v = Some x /\ p x) /\
  (forall n p, In (n, true, p) atts -> exists v, In (n, v) a).
Inductive conforms : etype -> node -> Prop :=
| conforms_elem atts c n a ks : attributes_conform atts a -> content_conforms c ks -> conforms (EType atts c) (Elem n a ks)
with content_conforms : content_model -> list node -> Prop :=
| conforms_text (p : cstr -> Prop) ks : children ks = [] -> p (text_in ks) -> content_conforms (Text p) ks
| conforms_sequence l ks : all_blanks (text_in ks) -> in_sequence l (children ks) -> content_conforms (Sequence l) ks
| conforms_empty ks : children ks = [] -> text_in ks = [] -> content_conforms Empty ks
with in_sequence : list particle -> list node -> Prop :=
| sequence_end : in_sequence [] []
| sequence_part n lo hi t ps l1 l2 : (lo <= List.length l1)%nat -> (forall m, hi = Some m -> (List.length l1 <= m)%nat) ->
    occurrences n t l1 -> in_sequence ps l2 -> in_sequence (Part n lo hi t :: ps) (l1 ++ l2)
with occurrences : cstr -> etype -> list node -> Prop :=
| occurs_none n t : occurrences n t []
| occurs_one n t a ks l : conforms t (Elem n a ks) -> occurrences n t l -> occurrences n t (Elem n a ks :: l).
(** Shorthands of the schema language. *)
Definition simple (p : cstr -> Prop) : etype := EType [] (Text p).
Definition one (n : String.string) (t : etype) : particle := Part (s2z n) 1 (Some 1%nat) t.
Definition optional (n : String.string) (t : etype) : particle := Part (s2z n) 0 (Some 1%nat) t.
Definition many (n : String.string) (t : etype) : particle := Part (s2z n) 0 None t.
Definition some (n : String.string) (t : etype) : particle := Part (s2z n) 1 None t.
Definition may (n : String.string) (p : cstr -> Prop) : attribute := (s2z n, false, p).
Definition must (n : String.string) (p : cstr -> Prop) : attribute := (s2z n, true, p).

(** * xsd/tocdatafile.xsd *)
Definition FileMetadataSourceDataType := EType [may "formatId" xs_string] (Text xs_string).
Definition FileMetadataSourceType :=
  EType [may "fileId" xs_unsignedInt; may "sourceId" xs_unsignedInt] (Sequence [one "data" FileMetadataSourceDataType]).
Definition FileMetadataType := EType [] (Sequence [many "source" FileMetadataSourceType]).
Definition PagesType :=
  EType [may "layoutId" xs_unsignedInt; may "frame" xs_unsignedInt; may "section" xs_unsignedInt; may "count" xs_unsignedInt;
         may "dimension" DimensionType; may "overlap" xs_string] Empty.
Definition PreviewType := EType [] (Sequence [optional "dpi" (simple xs_unsignedInt); many "pages" PagesType]).
Definition LocationType := EType [may "frame" xs_unsignedInt; may "byte" xs_unsignedInt] Empty.
Definition DataType :=
  EType [] (Sequence [one "checksum" (simple xs_string); one "size" (simple xs_unsignedInt); one "start" LocationType; one "end" LocationType]).
Definition FileType :=
  EType [may "formatId" xs_string]
    (Sequence [one "id" (simple xs_integer); one "uniqueId" (simple xs_string); one "name" (simple xs_string); one "date" (simple DateType);
               optional "parentId" (simple ParentIdType); one "data" DataType; optional "preview" PreviewType; optional "metadata" FileMetadataType]).
(** * xsd/tocdata.xsd *)
Definition SourceType :=
  EType [may "id" xs_string; may "formatId" xs_string; may "fileId" xs_unsignedInt] (Sequence [one "tags" (simple xs_string)]).
Definition MetadataType := EType [] (Sequence [many "source" SourceType]).
Definition SectionType :=
  EType [must "id" xs_unsignedInt; must "x" xs_unsignedInt; must "y" xs_unsignedInt; must "w" xs_unsignedInt; must "h" xs_unsignedInt;
         must "rotation" xs_unsignedInt] (Text xs_string).
Definition SectionsType := EType [] (Sequence [some "section" SectionType]).
Definition previewLayoutType :=
  EType [] (Sequence [one "id" (simple xs_string); one "name" (simple xs_string); one "sections" SectionsType]).
Definition LayoutDefinitionsType := EType [] (Sequence [many "previewLayout" previewLayoutType]).
Definition FilesType := EType [] (Sequence [some "file" FileType]).
Definition ReelType := EType [] (Sequence [one "id" (simple xs_string); one "files" FilesType]).
Definition ReelsType := EType [] (Sequence [some "reel" ReelType]).
Definition IndexType :=
  EType [may "version" VersionType]
    (Sequence [one "indexType" (simple xs_string); one "jobId" (simple xs_string); one "reelId" (simple xs_string);
               optional "metadata" MetadataType; one "layoutDefinitions" LayoutDefinitionsType; one "reels" ReelsType]).
(** The global elements: what a document may have as its document element. *)
Definition schema_valid (t : node) : Prop :=
  match t with
  | Elem n _ _ => n = s2z "Index" /\ conforms IndexType t \/ n = s2z "file" /\ conforms FileType t
  | Opaque _ => False
  end.
(** * xsd/boxing_format.xsd and xsd/control_frame.xsd; [CreationDate] (xs:dateTime) and the type ns:file of the entries of Tocs,
    which no schema defines, are left open here: whatever they are (C73_control_refuted). *)
Definition PropertyType := EType [may "key" xs_string; may "value" xs_string] Empty.
Definition ClassType := EType [] (Sequence [some "property" PropertyType]).
Definition BoxingFormatType := EType [may "version" xs_string] (Sequence [some "class" ClassType]).
Definition BoxerFormatType := EType [] (Sequence [one "work" BoxingFormatType]).
Definition TocsType (ns_file : etype) := EType [] (Sequence [one "file" ns_file]).
Definition AdministrativeMetadataType (dateTime : cstr -> Prop) :=
  EType [may "version" xs_string]
    (Sequence [one "ReelId" (simple xs_string); one "PrintReelId" (simple xs_string); one "JobId" (simple xs_string); one "Title" (simple xs_string);
               one "Description" (simple xs_string); one "Creator" (simple xs_string); one "CreationDate" (simple dateTime);
               one "Location" (simple xs_string)]).
Definition TechnicalMetadataType (ns_file : etype) :=
  EType [may "version" xs_string] (Sequence [one "BoxerFormat" BoxerFormatType; one "Tocs" (TocsType ns_file)]).
