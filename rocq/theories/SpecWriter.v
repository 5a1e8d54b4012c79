(** What the writer and the save_string functions must do. Independent of the writer. *)
From Verif Require Import CBase XmlEntity XmlModel SpecXml TocXmlModel NodeModel SpecNode NodeBuild WsModel FileModel.

(** The text ends with a line feed. *)
Definition ends_line (s : cstr) : Prop := exists s', s = s' ++ [10].
(** The names of the ancestors of the hole, innermost first. *)
Fixpoint ancestors (c : ctx payload) : list cstr :=
  match c with Hole => [] | In_ c' _ v _ _ => match v with PElem n _ => n | PText _ => [] end :: ancestors c' end.
(** The callback looks at a node, its subtree and its ancestors only: [ask] on the nodes of the linked
    document [t] answers as [cb] on the tree. *)
Definition answers (cb : checked_cb) (ask : nat -> place -> outcome cstr) (t : dtree payload) : Prop :=
  forall c s n, t = plug c s -> shows s n -> forall p, ask (addr s) p = cb (ancestors c) n p.

(** The string an object is saved to loads back as [x], compact or indented; it is text and ends with a
    line feed. *)
Definition string_round_trips {A} (to_string : bool -> outcome (option cstr)) (load : node -> option A) (x : A) : Prop :=
  forall compact, exists s, to_string compact = Ok (Some s) /\ load_object load s = Ok (Some x) /\ is_text s /\ ends_line s.
(** Compact saves only. *)
Definition compact_string_round_trips {A} (to_string : bool -> outcome (option cstr)) (load : node -> option A) (x : A) : Prop :=
  exists s, to_string true = Ok (Some s) /\ load_object load s = Ok (Some x) /\ is_text s /\ ends_line s.
(** Saving to a file that can be opened and to a string give the same document: they succeed, fail or
    crash together, and the file holds the string, preceded by [decl] (nothing, or the XML declaration
    and perhaps blanks); other files are as before. *)
Definition same_document (to_string : bool -> outcome (option cstr)) (to_file : bool -> bool -> disk -> cstr -> outcome (disk * bool))
  (decl : cstr -> Prop) (compact : bool) : Prop :=
  forall d name,
  match to_string compact with
  | Ok (Some s) => exists d' w, to_file compact true d name = Ok (d', true) /\ decl w /\ d' name = Some (w ++ s) /\ (forall n, n <> name -> d' n = d n)
  | Ok None => exists d', to_file compact true d name = Ok (d', false)
  | UB => to_file compact true d name = UB
  end.
Definition no_declaration (w : cstr) : Prop := w = [].
Definition declaration (w : cstr) : Prop := exists b, blank b /\ w = s2z "<?xml version=""1.0"" encoding=""utf-8""?>" ++ b.
