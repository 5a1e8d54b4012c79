(** Documents written by other tools: when a document shows the trees a save function builds, and
    what it then means to understand it. *)
From Verif Require Import CBase XmlModel SpecXml SpecGrammar TocXmlModel.

(** [sim]: the same elements in the same order with the same attribute values and, in elements that
    have no elements inside, the same text up to outer blanks; comments, processing instructions,
    indentation and the order of the attributes do not count. *)
Inductive shows : node -> list node -> Prop :=
| shows_bare t d : sim t d -> shows d [t]
| shows_declared n ks' ks : (exists p, n = s2z "?" ++ p \/ n = s2z "!" ++ p) -> Forall2 sim ks (elems ks') -> shows (Elem n [] ks') ks.
(** Every document that shows the saved trees is loaded as [x]. *)
Definition understood {A} (saved : list node * bool) (load : node -> option A) (x : A) : Prop :=
  snd saved = true /\ forall s d, document s d -> shows d (fst saved) -> load_object load s = Ok (Some x).
(** The same for the objects that are always saved below an XML declaration. *)
Definition understood_declared {A} (saved : list node * bool) (load : node -> option A) (x : A) : Prop :=
  snd saved = true /\ forall s p ks, document s (Elem (s2z "?" ++ p) [] ks) -> Forall2 sim (fst saved) (elems ks) -> load_object load s = Ok (Some x).
(** XML wants exactly one document element: below the declaration there is one element beside comments and instructions. *)
Definition one_root (d : node) : Prop :=
  match d with
  | Elem ((63 | 33) :: _) _ ks => exists n a l, elems ks = [Elem n a l] /\ tag_name n
  | Elem n _ _ => tag_name n
  | Opaque _ => False
  end.
(** What a save_string function returns is markup of the grammar and shows the saved trees; when
    compact it stands for exactly these trees, below the XML declaration or (a single one) bare. *)
Definition is_markup (to_string : bool -> outcome (option cstr)) (trees : list node) : Prop :=
  forall compact, exists s d, to_string compact = Ok (Some s) /\ document s d /\ shows d trees /\
    (compact = true -> d = Elem (s2z "?xml version=""1.0"" encoding=""utf-8""?") [] trees \/ trees = [d]).
(** And it is an XML document: the markup has one document element. *)
Definition is_document (to_string : bool -> outcome (option cstr)) (trees : list node) : Prop :=
  forall compact, exists s d, to_string compact = Ok (Some s) /\ document s d /\ one_root d /\ shows d trees /\
    (compact = true -> d = Elem (s2z "?xml version=""1.0"" encoding=""utf-8""?") [] trees \/ trees = [d]).
Definition is_compact_document (to_string : bool -> outcome (option cstr)) (trees : list node) : Prop :=
  exists s d, to_string true = Ok (Some s) /\ document s d /\ one_root d /\ d = Elem (s2z "?xml version=""1.0"" encoding=""utf-8""?") [] trees.
