(** What loading a document into an object that is already in use may do. A load takes the object
    before the call and the document and gives the object after the call and the result. *)
From Verif Require Import CBase TocModel XmlModel SpecToc SpecTocXml ControlModel SpecControl.

(** Loading into a new object [fresh]: the object [load] gives, and failure when it gives none. *)
Definition as_new {A} (into : A -> node -> A * bool) (fresh : A) (load : node -> option A) : Prop :=
  forall t, match load t with Some a => into fresh t = (a, true) | None => snd (into fresh t) = false end.
(** A successful load leaves nothing of the object as it was. *)
Definition replaces {A} (into : A -> node -> A * bool) : Prop :=
  forall a b t, snd (into a t) = true -> into b t = into a t.
(** A failed load leaves the object as it was. *)
Definition failure_unchanged {A} (into : A -> node -> A * bool) : Prop :=
  forall a t, snd (into a t) = false -> fst (into a t) = a.
(** Successful loads into [a] seen as a load function of their own. *)
Definition over {A} (into : A -> node -> A * bool) (a : A) (t : node) : option A :=
  if snd (into a t) then Some (fst (into a t)) else None.

(** * Lists *)
(** Elements are taken from a document one by one: [None] is an element that cannot be read. Each is
    added at the end if it is acceptable there; the first that is not ends the load. The last two
    arguments are the list after the load and its result. *)
Inductive loads_list {A} (acc : list A -> A -> Prop) : list A -> list (option A) -> list A -> bool -> Prop :=
| ll_end l : loads_list acc l [] l true
| ll_unreadable l r : loads_list acc l (None :: r) l false
| ll_refused l x r : ~ acc l x -> loads_list acc l (Some x :: r) l false
| ll_added l x r l' ok : acc l x -> loads_list acc (l ++ [x]) r l' ok -> loads_list acc l (Some x :: r) l' ok.
(** A list of [items] is loaded from the elements that [elements] finds (None: there is no list in
    the document: the load fails and changes nothing). *)
Definition appends {A S} (into : S -> node -> S * bool) (items : S -> list A) (elements : node -> option (list (option A)))
  (acc : list A -> A -> Prop) : Prop :=
  forall s t, match elements t with
              | None => into s t = (s, false)
              | Some l => loads_list acc (items s) l (items (fst (into s t))) (snd (into s t))
              end.
(** A history of loads. *)
Fixpoint load_all {A} (into : A -> node -> A * bool) (a : A) (docs : list node) : A :=
  match docs with [] => a | t :: docs' => load_all into (fst (into a t)) docs' end.

(** * Documents saved by this library, loaded into an object in use *)
Definition or_else {A} (x y : option A) : option A := match x with Some a => Some a | None => y end.
(** The data and its format come together. *)
Definition fsource_over (a b : fsource) : fsource :=
  mkFsource (or_else (fs_data b) (fs_data a)) (match fs_data b with Some _ => fs_format_id b | None => fs_format_id a end)
            (fs_file_id b) (fs_source_id b).
Definition msource_over (split : cstr -> list cstr) (a b : msource) : msource :=
  mkMsource (ms_format b) (ms_id b) (ms_file_id b) (or_else (ms_data b) (ms_data a)) (or_else (tags_back split (ms_tags b)) (ms_tags a)).
Definition preview_over (a b : preview) : preview :=
  mkPreview (Some (pages_of a ++ map page_back (pages_of b))) (if pv_dpi b <? 0 then pv_dpi a else pv_dpi b).
Definition reel_over (a b : reel) : reel :=
  mkReel (read_back (r_id b)) (match r_files b with None => r_files a | Some _ => Some (back_list file_back (files_of b)) end).
(** A file: the unique id, the data of a file that is not digital, the preview and the metadata of a
    file without them stay as they were, and so do the type bits. *)
Definition file_over (a b : toc_file) : toc_file :=
  let d := digitalb b in let p := previewedb b in
  let f := file_back b in
  mkFile (f_name f) (f_date f) (f_checksum f) (if d then f_size b else f_size a) (f_id b)
         (if d then f_start_frame b else f_start_frame a) (if d then f_start_byte b else f_start_byte a)
         (if d then f_end_frame b else f_end_frame a) (if d then f_end_byte b else f_end_byte a)
         (match f_unique_id b with Some x => read_back (Some x) | None => f_unique_id a end) (f_parent_id b)
         (Z.lor (f_types a) ((if d then 1 else 0) + (if p then 2 else 0)))
         (if p then f_preview f else f_preview a) (f_file_format f)
         (match fsources_of b with [] => f_metadata a | _ => f_metadata f end).
(** The same, where the old form of the data is checked at the end. *)
Definition file_over_checked (ok : toc_file -> bool) (a b : toc_file) : toc_file :=
  let f := file_over a b in
  if digitalb b || ok f then f
  else mkFile (f_name f) (f_date f) (f_checksum f) (f_size f) (f_id f) (f_start_frame f) (f_start_byte f) (f_end_frame f) (f_end_byte f)
              (f_unique_id f) (f_parent_id f) 0 (f_preview f) (f_file_format f) (f_metadata f).
Definition tech_over (a b : tech) : tech :=
  mkTech (te_format (tech_back b)) (or_else (te_tocs (tech_back b)) (te_tocs a)) (or_else (te_applications (tech_back b)) (te_applications a)).
(** A list after a list was added to it; an empty one does not even create the vector. *)
Definition vec_over {A} (v : vec A) (l : list A) : vec A := match l with [] => v | _ => Some (vec_list v ++ l) end.

(** * What a document must contain *)
(** [u] is an element with this name, and it is [t] or inside [t]. *)
Definition element_of (n : string) (t u : node) : Prop := named (s2z n) u = true /\ (u = t \/ In u (descendants t)).
Definition has_element (n : string) (t : node) : Prop := exists u, named (s2z n) u = true /\ In u (descendants t).
(** The attribute is there, and its number as an unsigned or signed 32 bit integer. *)
Definition unsigned_attribute (u : node) (n : string) (z : Z) : Prop := exists s, node_attr u (s2z n) = Some s /\ z = u32 (atoi s).
Definition signed_attribute (u : node) (n : string) (z : Z) : Prop := exists s, node_attr u (s2z n) = Some s /\ z = atoi s.
