(** Which objects are saved as documents that the published schemas accept, in terms of the fields of the objects. *)
From Verif Require Import CBase XmlModel SpecGrammar TocModel SpecToc SpecSchema.

(** A page: its layout id is a number. *)
Definition page_fits (p : page) : Prop := exists l, pg_layout_id p = Some l /\ xs_unsignedInt l.
(** A metadata source of a file: it has data, a file and a source. *)
Definition fsource_fits (s : fsource) : Prop := fs_data s <> None /\ 0 <= fs_file_id s /\ 0 <= fs_source_id s.
(** A file: it has a unique id, a date in one of the forms of the schema, a parent id not below -2, is digital, its size fits in
    32 bits, its end byte is not negative, and pages and metadata sources as above. *)
Definition file_fits (f : toc_file) : Prop :=
  f_unique_id f <> None /\ (exists d, f_date f = Some d /\ DateType d) /\ -2 <= f_parent_id f /\
  digital f /\ 0 <= f_size f < 2^32 /\ 0 <= f_end_byte f /\
  (previewed f -> forall p, f_preview f = Some p -> Forall page_fits (pages_of p)) /\
  Forall fsource_fits (fsources_of f).
(** A metadata source of the table of contents: no data of its own, tags, and a file. *)
Definition msource_fits (s : msource) : Prop := ms_data s = None /\ ms_tags s <> None /\ 0 <= ms_file_id s.
Definition reel_fits (r : reel) : Prop := files_of r <> [] /\ Forall file_fits (files_of r).
Definition toc_fits (t : toc_data) : Prop :=
  (exists v, t_version t = Some v /\ VersionType v) /\ layouts_of t <> [] /\ reels_of t <> [] /\
  Forall msource_fits (msources_of t) /\ Forall reel_fits (reels_of t).
(** The document element: the only element beside comments and instructions, below a leading declaration or by itself. *)
Definition document_element (d r : node) : Prop :=
  match d with
  | Elem n _ ks => if is_markup_name n then children ks = [r] else r = d
  | Opaque _ => False
  end.
(** The string is an XML document that the published schemas accept. *)
Definition schema_document (s : cstr) : Prop := exists d r, document s d /\ document_element d r /\ schema_valid r.
