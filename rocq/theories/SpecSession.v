(** What a session does to the book the program works on and to the books it has saved. *)
From Verif Require Import CBase TocModel SpecToc XmlModel SpecXml SpecTocXml FileModel BuildModel SpecBuild SessionModel.

(** The book as it comes back from a document (SpecTocXml.v says how each part comes back). *)
Definition book_back (split : cstr -> list cstr) (b : book) : book :=
  mkBook (b_version b) (b_index_type b) (read_back (b_job_id b)) (read_back (b_reel_id b))
         (map reel_back (b_reels b)) (map (msource_back split) (b_sources b)) (map layout_back (b_layouts b)).
(** XML can carry every text and number of it. *)
Definition book_carried (b : book) : Prop :=
  carried (b_version b) /\ carried (b_job_id b) /\ carried (b_reel_id b) /\
  Forall msource_carried (b_sources b) /\ layouts_carried (b_layouts b) /\ reels_carried (b_reels b).
(** The saved books by file name. *)
Definition shelf := cstr -> option book.
Definition nothing : shelf := fun _ => None.
Definition put (s : shelf) (name : cstr) (b : book) : shelf := fun n => if str_eqb n name then Some b else s n.
(** One step: what it answers, the new book and the new shelf. *)
Inductive went (split : cstr -> list cstr) : book * shelf -> act -> bool -> book * shelf -> Prop :=
| w_edit b s o ok b' : does b o ok b' -> went split (b, s) (Edit o) ok (b', s)
| w_reparse b s c : named b -> went split (b, s) (Reparse c) true (book_back split b, s)
| w_no_reparse b s c : ~ named b -> went split (b, s) (Reparse c) false (b, s)
| w_save b s c nl name : named b -> went split (b, s) (SaveAs c nl name) true (b, put s name (book_back split b))
| w_no_save b s c nl name : ~ named b -> went split (b, s) (SaveAs c nl name) false (b, s)
| w_load b s name b' : s name = Some b' -> went split (b, s) (LoadFrom name) true (b', s)
| w_no_load b s name : s name = None -> went split (b, s) (LoadFrom name) false (b, s).
Inductive session (split : cstr -> list cstr) : book * shelf -> list act -> list bool -> book * shelf -> Prop :=
| s_nil p : session split p [] [] p
| s_cons p a ok q l answers r : went split p a ok q -> session split q l answers r -> session split p (a :: l) (ok :: answers) r.

(** Limits: those of SpecBuild.v for the edits, and the offsets together are below 2^31. *)
Definition edits (l : list act) : list op := flat_map (fun a => match a with Edit o => [o] | _ => [] end) l.
Definition session_limits (l : list act) : Prop := limits (edits l) /\ total_offset (edits l) < 2^31.
(** Whenever a book is saved, XML can carry it. *)
Definition saves (a : act) : Prop := match a with Reparse _ | SaveAs _ _ _ => True | _ => False end.
Definition all_carried (split : cstr -> list cstr) (p : book * shelf) (l : list act) : Prop :=
  forall l1 a l2 answers b s, l = l1 ++ a :: l2 -> saves a -> session split p l1 answers (b, s) -> named b -> book_carried b.
(** A file the session does not save to. *)
Definition not_saved_to (l : list act) (name : cstr) : Prop := forall c nl, ~ In (SaveAs c nl name) l.
