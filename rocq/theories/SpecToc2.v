(** Specifications for the exact results of look-ups, totals and frame bounds, and for the frames a
    preview occupies. *)
From Verif Require Import CBase TocModel SpecToc.

(** A look-up by unique id compares the stored ids one after the other; a stored file without one
    cannot be compared. A file ends the search when its id is the requested one or missing. *)
Definition ends_search (id : cstr) (f : toc_file) : Prop := f_unique_id f = Some id \/ f_unique_id f = None.
Definition uid_result (id : cstr) (l : list toc_file) (r : outcome (option toc_file)) : Prop :=
  match r with
  | Ok (Some x) => first_with (ends_search id) l x /\ f_unique_id x = Some id
  | Ok None => Forall (fun f => ~ ends_search id f) l
  | UB => exists x, first_with (ends_search id) l x /\ f_unique_id x = None
  end.

(** Byte positions that are ints, the first not negative. *)
Definition bytes_fit (f : toc_file) : Prop := 0 <= f_start_byte f /\ -2^31 <= f_end_byte f < 2^31 - 1.
Definition last_frame_bytes (f : toc_file) : Z := f_end_byte f - f_start_byte f + 1.

(** Last element with a property. *)
Definition last_with {A} (P : A -> Prop) (l : list A) (x : A) : Prop :=
  exists l1 l2, l = l1 ++ x :: l2 /\ P x /\ Forall (fun y => ~ P y) l2.

(** * Frames of a preview *)
(** The page refers to a definition among [defs], which has [cap] sections. *)
Definition in_layout (defs : list layout_def) (g : page) (cap : Z) : Prop :=
  exists d s, In d defs /\ ld_id d = Some s /\ pg_layout_id g = Some s /\ s <> [] /\ cap = Z.of_nat (List.length (def_sections d)).
(** Frame [n] of the reel carries a section of page [g]: section number q of the page's layout run
    lies q / cap frames after the page's start frame. *)
Definition on_reel_frame (defs : list layout_def) (g : page) (n : Z) : Prop :=
  exists cap q, in_layout defs g cap /\ pg_start_section g <= q < pg_start_section g + pg_section_count g /\
                n = pg_start_frame g + q / cap.
(** A page that begins on its start frame, with numbers that fit an int. *)
Definition placed (defs : list layout_def) (g : page) : Prop :=
  exists cap, in_layout defs g cap /\ 0 <= pg_start_section g < cap /\ cap < 2^31 /\ 0 < pg_section_count g /\
    pg_start_section g + pg_section_count g < 2^31 /\ 0 <= pg_start_frame g /\
    pg_start_frame g + (pg_start_section g + pg_section_count g) < 2^31.
(** [lo, hi] is the least interval holding the frames of the pages. *)
Definition extent (defs : list layout_def) (l : list page) (lo hi : Z) : Prop :=
  (exists g, In g l /\ on_reel_frame defs g lo) /\ (exists g, In g l /\ on_reel_frame defs g hi) /\
  (forall g k, In g l -> on_reel_frame defs g k -> lo <= k <= hi).
