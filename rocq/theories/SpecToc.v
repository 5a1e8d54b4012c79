(** Specifications of the TOC properties, independent of the code's helpers. *)
From Verif Require Import CBase TocModel.

(** * Frame ranges *)
(** The frames a range describes. *)
Definition range_covers (r : range) (n : Z) : Prop := rg_start r <= n < rg_start r + rg_count r.

(** A file occupies the frames from its start frame to its end frame. *)
Definition file_occupies (f : toc_file) (n : Z) : Prop := f_start_frame f <= n <= f_end_frame f.
(** Files with a non-empty frame interval whose length fits in an int. *)
Definition frames_ok (f : toc_file) : Prop :=
  0 <= f_start_frame f <= f_end_frame f /\ f_end_frame f < 2^31 - 1.

(** * Sections over frames *)
(** Section positions [ss, ss+sc) of a page; position p lies on frame p / cap (relative to the
    frame of position 0). *)
Definition positions (ss : Z) (n : nat) : list Z := map (fun i => ss + Z.of_nat i) (seq 0 n).
Definition on_frame (cap f : Z) (l : list Z) : Z :=
  Z.of_nat (List.length (filter (fun p => p / cap =? f) l)).

Definition zsum (l : list Z) : Z := fold_right Z.add 0 l.

(** * Section geometry *)
(** The pixels of a section. *)
Definition in_rect (s : section) (px py : Z) : Prop :=
  s_x s <= px < s_x s + s_width s /\ s_y s <= py < s_y s + s_height s.
(** A section whose fields are unsigned ints and whose right and lower edges fit in 32 bits. *)
Definition fits (s : section) : Prop :=
  is_u32 (s_id s) /\ is_u32 (s_x s) /\ is_u32 (s_y s) /\ is_u32 (s_width s) /\ is_u32 (s_height s) /\
  is_u32 (s_rotation s) /\ s_x s + s_width s <= 2^32 /\ s_y s + s_height s <= 2^32.
Definition disjoint (a b : section) : Prop := forall px py, ~ (in_rect a px py /\ in_rect b px py).

(** * What a valid object is *)
Definition nonempty (s : option cstr) : Prop := exists c t, s = Some (c :: t).
Definition section_ok (s : section) : Prop :=
  In (s_rotation s) [0; 90; 180; 270] /\ s_width s <> 0 /\ s_height s <> 0.
(** A list of sections: at least one, each valid, no two sharing a pixel. *)
Definition sections_ok (l : list section) : Prop :=
  l <> [] /\ Forall section_ok l /\ ForallOrdPairs disjoint l.
Definition def_sections (d : layout_def) : list section :=
  match ld_sections d with Some (Some l) => l | _ => [] end.
Definition layout_ok (d : layout_def) : Prop :=
  nonempty (ld_id d) /\ nonempty (ld_name d) /\ sections_ok (def_sections d).
Definition layout_fits (d : layout_def) : Prop := Forall fits (def_sections d).
Definition page_ok (p : page) : Prop :=
  nonempty (pg_layout_id p) /\ pg_section_count p <> 0 /\
  pg_overlap_x p <= pg_dimension_x p /\ pg_overlap_y p <= pg_dimension_y p.
Definition pages_of (p : preview) : list page := match pv_pages p with Some l => l | None => [] end.
Definition preview_ok (p : preview) : Prop := pages_of p <> [] /\ Forall page_ok (pages_of p).
Definition fsource_ok (s : fsource) : Prop := nonempty (fs_data s) \/ fs_file_id s <> -1.
Definition digital (f : toc_file) : Prop := Z.testbit (f_types f) 0 = true.
Definition previewed (f : toc_file) : Prop := Z.testbit (f_types f) 1 = true.
Definition fsources_of (f : toc_file) : list fsource :=
  match f_metadata f with Some (Some l) => l | _ => [] end.
Definition file_ok (f : toc_file) : Prop :=
  -2 <= f_id f /\ nonempty (f_name f) /\ nonempty (f_date f) /\
  (digital f -> 0 <= f_start_frame f <= f_end_frame f /\ 0 <= f_start_byte f /\ f_checksum f <> None /\
                (f_start_frame f = f_end_frame f -> f_start_byte f <= f_end_byte f)) /\
  (previewed f -> exists p, f_preview f = Some p /\ preview_ok p) /\
  Forall fsource_ok (fsources_of f).
Definition msource_ok (s : msource) : Prop :=
  nonempty (ms_format s) /\ (0 <= ms_file_id s \/ (ms_file_id s = -1 /\ nonempty (ms_data s))).
Definition files_of (r : reel) : list toc_file := match r_files r with Some (Some l) => l | _ => [] end.
Definition reel_ok (r : reel) : Prop := nonempty (r_id r) /\ Forall file_ok (files_of r).
Definition reels_of (t : toc_data) : list reel := match t_reels t with Some (Some l) => l | _ => [] end.
Definition msources_of (t : toc_data) : list msource := match t_metadata t with Some (Some l) => l | _ => [] end.
Definition layouts_of (t : toc_data) : list layout_def := match t_layouts t with Some (Some l) => l | _ => [] end.
Definition all_files (t : toc_data) : list toc_file := flat_map files_of (reels_of t).
Definition toc_ok (t : toc_data) : Prop :=
  nonempty (t_version t) /\ nonempty (t_job_id t) /\ nonempty (t_reel_id t) /\
  (t_index_type t = Some (s2z "job") \/ t_index_type t = Some (s2z "reel")) /\
  Forall reel_ok (reels_of t) /\ Forall msource_ok (msources_of t) /\ Forall layout_ok (layouts_of t).

(** * Section lists *)
(** What the list of a section container must satisfy. *)
Definition good_sections (l : list section) : Prop :=
  Forall section_ok l /\ NoDup (map s_id l) /\ ForallOrdPairs disjoint l.
(** When a new section may be accepted. *)
Definition acceptable (l : list section) (s : section) : Prop :=
  section_ok s /\ ~ In (s_id s) (map s_id l) /\ Forall (fun c => disjoint c s) l.

(** A history of append calls, newest state last. *)
Fixpoint append_all (v : sections) (l : list section) : sections * list bool :=
  match l with
  | [] => (v, [])
  | s :: l' => let (v1, b) := sections_append v s in
               let (v2, bs) := append_all v1 l' in (v2, b :: bs)
  end.

(** Independent reference: the list of accepted sections, decided by [acceptable] alone. *)
Inductive accepted : list section -> list section -> list bool -> list section -> Prop :=
| acc_nil cur : accepted cur [] [] cur
| acc_yes cur s l bs fin : acceptable cur s -> accepted (cur ++ [s]) l bs fin -> accepted cur (s :: l) (true :: bs) fin
| acc_no cur s l bs fin : ~ acceptable cur s -> accepted cur l bs fin -> accepted cur (s :: l) (false :: bs) fin.

(** * Layout definition lists *)
Definition good_defs (l : list layout_def) : Prop :=
  Forall layout_ok l /\ NoDup (map ld_id l).

Fixpoint add_all_defs (v : layout_defs) (l : list layout_def) : outcome (layout_defs * list bool) :=
  match l with
  | [] => Ok (v, [])
  | d :: l' => obind (layout_defs_add v d) (fun p =>
               obind (add_all_defs (fst p) l') (fun q => Ok (fst q, snd p :: snd q)))
  end.

Inductive defs_accepted : list layout_def -> list layout_def -> list bool -> list layout_def -> Prop :=
| dacc_nil cur : defs_accepted cur [] [] cur
| dacc_yes cur d l bs fin :
    layout_ok d -> ~ In (ld_id d) (map ld_id cur) ->
    defs_accepted (cur ++ [d]) l bs fin -> defs_accepted cur (d :: l) (true :: bs) fin
| dacc_no cur d l bs fin :
    ~ layout_ok d \/ In (ld_id d) (map ld_id cur) ->
    defs_accepted cur l bs fin -> defs_accepted cur (d :: l) (false :: bs) fin.


(** * What equality means: every field agrees, a NULL string counting as the empty one *)
Definition nstr (s : option cstr) : option cstr := Some (match s with Some x => x | None => [] end).
Definition norm_def (d : layout_def) : layout_def := mkLayoutDef (nstr (ld_id d)) (nstr (ld_name d)) (ld_sections d).
Definition norm_page (p : page) : page :=
  mkPage (nstr (pg_layout_id p)) (pg_start_frame p) (pg_start_section p) (pg_section_count p)
         (pg_dimension_x p) (pg_dimension_y p) (pg_overlap_x p) (pg_overlap_y p).
Definition norm_preview (p : preview) : preview := mkPreview (option_map (map norm_page) (pv_pages p)) (pv_dpi p).
Definition norm_fsource (s : fsource) : fsource :=
  mkFsource (nstr (fs_data s)) (nstr (fs_format_id s)) (fs_file_id s) (fs_source_id s).
Definition norm_msource (s : msource) : msource :=
  mkMsource (nstr (ms_format s)) (ms_id s) (ms_file_id s) (nstr (ms_data s)) (ms_tags s).
Definition norm_file (f : toc_file) : toc_file :=
  mkFile (nstr (f_name f)) (nstr (f_date f)) (nstr (f_checksum f)) (f_size f) (f_id f) (f_start_frame f)
         (f_start_byte f) (f_end_frame f) (f_end_byte f) (nstr (f_unique_id f)) (f_parent_id f) (f_types f)
         (option_map norm_preview (f_preview f)) (nstr (f_file_format f))
         (option_map (option_map (map norm_fsource)) (f_metadata f)).
Definition norm_reel (r : reel) : reel :=
  mkReel (nstr (r_id r)) (option_map (option_map (map norm_file)) (r_files r)).
(** In a table of contents an absent container counts as an empty one. *)
Definition norm_toc (t : toc_data) : toc_data :=
  mkToc (nstr (t_version t)) (nstr (t_index_type t)) (nstr (t_job_id t)) (nstr (t_reel_id t))
        (Some (Some (map norm_reel (reels_of t)))) (Some (Some (map norm_msource (msources_of t))))
        (Some (Some (map norm_def (layouts_of t)))).

(** * Queries on a table of contents *)
(** A file that is not a parent and whose preview's first page refers to layout [id]. *)
Definition file_uses_layout (f : toc_file) (id : cstr) : Prop :=
  previewed f /\ f_parent_id f <> -1 /\
  exists pv g rest, f_preview f = Some pv /\ pv_pages pv = Some (g :: rest) /\ pg_layout_id g = Some id.
Definition toc_uses_layout (t : toc_data) (id : cstr) : Prop :=
  exists r f, In r (reels_of t) /\ In f (files_of r) /\ file_uses_layout f id.
Definition id_before (a b : layout_def) : Prop :=
  match ld_id a, ld_id b with Some x, Some y => strcmp x y < 0 | _, _ => False end.

(** The kinds of file a section mask selects. *)
Definition kind_selected (mask : Z) (f : toc_file) : Prop :=
  (Z.testbit mask 0 = true /\ digital f) \/ (Z.testbit mask 1 = true /\ previewed f).

(** First element with a property. *)
Definition first_with {A} (P : A -> Prop) (l : list A) (x : A) : Prop :=
  exists l1 l2, l = l1 ++ x :: l2 /\ P x /\ Forall (fun y => ~ P y) l1.

(** Result of a history of calls that add to an initially empty container, given which arguments
    are acceptable. *)
Inductive only_accepted {A} (P : A -> Prop) : list A -> list bool -> list A -> Prop :=
| oa_nil : only_accepted P [] [] []
| oa_yes x l bs fin : P x -> only_accepted P l bs fin -> only_accepted P (x :: l) (true :: bs) (x :: fin)
| oa_no x l bs fin : ~ P x -> only_accepted P l bs fin -> only_accepted P (x :: l) (false :: bs) fin.
Fixpoint run {S A} (add : S -> A -> S * bool) (s : S) (l : list A) : S * list bool :=
  match l with
  | [] => (s, [])
  | x :: l' => let (s1, b) := add s x in let (s2, bs) := run add s1 l' in (s2, b :: bs)
  end.

(** * Frame offsets *)
Definition shifted (moved : bool) (offset before after : Z) : Prop :=
  after = if moved && (0 <=? before) then before + offset else before.
Definition page_shifted (moved : bool) (offset : Z) (a b : page) : Prop :=
  pg_start_frame b = (if moved then pg_start_frame a + offset else pg_start_frame a) /\
  pg_layout_id b = pg_layout_id a /\ pg_start_section b = pg_start_section a /\
  pg_section_count b = pg_section_count a /\ pg_dimension_x b = pg_dimension_x a /\
  pg_dimension_y b = pg_dimension_y a /\ pg_overlap_x b = pg_overlap_x a /\ pg_overlap_y b = pg_overlap_y a.
Definition preview_shifted (moved : bool) (offset : Z) (a b : option preview) : Prop :=
  match a, b with
  | None, None => True
  | Some p, Some q =>
      pv_dpi q = pv_dpi p /\
      match pv_pages p, pv_pages q with
      | None, None => True
      | Some l, Some m => Forall2 (page_shifted moved offset) l m
      | _, _ => False
      end
  | _, _ => False
  end.
(** [b] is [a] with the selected frame positions moved and everything else as it was. *)
Definition file_shifted (mask offset : Z) (a b : toc_file) : Prop :=
  shifted (Z.testbit mask 0) offset (f_start_frame a) (f_start_frame b) /\
  shifted (Z.testbit mask 0) offset (f_end_frame a) (f_end_frame b) /\
  preview_shifted (Z.testbit mask 1) offset (f_preview a) (f_preview b) /\
  f_name b = f_name a /\ f_date b = f_date a /\ f_checksum b = f_checksum a /\ f_size b = f_size a /\
  f_id b = f_id a /\ f_start_byte b = f_start_byte a /\ f_end_byte b = f_end_byte a /\
  f_unique_id b = f_unique_id a /\ f_parent_id b = f_parent_id a /\ f_types b = f_types a /\
  f_file_format b = f_file_format a /\ f_metadata b = f_metadata a.
(** The offset does not overflow on any frame number of the file. *)
Definition offset_fits (offset : Z) (f : toc_file) : Prop :=
  is_i32 (f_start_frame f) /\ is_i32 (f_end_frame f) /\
  f_start_frame f + offset < 2^31 /\ f_end_frame f + offset < 2^31 /\
  forall pv, f_preview f = Some pv -> Forall (fun g => 0 <= pg_start_frame g /\ pg_start_frame g + offset < 2^32) (pages_of pv).
Definition reel_shifted (mask offset : Z) (a b : reel) : Prop :=
  r_id b = r_id a /\ Forall2 (file_shifted mask offset) (files_of a) (files_of b) /\
  (r_files a = None <-> r_files b = None).
Definition toc_shifted (mask offset : Z) (a b : toc_data) : Prop :=
  t_version b = t_version a /\ t_index_type b = t_index_type a /\ t_job_id b = t_job_id a /\
  t_reel_id b = t_reel_id a /\ t_metadata b = t_metadata a /\ t_layouts b = t_layouts a /\
  Forall2 (reel_shifted mask offset) (reels_of a) (reels_of b).

(** * First and last frame *)
(** The files of a list are stored in frame order: starts and ends never go back. *)
Definition in_frame_order (l : list toc_file) : Prop :=
  ForallOrdPairs (fun a b => f_start_frame a <= f_start_frame b /\ f_end_frame a <= f_end_frame b) l.
Definition preview_first (f : toc_file) : Z :=
  match f_preview f with
  | Some p => match pages_of p with g :: _ => pg_start_frame g | [] => -1 end
  | None => -1
  end.
(** Bytes of a file that lies on one frame. *)
Definition one_frame (f : toc_file) : Prop :=
  f_start_frame f = f_end_frame f /\ 0 <= f_start_byte f <= f_end_byte f /\ f_end_byte f < 2^31 - 1 /\
  f_size f = f_end_byte f - f_start_byte f + 1.
