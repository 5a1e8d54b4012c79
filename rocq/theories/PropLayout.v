(** Property theorems: C05, C08, C09, C10, C11. Nothing but statements, witnesses and assumptions. *)
From Verif Require Import CBase TocModel SpecToc RangeProofs ValidProofs PreviewProofs.
From Coq Require Import Sorting.Sorted.

(** C05: merged frame ranges cover exactly the occupied frames, sorted, disjoint, non-adjacent. *)
Theorem C05_frame_ranges l :
  l <> [] -> Forall frames_ok l ->
  exists rs, frame_ranges (Some (Some l)) = Ok (Some rs) /\
    (forall n, Exists (fun r => range_covers r n) rs <-> Exists (fun f => file_occupies f n) l) /\
    Forall (fun r => 0 < rg_count r) rs /\
    StronglySorted (fun a b => rg_start a + rg_count a < rg_start b) rs.
Proof. exact (frame_ranges_spec l). Qed.
Print Assumptions C05_frame_ranges.

Definition ex_file (s e : Z) : toc_file :=
  mkFile (Some [97]) (Some [98]) (Some [99]) 1 1 s 0 e 0 None (-2) 1 None None None.
(** Three files out of order, two of them overlapping, the third adjacent to nothing. *)
Example C05_witness :
  Forall frames_ok [ex_file 10 12; ex_file 1 4; ex_file 3 8] /\
  frame_ranges (Some (Some [ex_file 10 12; ex_file 1 4; ex_file 3 8])) = Ok (Some [mkRange 1 8; mkRange 10 3]).
Proof. split; [repeat constructor; cbn; lia|vm_compute; reflexivity]. Qed.

(** Finding: a file without digital data (frames -1..-1, a valid preview-only file) contributes a
    phantom range at frame 2^32-1, so the claim fails without the hypothesis [frames_ok]. *)
Theorem C05_preview_only_file_refuted :
  exists f, file_is_valid f = true /\ file_is_digital f = false /\ f_start_frame f = -1 /\ f_end_frame f = -1 /\
    frame_ranges (Some (Some [f])) = Ok (Some [mkRange (2^32 - 1) 1]).
Proof.
  exists (mkFile (Some [97]) (Some [98]) (Some [99]) 1 1 (-1) 0 (-1) 0 None (-2) 2
            (Some (mkPreview (Some [mkPage (Some [108]) 3 0 1 0 0 0 0]) (-1))) None None).
  vm_compute. auto.
Qed.
Print Assumptions C05_preview_only_file_refuted.

(** C08: layout of a page's sections over frames. [pos] are the section positions of the page,
    position q lying on frame q / cap. *)
Theorem C08_sections_over_frames defs d p s cap :
  Forall (fun x => ld_id x <> None) defs -> NoDup (map ld_id defs) -> In d defs ->
  ld_id d = Some s -> pg_layout_id p = Some s -> s <> [] ->
  cap = Z.of_nat (List.length (def_sections d)) -> 0 < cap < 2^31 ->
  0 <= pg_start_section p -> 0 < pg_section_count p -> pg_start_section p + pg_section_count p < 2^31 ->
  let pos := positions (pg_start_section p) (Z.to_nat (pg_section_count p)) in
  exists n : nat,
    page_frames_count p (Some (Some defs)) = Ok (true, Z.of_nat n) /\
    (forall f, (exists q, In q pos /\ q / cap = f) -> 0 <= f < Z.of_nat n) /\
    (exists q, In q pos /\ q / cap = Z.of_nat n - 1) /\
    (forall f, 0 <= f < Z.of_nat n ->
       page_sections_on_frame p f (Some (Some defs)) = Ok (Some (on_frame cap f pos)) /\ on_frame cap f pos <= cap) /\
    zsum (map (fun i => on_frame cap (Z.of_nat i) pos) (seq 0 n)) = pg_section_count p /\
    (pg_start_section p < cap -> forall f, 0 <= f < Z.of_nat n -> 0 < on_frame cap f pos).
Proof. exact (page_layout_over_frames defs d p s cap). Qed.
Print Assumptions C08_sections_over_frames.

Definition ex_def : layout_def :=
  mkLayoutDef (Some [49]) (Some [110]) (Some (Some [mkSection 0 0 0 10 10 0; mkSection 1 10 0 10 10 90; mkSection 2 20 0 10 10 0])).
Example C08_witness :
  page_frames_count (mkPage (Some [49]) 5 2 5 0 0 0 0) (Some (Some [ex_def])) = Ok (true, 3) /\
  map (fun f => page_sections_on_frame (mkPage (Some [49]) 5 2 5 0 0 0 0) f (Some (Some [ex_def]))) [0; 1; 2]
    = [Ok (Some 1); Ok (Some 3); Ok (Some 1)].
Proof. vm_compute. auto. Qed.

(** C09: overlap is geometric and symmetric. *)
Theorem C09_overlap_geometric a b :
  fits a -> fits b -> section_ok a -> section_ok b ->
  (section_is_overlap a b = true <-> exists px py, in_rect a px py /\ in_rect b px py).
Proof. exact (overlap_iff a b). Qed.
Print Assumptions C09_overlap_geometric.
Theorem C09_overlap_symmetric a b : section_is_overlap a b = section_is_overlap b a.
Proof. exact (overlap_sym a b). Qed.
Print Assumptions C09_overlap_symmetric.
Example C09_witness :
  let a := mkSection 1 0 0 10 10 0 in let b := mkSection 2 9 9 5 5 90 in let c := mkSection 3 10 0 5 5 0 in
  fits a /\ fits b /\ fits c /\ section_ok a /\ section_ok b /\ section_ok c /\
  section_is_overlap a b = true /\ section_is_overlap a c = false.
Proof. unfold fits, section_ok, is_u32; cbn. repeat split; lia. Qed.
(** Finding: without [fits] the unsigned edge computation wraps. *)
Theorem C09_edge_wrap_refuted :
  exists a, section_ok a /\ is_u32 (s_x a) /\ is_u32 (s_y a) /\ is_u32 (s_width a) /\ is_u32 (s_height a) /\
    (exists px py, in_rect a px py) /\ section_is_overlap a a = false.
Proof. exact overlap_wraps. Qed.
Print Assumptions C09_edge_wrap_refuted.

(** C10: any history of append calls on an empty section list. *)
Theorem C10_section_list_history l :
  Forall fits l ->
  let (v, bs) := append_all None l in accepted [] l bs (vec_list v) /\ good_sections (vec_list v).
Proof. exact (append_history l). Qed.
Print Assumptions C10_section_list_history.
Example C10_witness :
  let a := mkSection 1 0 0 10 10 0 in let b := mkSection 2 9 9 5 5 90 in let c := mkSection 3 10 0 5 5 0 in
  Forall fits [a; b; c; c] /\ append_all None [a; b; c; c] = (Some [a; c], [true; false; true; false]).
Proof. split; [repeat constructor; unfold is_u32; cbn; lia|vm_compute; reflexivity]. Qed.

(** C11: any history of adding layout definitions. *)
Theorem C11_layout_definition_history l :
  Forall layout_fits l ->
  exists v bs, add_all_defs None l = Ok (v, bs) /\ defs_accepted [] l bs (vec_list v) /\
    NoDup (map ld_id (vec_list v)) /\ Forall layout_ok (vec_list v) /\
    (forall id d, id <> [] -> layout_defs_by_id (Some v) (Some id) = Ok (Some d) <->
                  In d (vec_list v) /\ ld_id d = Some id) /\
    (forall id, id <> [] -> layout_defs_by_id (Some v) (Some id) = Ok None <->
                  forall d, In d (vec_list v) -> ld_id d <> Some id).
Proof. exact (defs_history_lookup l). Qed.
Print Assumptions C11_layout_definition_history.
Example C11_witness :
  Forall layout_fits [ex_def; ex_def] /\ layout_ok ex_def /\
  add_all_defs None [ex_def; ex_def] = Ok (Some [ex_def], [true; false]).
Proof.
  split; [repeat constructor; cbn; unfold is_u32; cbn; lia|]. split; [|vm_compute; reflexivity].
  apply layout_valid_iff; [repeat constructor; cbn; unfold is_u32; cbn; lia|reflexivity].
Qed.
