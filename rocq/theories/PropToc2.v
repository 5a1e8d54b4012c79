(** Property theorems: C10 (layout definitions), C27 (reels), C42, C43. *)
From Verif Require Import CBase TocModel SpecToc ValidProofs PreviewProofs TocProofs4.

(** C10: sections added through a layout definition obey the same rules, and the definition's
    identification does not change. *)
Theorem C10_definition_sections_history d l :
  Forall fits l -> Forall fits (def_sections d) -> good_sections (def_sections d) ->
  let r := run layout_def_add_section d l in
  accepted (def_sections d) l (snd r) (def_sections (fst r)) /\ good_sections (def_sections (fst r)) /\
  ld_id (fst r) = ld_id d /\ ld_name (fst r) = ld_name d.
Proof. exact (add_sections_history d l). Qed.
Print Assumptions C10_definition_sections_history.
Example C10_definition_witness :
  let a := mkSection 1 0 0 10 10 0 in let b := mkSection 2 9 9 5 5 90 in let c := mkSection 3 10 0 5 5 0 in
  Forall fits [a; b; c] /\
  run layout_def_add_section (mkLayoutDef (Some [49]) (Some [110]) None) [a; b; c]
    = (mkLayoutDef (Some [49]) (Some [110]) (Some (Some [a; c])), [true; false; true]).
Proof. split; [repeat constructor; cbn; lia|vm_compute; reflexivity]. Qed.

(** C27 for reels, digital files stored in frame order. Missing: other orders (refuted for lists)
    and the preview section (refuted). *)
Theorem C27_reel_frames_partial r :
  Exists digital (files_of r) -> in_frame_order (filter file_is_digital (files_of r)) ->
  exists first last, reel_first_frame r 1 = first /\ reel_last_frame r 1 = Ok last /\
    (exists f, In f (files_of r) /\ digital f /\ f_start_frame f = first) /\
    (exists f, In f (files_of r) /\ digital f /\ f_end_frame f = last) /\
    (forall f, In f (files_of r) -> digital f -> first <= f_start_frame f /\ f_end_frame f <= last) /\
    (0 <= first <= last -> last - first + 1 < 2^31 -> reel_frame_count r 1 = Ok (last - first + 1)).
Proof. exact (reel_frames r). Qed.
Print Assumptions C27_reel_frames_partial.
Theorem C27_reel_without_digital_files r : ~ Exists digital (files_of r) ->
  reel_first_frame r 1 = -1 /\ reel_last_frame r 1 = Ok (-1) /\ reel_frame_count r 1 = Ok 0.
Proof. exact (reel_frames_none r). Qed.
Print Assumptions C27_reel_without_digital_files.
Definition ex_dfile2 (s e : Z) : toc_file :=
  mkFile (Some [97]) (Some [98]) (Some [99]) 10 1 s 0 e 9 None (-2) 1 None None None.
Definition ex_reel2 (a b c d : Z) : reel := mkReel (Some [49]) (Some (Some [ex_dfile2 a b; ex_dfile2 c d])).
Example C27_reel_witness : reel_frame_count (ex_reel2 3 5 5 9) 1 = Ok 7.
Proof. vm_compute. reflexivity. Qed.

(** C42: totals of a table of contents. *)
Theorem C42_file_count t : Z.of_nat (List.length (all_files t)) < 2^32 ->
  toc_file_count t = Z.of_nat (List.length (all_files t)).
Proof. exact (file_count_total t). Qed.
Print Assumptions C42_file_count.
Theorem C42_frame_count t ns :
  Forall2 (fun r n => reel_frame_count r 1 = Ok n /\ 0 <= n) (reels_of t) ns -> zsum ns < 2^32 ->
  toc_frame_count t = Ok (zsum ns).
Proof. exact (frame_count_total t ns). Qed.
Print Assumptions C42_frame_count.
Theorem C42_first_and_last_frame t r rest : reels_of t = r :: rest ->
  toc_first_frame t = reel_first_frame r 1 /\ toc_last_frame t = reel_last_frame (last (r :: rest) r) 1.
Proof. exact (toc_bounds t r rest). Qed.
Print Assumptions C42_first_and_last_frame.
Example C42_witness :
  let t := mkToc (Some [49]) (Some (s2z "job")) (Some [49]) (Some [49])
             (Some (Some [ex_reel2 3 5 5 9; ex_reel2 10 11 12 19])) None None in
  toc_file_count t = 4 /\ toc_frame_count t = Ok 17 /\ toc_first_frame t = 3 /\ toc_last_frame t = Ok 19.
Proof. vm_compute. auto. Qed.

(** C43: access by index returns the element in that place, nothing beyond the end. *)
Theorem C43_section_by_index d i : 0 <= i -> layout_def_get_section d i = nth_error (def_sections d) (Z.to_nat i).
Proof. exact (section_by_index d i). Qed.
Print Assumptions C43_section_by_index.
Theorem C43_file_by_index r i : 0 <= i -> reel_file_by_index r i = nth_error (files_of r) (Z.to_nat i).
Proof. exact (file_by_index r i). Qed.
Print Assumptions C43_file_by_index.
Example C43_witness : reel_file_by_index (ex_reel2 3 5 5 9) 1 = Some (ex_dfile2 5 9) /\ reel_file_by_index (ex_reel2 3 5 5 9) 2 = None.
Proof. vm_compute. auto. Qed.
