(** Property theorems: C06, C07, C12, C24 - C30. *)
From Verif Require Import CBase TocModel BoxModel SpecToc ValidProofs BoxProofs EqualProofs TocProofs TocProofs2 TocProofs3.
From Coq Require Import Sorting.Sorted Sorting.Permutation.

(** C06: the number of data frames is the least n with n * capacity >= size.
    Missing: sizes of 4 GiB and more, for which the claim is false (next theorem). *)
Theorem C06_data_frames_partial size cap :
  0 <= size < 2^32 -> 0 < cap < 2^32 ->
  let n := get_data_frames cap size in
  0 <= n /\ size <= n * cap /\ forall m, 0 <= m -> size <= m * cap -> n <= m.
Proof. exact (get_ceil_spec size cap). Qed.
Print Assumptions C06_data_frames_partial.
Theorem C06_zero_capacity size : get_data_frames 0 size = 0.
Proof. reflexivity. Qed.
Print Assumptions C06_zero_capacity.
Example C06_witness : get_data_frames 100 250 = 3 /\ get_data_frames 100 300 = 3 /\ get_data_frames 100 0 = 0.
Proof. vm_compute. auto. Qed.
(** Finding: for every size of 4 GiB or more the reported frames cannot hold the file. *)
Theorem C06_large_files_refuted size cap :
  2^32 <= size < 2^64 -> 0 < cap < 2^32 -> get_data_frames cap size * cap < size.
Proof. exact (get_ceil_wrong size cap). Qed.
Print Assumptions C06_large_files_refuted.

(** C07: bits per pixel is the least b with 2^b >= levels; symbols per pixel is 2^b, except that a
    single level gives 0 symbols. *)
Theorem C07_colour_depth levels :
  1 <= levels < 2^31 ->
  exists b, bits_per_pixel 31 levels = Some b /\ 0 <= b <= 31 /\ levels <= 2 ^ b /\
    (forall c, 0 <= c -> levels <= 2 ^ c -> b <= c) /\
    (2 <= levels -> symbol_per_pixel b = 2 ^ b) /\ (levels = 1 -> symbol_per_pixel b = 0).
Proof. exact (bits_per_pixel_spec levels). Qed.
Print Assumptions C07_colour_depth.
Example C07_witness : bits_per_pixel 31 4 = Some 2 /\ bits_per_pixel 31 5 = Some 3 /\ symbol_per_pixel 3 = 8.
Proof. vm_compute. auto. Qed.
(** Finding: a frame reporting no levels makes the loop run for ever. *)
Theorem C07_no_levels_diverges_refuted fuel levels : levels <= 0 -> bits_per_pixel fuel levels = None.
Proof. intro H. apply depth_loop_diverges. lia. Qed.
Print Assumptions C07_no_levels_diverges_refuted.

(** C12: used layout definitions. *)
Theorem C12_used_layouts t :
  layouts_of t <> [] -> reels_of t <> [] -> small (layouts_of t) -> small (reels_of t) ->
  good_defs (layouts_of t) -> Forall layout_fits (layouts_of t) ->
  exists v, toc_used_layouts t = Ok (Some v) /\
    StronglySorted id_before (vec_list v) /\ NoDup (vec_list v) /\
    (forall d, In d (vec_list v) <-> In d (layouts_of t) /\ exists id, ld_id d = Some id /\ toc_uses_layout t id).
Proof. exact (used_layouts_spec t). Qed.
Print Assumptions C12_used_layouts.
Definition ex_layout (i : Z) : layout_def := mkLayoutDef (Some [i]) (Some [110]) (Some (Some [mkSection 0 0 0 1 1 0])).
Definition ex_pfile (i parent : Z) : toc_file :=
  mkFile (Some [97]) (Some [98]) (Some [99]) 1 1 0 0 0 0 None parent 2
    (Some (mkPreview (Some [mkPage (Some [i]) 3 0 1 0 0 0 0]) (-1))) None None.
Definition ex_toc : toc_data :=
  mkToc (Some [49]) (Some (s2z "job")) (Some [49]) (Some [49])
    (Some (Some [mkReel (Some [49]) (Some (Some [ex_pfile 53 (-2); ex_pfile 51 (-1); ex_pfile 52 7; ex_pfile 53 (-2)]))]))
    None (Some (Some [ex_layout 53; ex_layout 51; ex_layout 52; ex_layout 50])).
(** Layouts 5 and 4 are used, 3 only by a parent file, 2 not at all. *)
Example C12_witness : toc_used_layouts ex_toc = Ok (Some (Some [ex_layout 52; ex_layout 53])).
Proof. vm_compute. reflexivity. Qed.
Example C12_hypotheses : good_defs (layouts_of ex_toc) /\ Forall layout_fits (layouts_of ex_toc).
Proof.
  assert (F : Forall layout_fits (layouts_of ex_toc)).
  { repeat constructor; cbn; lia. }
  split; [|exact F]. split.
  - cbn. repeat (apply Forall_cons; [apply layout_valid_iff; [repeat constructor; cbn; lia|reflexivity]|]). constructor.
  - cbn. repeat constructor; cbn; intuition discriminate.
Qed.

(** C24: clones compare equal; equality is an equivalence; it compares every field. *)
Theorem C24_clone_equal :
  (forall x, section_equal (section_clone x) x = true) /\ (forall x, sections_equal (sections_clone x) x = true) /\
  (forall x, layout_def_equal (layout_def_clone x) x = true) /\ (forall x, layout_defs_equal (layout_defs_clone x) x = true) /\
  (forall x, page_equal (page_clone x) x = true) /\ (forall x, preview_equal (preview_clone x) x = true) /\
  (forall x, fsource_equal (fsource_clone x) x = true) /\ (forall x, fmetadata_equal (fmetadata_clone x) x = true) /\
  (forall x, msource_equal (msource_clone x) x = true) /\ (forall x, metadata_equal (metadata_clone x) x = true) /\
  (forall x, file_equal (file_clone x) x = true) /\ (forall x, files_equal (files_clone x) x = true) /\
  (forall x, reel_equal (reel_clone x) x = true) /\ (forall x, reels_equal (reels_clone x) x = true) /\
  (forall x, toc_equal (toc_clone x) x = true).
Proof. exact clones_equal. Qed.
Print Assumptions C24_clone_equal.
Theorem C24_equality_equivalence :
  equivalence section_equal /\ equivalence sections_equal /\ equivalence layout_def_equal /\ equivalence layout_defs_equal /\
  equivalence page_equal /\ equivalence preview_equal /\ equivalence fsource_equal /\ equivalence fmetadata_equal /\
  equivalence msource_equal /\ equivalence metadata_equal /\ equivalence file_equal /\ equivalence files_equal /\
  equivalence reel_equal /\ equivalence reels_equal /\ equivalence toc_equal.
Proof. exact equals_equivalences. Qed.
Print Assumptions C24_equality_equivalence.
Theorem C24_equality_compares_every_field :
  (forall a b, section_equal a b = true <-> a = b) /\
  (forall a b, layout_def_equal a b = true <-> norm_def a = norm_def b) /\
  (forall a b, page_equal a b = true <-> norm_page a = norm_page b) /\
  (forall a b, preview_equal a b = true <-> norm_preview a = norm_preview b) /\
  (forall a b, fsource_equal a b = true <-> norm_fsource a = norm_fsource b) /\
  (forall a b, msource_equal a b = true <-> norm_msource a = norm_msource b) /\
  (forall a b, file_equal a b = true <-> norm_file a = norm_file b) /\
  (forall a b, files_equal a b = true <-> option_map (map norm_file) a = option_map (map norm_file) b) /\
  (forall a b, reel_equal a b = true <-> norm_reel a = norm_reel b) /\
  (forall a b, toc_sizes a -> toc_sizes b -> toc_equal a b = true <-> norm_toc a = norm_toc b).
Proof. exact equal_means_same_fields. Qed.
Print Assumptions C24_equality_compares_every_field.
Example C24_witness : toc_equal (toc_clone ex_toc) ex_toc = true /\ toc_sizes ex_toc.
Proof. split; [vm_compute; reflexivity|]. unfold toc_sizes, small; cbn. lia. Qed.

(** C25: the validity checks decide the documented validity, and histories of add calls store
    exactly the valid arguments. *)
Theorem C25_validity_decided :
  (forall f, file_small f -> file_is_valid f = true <-> file_ok f) /\
  (forall r, reel_small r -> reel_is_valid r = true <-> reel_ok r) /\
  (forall t, toc_small t -> toc_is_valid t = true <-> toc_ok t) /\
  (forall s, msource_is_valid s = true <-> msource_ok s) /\
  (forall s, fsource_is_valid s = true <-> fsource_ok s) /\
  (forall p, page_is_valid p = true <-> page_ok p).
Proof.
  exact (conj file_valid_iff (conj reel_valid_iff (conj toc_valid_iff (conj msource_valid_iff (conj fsource_valid_iff page_valid_iff))))).
Qed.
Print Assumptions C25_validity_decided.
Theorem C25_files_history l : Forall file_small l ->
  let r := run files_add_toc None l in
  only_accepted file_ok l (snd r) (vec_list (fst r)) /\ Forall file_ok (vec_list (fst r)).
Proof. exact (files_history l). Qed.
Print Assumptions C25_files_history.
Theorem C25_reel_files_history id l : Forall file_small l ->
  let r := run reel_add_file (mkReel id None) l in
  only_accepted file_ok l (snd r) (files_of (fst r)) /\ Forall file_ok (files_of (fst r)).
Proof. exact (reel_files_history id l). Qed.
Print Assumptions C25_reel_files_history.
Theorem C25_reels_history l : Forall reel_small l ->
  let r := run reels_add_reel None l in
  only_accepted reel_ok l (snd r) (vec_list (fst r)) /\ Forall reel_ok (vec_list (fst r)).
Proof. exact (reels_history l). Qed.
Print Assumptions C25_reels_history.
Theorem C25_metadata_history l :
  let r := run metadata_add_source None l in
  only_accepted msource_ok l (snd r) (vec_list (fst r)) /\ Forall msource_ok (vec_list (fst r)).
Proof. exact (metadata_history l). Qed.
Print Assumptions C25_metadata_history.
Theorem C25_file_metadata_history l :
  let r := run fmetadata_add_source None l in
  only_accepted fsource_ok l (snd r) (vec_list (fst r)) /\ Forall fsource_ok (vec_list (fst r)).
Proof. exact (fmetadata_history l). Qed.
Print Assumptions C25_file_metadata_history.
Theorem C25_pages_history dpi l :
  let r := run preview_add_page (mkPreview None dpi) l in
  only_accepted page_ok l (snd r) (pages_of (fst r)) /\ Forall page_ok (pages_of (fst r)) /\ pv_dpi (fst r) = dpi.
Proof. exact (pages_history dpi l). Qed.
Print Assumptions C25_pages_history.
Definition ex_dfile (s e sb eb : Z) : toc_file :=
  mkFile (Some [97]) (Some [98]) (Some [99]) (eb - sb + 1) 1 s sb e eb None (-2) 1 None None None.
Example C25_witness :
  Forall file_small [ex_dfile 1 2 0 9; ex_dfile 3 2 0 9; ex_pfile 53 (-2)] /\
  run files_add_toc None [ex_dfile 1 2 0 9; ex_dfile 3 2 0 9; ex_pfile 53 (-2)]
   = (Some [ex_dfile 1 2 0 9; ex_pfile 53 (-2)], [true; false; true]).
Proof. split; [repeat constructor|vm_compute; reflexivity]. Qed.

(** C26: frame offsets. *)
Theorem C26_toc_offset mask offset t :
  0 <= offset -> Forall (fun r => Forall (offset_fits offset) (files_of r)) (reels_of t) ->
  toc_shifted mask offset t (toc_add_frame_offset t offset mask).
Proof. exact (toc_offset_shifted mask offset t). Qed.
Print Assumptions C26_toc_offset.
Theorem C26_reel_offset mask offset r :
  0 <= offset -> Forall (offset_fits offset) (files_of r) ->
  reel_shifted mask offset r (reel_add_frame_offset r offset mask).
Proof. exact (reel_offset_shifted mask offset r). Qed.
Print Assumptions C26_reel_offset.
Theorem C26_files_offset mask offset v :
  0 <= offset -> Forall (offset_fits offset) (vec_list v) ->
  Forall2 (file_shifted mask offset) (vec_list v) (vec_list (files_add_frame_offset v offset mask)).
Proof. exact (files_offset_shifted mask offset v). Qed.
Print Assumptions C26_files_offset.
Theorem C26_shift_keeps_validity mask offset a b :
  0 <= offset -> file_shifted mask offset a b -> file_ok a -> file_ok b.
Proof. exact (file_shifted_ok mask offset a b). Qed.
Print Assumptions C26_shift_keeps_validity.
Theorem C26_shift_keeps_duration mask offset a b :
  file_shifted mask offset a b -> 0 <= f_start_frame a -> 0 <= f_end_frame a ->
  f_end_frame b - f_start_frame b = f_end_frame a - f_start_frame a.
Proof. exact (file_shifted_duration mask offset a b). Qed.
Print Assumptions C26_shift_keeps_duration.
Theorem C26_offsets_add_up mask o1 o2 f :
  0 <= o1 -> 0 <= o2 -> offset_fits (o1 + o2) f ->
  file_offset_step o2 mask (file_offset_step o1 mask f) = file_offset_step (o1 + o2) mask f.
Proof. exact (file_offset_twice mask o1 o2 f). Qed.
Print Assumptions C26_offsets_add_up.
Theorem C26_single_file_offset offset f :
  0 <= offset -> is_i32 (f_start_frame f) -> is_i32 (f_end_frame f) ->
  f_start_frame f + offset < 2^31 -> f_end_frame f + offset < 2^31 ->
  let moved := (0 <=? f_start_frame f) && (0 <=? f_end_frame f) in
  file_add_frame_offset offset f =
    file_set_frames f (if moved then f_start_frame f + offset else f_start_frame f)
                      (if moved then f_end_frame f + offset else f_end_frame f).
Proof. exact (single_file_offset offset f). Qed.
Print Assumptions C26_single_file_offset.
Example C26_witness :
  offset_fits 10 (ex_pfile 53 (-2)) /\
  file_offset_step 10 3 (ex_pfile 53 (-2)) =
    mkFile (Some [97]) (Some [98]) (Some [99]) 1 1 10 0 10 0 None (-2) 2
      (Some (mkPreview (Some [mkPage (Some [53]) 13 0 1 0 0 0 0]) (-1))) None None.
Proof.
  split; [|vm_compute; reflexivity]. unfold offset_fits, is_i32; cbn. repeat split; try lia.
  intros pv [= <-]. repeat constructor; cbn; lia.
Qed.

(** C27: bounds of the digital files, for lists stored in frame order.
    Missing: lists in another order, for which the claim is false (next theorem); previews have only
    the lower bound. *)
Theorem C27_first_last_partial l defs :
  Exists digital l -> in_frame_order (filter file_is_digital l) ->
  let first := files_first_frame (Some (Some l)) TYPE_DIGITAL in
  exists last, files_last_frame (Some (Some l)) TYPE_DIGITAL defs = Ok last /\
    (exists f, In f l /\ digital f /\ f_start_frame f = first) /\
    (exists f, In f l /\ digital f /\ f_end_frame f = last) /\
    (forall f, In f l -> digital f -> first <= f_start_frame f /\ f_end_frame f <= last) /\
    (0 <= first <= last -> last - first + 1 < 2^31 ->
       files_duration_frames (Some (Some l)) TYPE_DIGITAL defs = Ok (last - first + 1)).
Proof. exact (digital_bounds l defs). Qed.
Print Assumptions C27_first_last_partial.
Theorem C27_preview_first_partial l :
  Exists previewed l ->
  ForallOrdPairs (fun a b => preview_first a <= preview_first b) (filter file_is_preview l) ->
  Forall (fun f => preview_first f < 2^31 /\ -1 <= preview_first f) l ->
  let first := files_first_frame (Some (Some l)) TYPE_PREVIEW in
  (exists f, In f l /\ previewed f /\ preview_first f = first) /\
  (forall f, In f l -> previewed f -> first <= preview_first f).
Proof. exact (preview_first_bounds l). Qed.
Print Assumptions C27_preview_first_partial.
Example C27_witness :
  in_frame_order (filter file_is_digital [ex_dfile 1 2 0 9; ex_dfile 2 8 0 9]) /\
  files_duration_frames (Some (Some [ex_dfile 1 2 0 9; ex_dfile 2 8 0 9])) TYPE_DIGITAL None = Ok 8.
Proof. split; [repeat constructor; cbn; lia|vm_compute; reflexivity]. Qed.
(** Finding: with files out of order the reported bounds leave files out. *)
Theorem C27_unordered_refuted :
  exists l f, Forall file_ok l /\ In f l /\ digital f /\
    f_start_frame f < files_first_frame (Some (Some l)) TYPE_DIGITAL /\
    files_last_frame (Some (Some l)) TYPE_DIGITAL None = Ok (f_end_frame f) /\
    exists g, In g l /\ digital g /\ f_end_frame f < f_end_frame g.
Proof.
  exists [ex_dfile 5 9 0 9; ex_dfile 1 2 0 9], (ex_dfile 1 2 0 9).
  split. { repeat (apply Forall_cons; [apply file_valid_iff; [reflexivity|reflexivity]|]). constructor. }
  split; [cbn; auto|]. split; [reflexivity|]. split; [vm_compute; reflexivity|]. split; [vm_compute; reflexivity|].
  exists (ex_dfile 5 9 0 9). split; [cbn; auto|]. split; [reflexivity|vm_compute; reflexivity].
Qed.
Print Assumptions C27_unordered_refuted.
(** Finding: the reel queries pass no layout definitions, so the preview section of every reel is
    reported to have no frames. *)
Theorem C27_reel_preview_refuted :
  exists r f, In f (files_of r) /\ file_ok f /\ previewed f /\ reel_first_frame r 2 = preview_first f /\
    reel_last_frame r 2 = Ok (-1) /\ reel_frame_count r 2 = Ok 0.
Proof.
  exists (mkReel (Some [49]) (Some (Some [ex_pfile 53 (-2)]))), (ex_pfile 53 (-2)).
  split; [cbn; auto|]. split; [apply file_valid_iff; reflexivity|]. split; [reflexivity|]. vm_compute. auto.
Qed.
Print Assumptions C27_reel_preview_refuted.

(** C28: classification. *)
Theorem C28_classification f :
  (file_is_parent f = true /\ file_has_parent f = false /\ file_is_standalone f = false /\ f_parent_id f = -1) \/
  (file_is_parent f = false /\ file_has_parent f = true /\ file_is_standalone f = false /\ f_parent_id f <> -1 /\ f_parent_id f <> -2) \/
  (file_is_parent f = false /\ file_has_parent f = false /\ file_is_standalone f = true /\ f_parent_id f = -2).
Proof. exact (classification f). Qed.
Print Assumptions C28_classification.
Theorem C28_reel_queries r mask :
  Forall file_small (files_of r) -> Forall file_ok (files_of r) ->
  let parents := selected (reel_parent_files r mask) in
  let children := selected (reel_child_files r mask) in
  let alone := selected (reel_standalone_files r mask) in
  exists hits, Permutation (parents ++ children) hits /\
    (exists p, (forall f, In f (files_of r) -> p f = true <-> kind_selected mask f) /\ hits = filter p (files_of r)) /\
    (forall f, In f parents <-> In f (files_of r) /\ kind_selected mask f /\ f_parent_id f = -1) /\
    (forall f, In f children <-> In f (files_of r) /\ kind_selected mask f /\ f_parent_id f <> -1) /\
    (forall f, In f alone <-> In f (files_of r) /\ kind_selected mask f /\ f_parent_id f = -2).
Proof. exact (reel_queries_partition r mask). Qed.
Print Assumptions C28_reel_queries.
Example C28_witness :
  let r := mkReel (Some [49]) (Some (Some [ex_pfile 53 (-2); ex_pfile 51 (-1); ex_pfile 52 7; ex_dfile 1 2 0 9])) in
  Forall file_small (files_of r) /\ Forall file_ok (files_of r) /\
  reel_parent_files r 2 = Some (Some [ex_pfile 51 (-1)]) /\
  reel_child_files r 2 = Some (Some [ex_pfile 53 (-2); ex_pfile 52 7]) /\
  reel_standalone_files r 3 = Some (Some [ex_pfile 53 (-2); ex_dfile 1 2 0 9]).
Proof.
  split; [repeat constructor|]. split.
  { repeat (apply Forall_cons; [apply file_valid_iff; [reflexivity|reflexivity]|]). constructor. }
  vm_compute. auto.
Qed.

(** C29: look-ups. *)
Theorem C29_file_by_id t id :
  exists o, toc_file_by_id t id = Ok o /\
    match o with Some x => first_with (fun f => f_id f = id) (all_files t) x | None => Forall (fun f => f_id f <> id) (all_files t) end.
Proof. exact (file_by_id_spec t id). Qed.
Print Assumptions C29_file_by_id.
(** Missing: tables in which some file has no unique id, where the call crashes (next theorem). *)
Theorem C29_file_by_unique_id_partial t id :
  id <> [] -> Forall (fun f => f_unique_id f <> None) (all_files t) ->
  exists o, toc_file_by_unique_id t (Some id) = Ok o /\
    match o with Some x => first_with (fun f => f_unique_id f = Some id) (all_files t) x
               | None => Forall (fun f => f_unique_id f <> Some id) (all_files t) end.
Proof. exact (file_by_unique_id_spec t id). Qed.
Print Assumptions C29_file_by_unique_id_partial.
Theorem C29_null_unique_id_refuted :
  exists t id, Forall file_ok (all_files t) /\ id <> [] /\ toc_file_by_unique_id t (Some id) = UB.
Proof.
  exists ex_toc, [49]. split; [|split; [discriminate|vm_compute; reflexivity]].
  cbn. repeat (apply Forall_cons; [apply file_valid_iff; [reflexivity|reflexivity]|]). constructor.
Qed.
Print Assumptions C29_null_unique_id_refuted.
Theorem C29_reel_by_id t id :
  match toc_reel_by_id t id with
  | Some r => first_with (fun r => nstr (r_id r) = nstr id) (reels_of t) r
  | None => Forall (fun r => nstr (r_id r) <> nstr id) (reels_of t)
  end.
Proof. exact (reel_by_id_spec t id). Qed.
Print Assumptions C29_reel_by_id.
Example C29_witness : toc_file_by_id ex_toc 1 = Ok (Some (ex_pfile 53 (-2))) /\ toc_file_by_id ex_toc 2 = Ok None.
Proof. vm_compute. auto. Qed.

(** C30: reel size. Missing: files that span frames, where the claim is false (next theorem). *)
Theorem C30_reel_size_partial r :
  Forall one_frame (files_of r) -> zsum (map f_size (files_of r)) < 2^63 ->
  reel_size_bytes r = Ok (zsum (map f_size (files_of r))).
Proof. exact (reel_size_one_frame r). Qed.
Print Assumptions C30_reel_size_partial.
Example C30_witness :
  let r := mkReel (Some [49]) (Some (Some [ex_dfile 1 1 5 9; ex_dfile 1 1 10 12])) in
  Forall one_frame (files_of r) /\ reel_size_bytes r = Ok 8.
Proof. split; [repeat constructor; cbn; lia|vm_compute; reflexivity]. Qed.
Theorem C30_spanning_files_refuted :
  exists r f, files_of r = [f] /\ file_ok f /\ f_size f = 1000 /\ f_start_frame f < f_end_frame f /\
    reel_size_bytes r = Ok 0.
Proof.
  set (f := mkFile (Some [97]) (Some [98]) (Some [99]) 1000 1 1 500 2 10 None (-2) 1 None None None).
  exists (mkReel (Some [49]) (Some (Some [f]))), f. split; [reflexivity|].
  split; [apply file_valid_iff; reflexivity|]. vm_compute. auto.
Qed.
Print Assumptions C30_spanning_files_refuted.
