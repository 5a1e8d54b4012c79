(** Property theorems: exact results behind C06, C27, C29, C30, and the frames of a preview (C49). *)
From Verif Require Import CBase TocModel BoxModel SpecToc SpecToc2 ValidProofs TocProofs5.

(** C06: what is reported for every size, 4 GiB and more included: whole frames of the size modulo
    2^32, plus one unless the capacity divides the size. *)
Theorem C06_exact size cap :
  0 <= size -> 0 < cap < 2^32 ->
  get_data_frames cap size = (size mod 2^32) / cap + (if size mod cap =? 0 then 0 else 1).
Proof. exact (data_frames_exact size cap). Qed.
Print Assumptions C06_exact.
Example C06_exact_witness : get_data_frames 1000 (2^32 + 2500) = 3 /\ get_data_frames 4096 (2^32 + 8192) = 2.
Proof. vm_compute. auto. Qed.

(** C27, lists in any order: the first frame is the start of the first digital file of the list, the
    last frame the end of the last one, -1 without digital files. *)
Theorem C27_digital_exact l defs :
  (forall f, first_with digital l f -> files_first_frame (Some (Some l)) TYPE_DIGITAL = f_start_frame f) /\
  (forall f, last_with digital l f -> files_last_frame (Some (Some l)) TYPE_DIGITAL defs = Ok (f_end_frame f)) /\
  (~ Exists digital l -> files_first_frame (Some (Some l)) TYPE_DIGITAL = -1 /\
                         files_last_frame (Some (Some l)) TYPE_DIGITAL defs = Ok (-1)).
Proof. exact (conj (digital_first_exact l) (conj (digital_last_exact l defs) (digital_none_exact l defs))). Qed.
Print Assumptions C27_digital_exact.
(** With layout definitions, the last preview frame is the last frame occupied by the last previewed
    file, provided its pages are placed by known layouts and its first page starts lowest. *)
Theorem C27_preview_last_partial defs l f pv :
  Forall (fun x => ld_id x <> None) defs -> NoDup (map ld_id defs) ->
  last_with previewed l f -> f_preview f = Some pv -> pages_of pv <> [] -> Forall (placed defs) (pages_of pv) ->
  exists lo hi, extent defs (pages_of pv) lo hi /\
    (preview_first f = lo -> files_last_frame (Some (Some l)) TYPE_PREVIEW (Some (Some defs)) = Ok hi).
Proof. exact (preview_last_exact defs l f pv). Qed.
Print Assumptions C27_preview_last_partial.
(** Both kinds together: the smaller of the firsts that exist, the greater of the lasts. *)
Theorem C27_both_kinds l :
  files_first_frame (Some (Some l)) TYPE_ALL =
  (let d := files_first_frame (Some (Some l)) TYPE_DIGITAL in let p := files_first_frame (Some (Some l)) TYPE_PREVIEW in
   if d =? -1 then p else if p =? -1 then d else Z.min d p) /\
  forall defs d p, files_last_frame (Some (Some l)) TYPE_DIGITAL None = Ok d -> files_last_frame (Some (Some l)) TYPE_PREVIEW defs = Ok p ->
  files_last_frame (Some (Some l)) TYPE_ALL defs = Ok (Z.max d p).
Proof. exact (conj (both_first l) (both_last l)). Qed.
Print Assumptions C27_both_kinds.
Definition ex_three : layout_def :=
  mkLayoutDef (Some [49]) (Some [110]) (Some (Some [mkSection 0 0 0 10 10 0; mkSection 1 10 0 10 10 90; mkSection 2 20 0 10 10 0])).
Definition ex_two : layout_def :=
  mkLayoutDef (Some [50]) (Some [111]) (Some (Some [mkSection 0 0 0 10 10 0; mkSection 1 10 0 10 10 90])).
Definition ex_pages (k : Z) : preview :=
  mkPreview (Some [mkPage (Some [49]) k 2 5 0 0 0 0; mkPage (Some [50]) (k + 2) 1 4 0 0 0 0]) (-1).
Definition ex_prev (types s e k : Z) : toc_file :=
  mkFile (Some [97]) (Some [98]) (Some [99]) 1000 1 s 500 e 510 None (-2) types (Some (ex_pages k)) None None.
Lemma ex_placed k : 0 <= k < 1000 -> Forall (placed [ex_three; ex_two]) (pages_of (ex_pages k)).
Proof.
  intro H. repeat apply Forall_cons; [| |constructor].
  - exists 3. split; [exists ex_three, [49]; cbn; repeat split; auto; discriminate|cbn; lia].
  - exists 2. split; [exists ex_two, [50]; cbn; repeat split; auto; discriminate|cbn; lia].
Qed.
Example C27_exact_witness :
  let l := [ex_prev 3 7 9 40; ex_prev 1 2 3 0; ex_prev 2 (-1) (-1) 5] in
  first_with digital l (ex_prev 3 7 9 40) /\ last_with digital l (ex_prev 1 2 3 0) /\
  last_with previewed l (ex_prev 2 (-1) (-1) 5) /\ preview_first (ex_prev 2 (-1) (-1) 5) = 5 /\
  files_last_frame (Some (Some l)) TYPE_PREVIEW (Some (Some [ex_three; ex_two])) = Ok 9 /\
  files_first_frame (Some (Some l)) TYPE_ALL = 7 /\
  files_last_frame (Some (Some l)) TYPE_ALL (Some (Some [ex_three; ex_two])) = Ok 9.
Proof.
  cbv zeta. split; [|split; [|split; [|vm_compute; auto]]].
  - exists [], [ex_prev 1 2 3 0; ex_prev 2 (-1) (-1) 5]. split; [reflexivity|]. split; [reflexivity|constructor].
  - exists [ex_prev 3 7 9 40], [ex_prev 2 (-1) (-1) 5]. split; [reflexivity|]. split; [reflexivity|constructor; [discriminate|constructor]].
  - exists [ex_prev 3 7 9 40; ex_prev 1 2 3 0], []. split; [reflexivity|]. split; [reflexivity|constructor].
Qed.

(** C29: look-up by unique id on every table: the first file whose id matches, nothing when all ids
    differ, undefined behaviour exactly when a file without unique id comes first. *)
Theorem C29_file_by_unique_id_exact t id : id <> [] -> uid_result id (all_files t) (toc_file_by_unique_id t (Some id)).
Proof. intro H. destruct id as [|c s]; [contradiction|]. pose proof (uid_scan (c :: s) (reels_of t) H) as X. unfold all_files. exact X. Qed.
Print Assumptions C29_file_by_unique_id_exact.
Theorem C29_no_unique_id t : toc_file_by_unique_id t None = Ok None /\ toc_file_by_unique_id t (Some []) = Ok None.
Proof. split; reflexivity. Qed.
Print Assumptions C29_no_unique_id.
Definition ex_uid (u : option cstr) : toc_file :=
  mkFile (Some [97]) (Some [98]) (Some [99]) 10 1 0 0 0 9 u (-2) 1 None None None.
Example C29_exact_witness :
  let t l := mkToc (Some [49]) (Some (s2z "job")) (Some [49]) (Some [49])
               (Some (Some [mkReel (Some [49]) (Some (Some [ex_uid (Some [50])])); mkReel (Some [50]) (Some (Some l))])) None None in
  toc_file_by_unique_id (t [ex_uid (Some [51]); ex_uid None]) (Some [51]) = Ok (Some (ex_uid (Some [51]))) /\
  toc_file_by_unique_id (t [ex_uid None; ex_uid (Some [51])]) (Some [51]) = UB /\
  toc_file_by_unique_id (t [ex_uid (Some [51])]) (Some [52]) = Ok None.
Proof. vm_compute. auto. Qed.

(** C30: what is reported for every reel: the sum of end byte - start byte + 1, whatever frames the
    bytes are on, and 0 as soon as one file ends at a lower byte position than it starts. *)
Theorem C30_reel_size_exact r :
  Forall bytes_fit (files_of r) -> Z.of_nat (List.length (files_of r)) < 2^32 ->
  (Exists (fun f => f_end_byte f < f_start_byte f) (files_of r) -> reel_size_bytes r = Ok 0) /\
  (Forall (fun f => f_start_byte f <= f_end_byte f) (files_of r) ->
     reel_size_bytes r = Ok (zsum (map last_frame_bytes (files_of r)))).
Proof. exact (reel_size_exact r). Qed.
Print Assumptions C30_reel_size_exact.
Example C30_exact_witness :
  let r := mkReel (Some [49]) (Some (Some [ex_prev 3 7 9 40; ex_prev 1 2 3 0])) in
  Forall bytes_fit (files_of r) /\ reel_size_bytes r = Ok 22 /\ zsum (map f_size (files_of r)) = 2000.
Proof. split; [repeat constructor; cbn; lia|vm_compute; auto]. Qed.

(** C49: the frame count of a preview is the length of the least interval of reel frames that holds
    the sections of all its pages; a page without a usable layout makes the call fail with count 0. *)
Theorem C49_preview_frames defs pv :
  Forall (fun x => ld_id x <> None) defs -> NoDup (map ld_id defs) ->
  pages_of pv <> [] -> Forall (placed defs) (pages_of pv) ->
  exists lo hi, extent defs (pages_of pv) lo hi /\ 0 <= lo <= hi /\ hi < 2^31 - 1 /\
    (forall g, In g (pages_of pv) -> lo <= pg_start_frame g) /\
    preview_frames_count (Some pv) (Some (Some defs)) = Ok (true, Some (hi - lo + 1)).
Proof. intros I N. exact (preview_extent defs I N pv). Qed.
Print Assumptions C49_preview_frames.
Theorem C49_unknown_layout defs pv :
  Forall (fun x => ld_id x <> None) defs ->
  Exists (fun g => forall cap, in_layout defs g cap -> cap = 0) (pages_of pv) ->
  preview_frames_count (Some pv) (Some (Some defs)) = Ok (false, Some 0).
Proof. exact (preview_unplaced defs pv). Qed.
Print Assumptions C49_unknown_layout.
Theorem C49_no_pages pv defs : pages_of pv = [] -> preview_frames_count (Some pv) (Some defs) = Ok (true, Some 0).
Proof. unfold pages_of, preview_frames_count. destruct (pv_pages pv) as [[|]|]; try discriminate; reflexivity. Qed.
Print Assumptions C49_no_pages.
(** Finding: a page whose start section lies beyond the first frame of its layout is counted from its
    start frame, so frames that carry no section of the preview are counted. *)
Theorem C49_late_start_refuted :
  exists g, page_ok g /\ (forall n, on_reel_frame [ex_two] g n <-> n = 12) /\
    preview_frames_count (Some (mkPreview (Some [g]) (-1))) (Some (Some [ex_two])) = Ok (true, Some 3).
Proof.
  exists (mkPage (Some [50]) 10 4 1 0 0 0 0). split; [|split; [|vm_compute; reflexivity]].
  - split; [exists 50, []; reflexivity|]. cbn. lia.
  - intro n. split.
    + intros (cap & q & (d & s & [<-|[]] & D2 & D3 & D4 & ->) & Q & ->). cbn in Q |- *. assert (q = 4) as -> by lia. reflexivity.
    + intros ->. exists 2, 4. split; [exists ex_two, [50]; cbn; repeat split; auto; discriminate|]. cbn. split; [lia|reflexivity].
Qed.
Print Assumptions C49_late_start_refuted.
Example C49_witness :
  Forall (placed [ex_three; ex_two]) (pages_of (ex_pages 5)) /\
  preview_frames_count (Some (ex_pages 5)) (Some (Some [ex_three; ex_two])) = Ok (true, Some 5) /\
  preview_frames_count (Some (ex_pages 5)) (Some (Some [ex_three])) = Ok (false, Some 0).
Proof. split; [apply ex_placed; lia|vm_compute; auto]. Qed.
