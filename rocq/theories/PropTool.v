(** C60-C62: the recovery tool extracts exactly the placed bytes of a file, checks them, and writes only one file of the current directory. *)
From Verif Require Import CBase CBaseProofs TocModel FileModel ImageModel ShaModel SpecSha PropSha ControlModel ToolModel SpecTool SpecTool2 ToolProofs ToolProofs2 ToolProofs3.
Notation length := List.length.
Local Open Scope Z_scope.

Lemma hash_file lib d out content : reads_well lib -> message content -> Z.of_nat (length content) < 2 ^ 61 -> d out = Some content ->
  sha1_of lib d (Some out) = Ok (Some (hexadecimal (SHA1 content))).
Proof. intros (H1 & H2 & H3) H4 H5 H6. unfold sha1_of. rewrite H6. exact (proj1 (C03_whole_file (lib_long lib) (lib_junk lib) (lib_reader lib) out content H1 H2 H3 H4 H5)). Qed.
Lemma incl_firstn' {A} n (l : list A) x : In x (firstn n l) -> In x l.
Proof. revert l. induction n as [|n IH]; intros [|y l] H; cbn in *; intuition. Qed.
Lemma incl_skipn' {A} n (l : list A) x : In x (skipn n l) -> In x l.
Proof. revert l. induction n as [|n IH]; intros [|y l] H; cbn in *; intuition. Qed.
Lemma placed_message frames a b : Forall message frames -> message (placed_bytes frames a b).
Proof.
  intro H. unfold message in *. apply Forall_forall. intros x I. unfold placed_bytes in I. apply incl_firstn', incl_skipn' in I.
  apply in_concat in I. destruct I as (o & O & I). rewrite Forall_forall in H. specialize (H o O). rewrite Forall_forall in H. auto.
Qed.

(** * C60 *)
(** An entry whose checksum is that of its placed bytes: they are extracted, whatever the output file held before. *)
Theorem C60_extract lib p f d template dec out images empty frames :
  ready lib p template dec -> reads_well lib -> prepare_file_name f = Ok out -> lib_creatable lib out = true ->
  Forall2 (frame_is lib p d template out) (from_to (f_start_frame f) (f_end_frame f)) images ->
  map dc_data (outputs dec [] images) = empty ++ frames -> Forall (eq []) empty -> frames_in_range lib p f (length empty) ->
  Forall message frames -> Forall (fun o => Z.of_nat (length o) < 2 ^ 32) frames -> Z.of_nat (length (List.concat frames)) < 2 ^ 61 ->
  last (map dc_result (outputs dec [] images)) (-1) = 0 ->
  well_placed frames (f_start_byte f) (f_end_byte f) -> never_one_byte frames (f_start_byte f) (f_end_byte f) ->
  f_checksum f = Some (hexadecimal (SHA1 (placed_bytes frames (f_start_byte f) (f_end_byte f)))) ->
  exists d', unbox_file lib p f d = Ok (d', 0) /\ d' out = Some (placed_bytes frames (f_start_byte f) (f_end_byte f)) /\ only_changes d d' out.
Proof.
  intros R RW P C F2 M Fe FR FM FS FL LR W N1 CK.
  destruct (unbox_file_run lib p f d template dec out images empty frames R P C F2 M Fe FR W FS) as (d1 & E1 & E2).
  destruct (written_placed frames (f_start_byte f) (f_end_byte f) FS W) as (WP & _). rewrite (WP N1) in E1.
  exists d1. assert (O : d1 out = Some (placed_bytes frames (f_start_byte f) (f_end_byte f))) by (rewrite E1, str_eqb_refl; reflexivity).
  split; [|split; [exact O|intros n N; rewrite E1; destruct (str_eqb_spec n out); congruence]].
  rewrite E2, (hash_file lib d1 out (placed_bytes frames (f_start_byte f) (f_end_byte f))); auto.
  - cbn [obind]. rewrite CK, str_eqb_refl, LR. reflexivity.
  - now apply placed_message.
  - unfold placed_bytes. rewrite firstn_length, skipn_length. lia.
Qed.
Lemma save_in o a b s e x : In x (save_output_data o a b s e) -> In x o.
Proof. unfold save_output_data. destruct (_ && _); [|auto]. intro H. eapply incl_skipn', incl_firstn'; eassumption. Qed.
Lemma save_length o a b s e : (length (save_output_data o a b s e) <= length o)%nat.
Proof. unfold save_output_data. destruct (_ && _); [|lia]. rewrite firstn_length, skipn_length. lia. Qed.
Lemma written_in frames s e x : In x (written frames s e) -> In x (List.concat frames).
Proof.
  destruct frames as [|o [|o' r]]; cbn [written]; [intros []| |].
  - cbn [List.concat]. rewrite app_nil_r. apply save_in.
  - set (R := o' :: r). change (List.concat (o :: R)) with (o ++ List.concat R). rewrite (concat_split R) by discriminate. rewrite !in_app_iff.
    intros [H|[H|H]]; [left|right; left|right; right]; try (eapply save_in; eassumption); exact H.
Qed.
Lemma written_length frames s e : (length (written frames s e) <= length (List.concat frames))%nat.
Proof.
  destruct frames as [|o [|o' r]]; cbn [written]; [cbn; lia| |].
  - cbn [List.concat]. rewrite app_nil_r. apply save_length.
  - set (R := o' :: r). change (List.concat (o :: R)) with (o ++ List.concat R). rewrite (concat_split R) by discriminate. rewrite !app_length.
    pose proof (save_length o true false s e). pose proof (save_length (last R []) false true s e). lia.
Qed.
Lemma never_dec frames s e : {never_one_byte frames s e} + {~ never_one_byte frames s e}.
Proof.
  destruct frames as [|o [|o' r]]; cbn [never_one_byte]; [left; exact Logic.I| |].
  - destruct (Z_lt_dec s e); [left; tauto|]. destruct (Nat.eq_dec (length o) 1); [left; tauto|right; tauto].
  - set (z := last _ _). destruct (Z_lt_dec (s + 1) (Z.of_nat (length o))), (Z.eq_dec s 0), (Z_lt_dec 0 e), (Nat.eq_dec (length z) 1); try (left; tauto); right; tauto.
Qed.
(** What is written is the placed bytes exactly when neither end is a single byte of a longer frame. The result is the decoder's for the last frame, or -1 if the checksum is another. *)
Theorem C60_exact lib p f d template dec out images empty frames c :
  ready lib p template dec -> reads_well lib -> prepare_file_name f = Ok out -> lib_creatable lib out = true ->
  Forall2 (frame_is lib p d template out) (from_to (f_start_frame f) (f_end_frame f)) images ->
  map dc_data (outputs dec [] images) = empty ++ frames -> Forall (eq []) empty -> frames_in_range lib p f (length empty) ->
  Forall message frames -> Forall (fun o => Z.of_nat (length o) < 2 ^ 32) frames -> Z.of_nat (length (List.concat frames)) < 2 ^ 61 ->
  well_placed frames (f_start_byte f) (f_end_byte f) -> f_checksum f = Some c ->
  exists d' r content, unbox_file lib p f d = Ok (d', r) /\ d' out = Some content /\ only_changes d d' out /\
    (content = placed_bytes frames (f_start_byte f) (f_end_byte f) <-> never_one_byte frames (f_start_byte f) (f_end_byte f)) /\
    (c = hexadecimal (SHA1 content) -> r = last (map dc_result (outputs dec [] images)) (-1)) /\ (c <> hexadecimal (SHA1 content) -> r = -1).
Proof.
  intros R RW P C F2 M Fe FR FM FS FL W CK.
  destruct (unbox_file_run lib p f d template dec out images empty frames R P C F2 M Fe FR W FS) as (d1 & E1 & E2).
  destruct (written_placed frames (f_start_byte f) (f_end_byte f) FS W) as (WP & WL).
  set (content := written frames (f_start_byte f) (f_end_byte f)) in *.
  assert (O : d1 out = Some content) by (rewrite E1, str_eqb_refl; reflexivity).
  rewrite (hash_file lib d1 out content) in E2; auto.
  - cbn [obind] in E2. rewrite CK in E2. eexists d1, _, content. split; [exact E2|]. split; [exact O|].
    split; [intros n N; rewrite E1; destruct (str_eqb_spec n out); congruence|]. split; [split|].
    + intro H. destruct (never_dec frames (f_start_byte f) (f_end_byte f)) as [Y|N]; [exact Y|]. specialize (WL N). rewrite H in WL. lia.
    + exact WP.
    + destruct (str_eqb_spec c (hexadecimal (SHA1 content))); split; congruence.
  - unfold message. apply Forall_forall. intros x I. apply written_in, in_concat in I. destruct I as (o & O' & I). rewrite Forall_forall in FM.
    specialize (FM o O'). unfold message in FM. rewrite Forall_forall in FM. auto.
  - pose proof (written_length frames (f_start_byte f) (f_end_byte f)). unfold content. lia.
Qed.
(** A file of one byte, or whose last part is one byte, in a longer frame: more is written than the file. *)
Theorem C60_one_byte_refuted lib p f d template dec out images empty frames c :
  ready lib p template dec -> reads_well lib -> prepare_file_name f = Ok out -> lib_creatable lib out = true ->
  Forall2 (frame_is lib p d template out) (from_to (f_start_frame f) (f_end_frame f)) images ->
  map dc_data (outputs dec [] images) = empty ++ frames -> Forall (eq []) empty -> frames_in_range lib p f (length empty) ->
  Forall message frames -> Forall (fun o => Z.of_nat (length o) < 2 ^ 32) frames -> Z.of_nat (length (List.concat frames)) < 2 ^ 61 ->
  well_placed frames (f_start_byte f) (f_end_byte f) -> f_checksum f = Some c ->
  f_end_byte f = 0 -> (1 < length (last frames []))%nat ->
  exists d' r content, unbox_file lib p f d = Ok (d', r) /\ d' out = Some content /\ content <> placed_bytes frames (f_start_byte f) (f_end_byte f).
Proof.
  intros R RW P C F2 M Fe FR FM FS FL W CK E0 L1.
  destruct (C60_exact lib p f d template dec out images empty frames c R RW P C F2 M Fe FR FM FS FL W CK) as (d' & r & content & H1 & H2 & _ & H3 & _).
  exists d', r, content. split; [exact H1|]. split; [exact H2|]. intro H. apply H3 in H. destruct W as (W1 & W2 & W3 & W4).
  destruct frames as [|o [|o' rr]]; [congruence| |]; cbn [never_one_byte] in H; cbn [hd] in W2.
  - cbn [last] in *. specialize (W4 eq_refl). lia.
  - destruct H as (_ & [H|H]); [lia|]. cbn [last] in *. lia.
Qed.

(** * C61: result 0 means that what is in the file has the checksum of the entry, whatever the images and the decoder *)
Theorem C61_checked lib p f d d' : reads_well lib -> unbox_file lib p f d = Ok (d', 0) ->
  exists out, prepare_file_name f = Ok out /\
  forall content, d' out = Some content -> message content -> Z.of_nat (length content) < 2 ^ 61 -> f_checksum f = Some (hexadecimal (SHA1 content)).
Proof.
  intros RW H. apply unbox_file_zero in H. destruct H as (out & c & P & K & X). exists out. split; [exact P|]. intros content O Mc Lc.
  rewrite (hash_file lib d' out content RW Mc Lc O) in X. congruence.
Qed.
(** ... and the file is there. *)
Theorem C61_present lib p f d d' : unbox_file lib p f d = Ok (d', 0) -> exists out content, prepare_file_name f = Ok out /\ d' out = Some content.
Proof.
  intro H. apply unbox_file_zero in H. destruct H as (out & c & P & K & X). exists out. unfold sha1_of in X. destruct (d' out) as [content|] eqn:O; [eauto|].
  exfalso. unfold afs_sha1_sum1 in X. rewrite (proj1 (proj2 (proj2 (C03_no_string (lib_long lib) (lib_junk lib) (lib_reader lib) (Some out) None 0 (-1))))) in X. congruence.
Qed.

(** * C62: names *)
Lemma last_part_unique path a b : last_part path a -> last_part path b -> a = b.
Proof.
  intros (da & Ea & Ha & Na) (db & Eb & Hb & Nb).
  assert (G : forall d1 n1 d2 n2, path = d1 ++ n1 -> path = d2 ++ n2 -> (d2 = [] \/ exists d' c, d2 = d' ++ [c] /\ separator c) -> ~ Exists separator n1 -> (length d2 <= length d1)%nat).
  { intros d1 n1 d2 n2 E1 E2 H2 N1. destruct H2 as [-> |(d' & c & -> & Sc)]; [cbn; lia|]. destruct (Nat.le_gt_cases (length (d' ++ [c])) (length d1)) as [L|L]; [exact L|].
    exfalso. apply N1. apply Exists_exists. exists c. split; [|exact Sc]. rewrite app_length in L. cbn [List.length] in L.
    assert (nth (length d') path 0 = c). { rewrite E2. rewrite <- app_assoc. rewrite app_nth2 by lia. now rewrite Nat.sub_diag. }
    rewrite E1 in H. rewrite app_nth2 in H by lia. rewrite <- H. apply nth_In.
    assert (length path = (length d1 + length n1)%nat) by (rewrite E1 at 1; apply app_length).
    assert (length path = (length d' + 1 + length n2)%nat) by (rewrite E2 at 1; rewrite !app_length; cbn [List.length]; lia). lia. }
  assert (LE : length da = length db).
  { pose proof (G da a db b Ea Eb Hb Na). pose proof (G db b da a Eb Ea Ha Nb). lia. }
  assert (skipn (length da) path = a) by (rewrite Ea, skipn_app, skipn_all, Nat.sub_diag; reflexivity).
  assert (skipn (length db) path = b) by (rewrite Eb, skipn_app, skipn_all, Nat.sub_diag; reflexivity). congruence.
Qed.
(** The output file is named after the last part of the entry's name; a tar part of another file by its stem with ".tar". *)
Theorem C62_name f path name : f_name f = Some path -> path <> [] -> last_part path name ->
  (file_has_parent f = true /\ (exists r, f_file_format f = Some (s2z "afs/tar" ++ r)) -> exists stem, before_dot name stem /\ prepare_file_name f = Ok (stem ++ s2z ".tar")) /\
  (~ (file_has_parent f = true /\ exists r, f_file_format f = Some (s2z "afs/tar" ++ r)) -> prepare_file_name f = Ok name).
Proof.
  intros E N L. unfold prepare_file_name. rewrite E. destruct (file_has_parent f && check_tar_format (f_file_format f)) eqn:B.
  - apply andb_true_iff in B. destruct B as (B1 & B2). apply check_tar_spec in B2. split; [|tauto]. intros _.
    destruct (from_path_spec path N) as (name' & stem & Q1 & Q2 & Q3). rewrite (last_part_unique path name name' L Q2). exists stem. split; [exact Q3|]. now rewrite Q1.
  - split.
    + intros (B1 & B2). apply check_tar_spec in B2. rewrite B1, B2 in B. discriminate.
    + intros _. destruct (with_extension_spec path N) as (name' & Q1 & Q2). now rewrite (last_part_unique path name name' L Q2).
Qed.
Lemma before_dot_in name stem x : before_dot name stem -> In x stem -> In x name.
Proof. intros (_ & [-> |(ext & ->)]) I; [exact I|apply in_or_app; now left]. Qed.
(** Whatever the entry, the name of the output has no directory part, and only that file changes. *)
Theorem C62_one_file lib p f d d' r : unbox_file lib p f d = Ok (d', r) ->
  d' = d \/ exists out, prepare_file_name f = Ok out /\ ~ Exists separator out /\ only_changes d d' out.
Proof.
  intro H. apply unbox_file_only in H. destruct H as [H|(out & P & H)]; [now left|]. right. exists out. split; [exact P|]. split; [|exact H].
  unfold prepare_file_name in P. destruct (f_name f) as [path|]; [|discriminate].
  assert (N : path <> []).
  { intros ->. destruct (file_has_parent f && check_tar_format (f_file_format f)); discriminate. }
  destruct (file_has_parent f && check_tar_format (f_file_format f)).
  - destruct (from_path_spec path N) as (name & stem & Q1 & Q2 & Q3). rewrite Q1 in P. cbn [obind] in P. injection P as <-.
    intro X. apply Exists_app in X. destruct X as [X|X].
    + apply Exists_exists in X. destruct X as (x & I & Sx). destruct Q2 as (dir & _ & _ & Q2). apply Q2. apply Exists_exists. exists x. split; [|exact Sx]. eapply before_dot_in; eassumption.
    + apply Exists_exists in X. destruct X as (x & I & Sx). cbn in I. unfold separator in Sx. lia.
  - destruct (with_extension_spec path N) as (name & Q1 & Q2). rewrite Q1 in P. injection P as <-. destruct Q2 as (dir & _ & _ & Q2). exact Q2.
Qed.
(** Entries that differ only in their directories get the same output file: the later one replaces the earlier. *)
Theorem C62_collision_refuted : exists f g, f_name f <> f_name g /\ prepare_file_name f = prepare_file_name g /\ exists out, prepare_file_name f = Ok out.
Proof.
  pose (e := fun n => mkFile (Some n) None None 0 0 0 0 0 0 None FILE_NO_PARENT 0 None None None).
  exists (e (s2z "a/x.txt")), (e (s2z "b/x.txt")). split; [discriminate|]. split; [reflexivity|]. exists (s2z "x.txt"). reflexivity.
Qed.
(** An entry without a name, or with an empty one, is undefined behaviour. *)
Theorem C62_no_name_refuted lib p f d template dec : ready lib p template dec -> f_name f = None \/ f_name f = Some [] -> unbox_file lib p f d = UB.
Proof.
  intros (R1 & R2 & R3 & R4 & R5 & _) H. unfold unbox_file. rewrite R1. destruct template; [congruence|]. destruct (pr_format p); [|congruence].
  replace ((pr_x p =? 0) || (pr_y p =? 0)) with false by lia. unfold prepare_file_name. destruct H as [-> | ->]; [reflexivity|]. now destruct (_ && _).
Qed.

(** * Witnesses *)
(** Frames of 2 by 4 pixels of 8 bits, two per stripe: the decoder gives the pixels of the last image, nothing for the first. *)
Definition ex_decoder : decoder := fun ims =>
  match ims with [_] => mkDecoded 0 [] None | _ => mkDecoded 0 (match last ims None with Some im => im_data im | None => [] end) None end.
Definition ex_library : library :=
  mkLibrary (fun _ _ => Some ex_decoder) (fun _ => 2) [] 1 (fun _ => true) (fun _ => 0) 64 (repeat 0 64) (Reader (fun _ => O) (fun _ => false) 0).
Definition ex_parameters : parameters := mkParameters (Some (s2z "f*d")) (Some (mkConfig [] [])) false true 2 4 None false.
Definition ex_frames : disk := fun n =>
  if str_eqb n (s2z "f7") then Some [0;0;0;0;0;0;0;0] else if str_eqb n (s2z "f8") then Some [1;2;3;4;5;6;7;8]
  else if str_eqb n (s2z "f9") then Some [11;12;13;14;15;16;17;18] else None.
Definition ex_placed := [3;4;5;6;7;8;11;12;13;14;15;16].
Definition ex_entry : toc_file := mkFile (Some (s2z "dir/a.bin")) None (Some (hexadecimal (SHA1 ex_placed))) 12 1 7 2 9 5 None FILE_NO_PARENT 1 None None None.

Definition ex_image (l : list Z) : option image := Some (mkImage 2 4 l).
Definition ex_images := [ex_image [0;0;0;0;0;0;0;0]; ex_image [1;2;3;4;5;6;7;8]; ex_image [11;12;13;14;15;16;17;18]].
Definition ex_data := [[1;2;3;4;5;6;7;8]; [11;12;13;14;15;16;17;18]].
Lemma ex_ready : ready ex_library ex_parameters (s2z "f*d") ex_decoder.
Proof. split; [reflexivity|]. split; [discriminate|]. split; [discriminate|]. split; [discriminate|]. split; [discriminate|reflexivity]. Qed.
Lemma ex_reads : reads_well ex_library.
Proof. split; [now right|]. split; [reflexivity|]. intro; reflexivity. Qed.
Lemma ex_frame i l name : get_input_file_name (s2z "f*d") i = Ok name -> str_eqb name (s2z "a.bin") = false ->
  read_input_file (lib_fresh ex_library) ex_frames name 2 4 = Ok (ex_image l) -> frame_is ex_library ex_parameters ex_frames (s2z "f*d") (s2z "a.bin") i (ex_image l).
Proof. intros H1 H2 H3. exists name. split; [exact H1|]. split; [now apply str_eqb_neq|exact H3]. Qed.
Lemma ex_all_frames : Forall2 (frame_is ex_library ex_parameters ex_frames (s2z "f*d") (s2z "a.bin")) (from_to 7 9) ex_images.
Proof.
  change (from_to 7 9) with [7; 8; 9]. unfold ex_images. constructor; [|constructor; [|constructor; [|constructor]]].
  - apply (ex_frame _ _ (s2z "f7")); reflexivity.
  - apply (ex_frame _ _ (s2z "f8")); reflexivity.
  - apply (ex_frame _ _ (s2z "f9")); reflexivity.
Qed.
Lemma ex_message l : forallb (fun x => (0 <=? x) && (x <? 256)) l = true -> message l.
Proof. intro H. apply Forall_forall. intros x I. rewrite forallb_forall in H. specialize (H x I). lia. Qed.
(** The hypotheses of C60_extract are met, and the file is there afterwards. *)
Example C60_witness : exists d', unbox_file ex_library ex_parameters ex_entry ex_frames = Ok (d', 0) /\ d' (s2z "a.bin") = Some ex_placed /\ only_changes ex_frames d' (s2z "a.bin").
Proof.
  apply (C60_extract ex_library ex_parameters ex_entry ex_frames (s2z "f*d") ex_decoder (s2z "a.bin") ex_images [[]] ex_data); try reflexivity.
  - exact ex_ready.
  - exact ex_reads.
  - exact ex_all_frames.
  - constructor; [reflexivity|constructor].
  - split; [reflexivity|]. cbn. lia.
  - constructor; [|constructor; [|constructor]]; now apply ex_message.
  - constructor; [|constructor; [|constructor]]; reflexivity.
  - split; [discriminate|]. cbn. lia.
  - cbn. lia.
Qed.
(** One byte of a frame: the tool writes the whole frame. *)
Definition ex_one : toc_file := mkFile (Some (s2z "one")) None (Some (hexadecimal (SHA1 [3]))) 1 1 7 2 8 2 None FILE_NO_PARENT 1 None None None.
Example C60_one_byte_witness :
  placed_bytes [[1;2;3;4;5;6;7;8]] 2 2 = [3] /\
  match unbox_file ex_library ex_parameters ex_one ex_frames with Ok (d', r) => (r =? -1) && match d' (s2z "one") with Some s => str_eqb s [1;2;3;4;5;6;7;8] | None => false end | UB => false end = true.
Proof. split; [reflexivity|]. vm_compute. reflexivity. Qed.
Example C61_witness : match unbox_file ex_library ex_parameters ex_entry ex_frames with Ok (d', r) => r =? 0 | UB => false end = true.
Proof. vm_compute. reflexivity. Qed.
Example C62_witness :
  last_part (s2z "dir/a.bin") (s2z "a.bin") /\
  prepare_file_name (mkFile (Some (s2z "dir.d/part.tar.gz")) None None 0 1 0 0 0 0 None 4 1 None (Some (s2z "afs/tar1")) None) = Ok (s2z "part.tar") /\
  before_dot (s2z "part.tar.gz") (s2z "part").
Proof.
  split; [|split].
  - exists (s2z "dir/"). split; [reflexivity|]. split; [right; exists (s2z "dir"), 47; split; [reflexivity|now left]|]. intro H. apply Exists_exists in H. destruct H as (x & I & Sx).
    cbn in I. unfold separator in Sx. lia.
  - reflexivity.
  - split; [cbn; lia|]. right. exists (s2z "tar.gz"). reflexivity.
Qed.
Print Assumptions C60_extract.
Print Assumptions C60_exact.
Print Assumptions C60_one_byte_refuted.
Print Assumptions C61_checked.
Print Assumptions C61_present.
Print Assumptions C62_name.
Print Assumptions C62_one_file.
Print Assumptions C62_collision_refuted.
Print Assumptions C62_no_name_refuted.
