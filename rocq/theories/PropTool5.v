(** C65, from the saving to the recovery: the control data and the table of contents that the save functions write are what the recovery tool reads. *)
From Verif Require Import CBase CBaseProofs XmlModel SpecXml SimProofs TocModel SpecToc TocXmlModel SpecTocXml TocXmlBase TocXmlProofs TocXmlProofs2 TocXmlProofs3 TocXmlProofs5 TocXmlRound
  BuildModel BuildProofs FileModel FileProofs ImageModel ShaModel SpecSha ControlModel SpecControl LoadModel WsModel ToolModel SpecTool SpecTool2 PropTocXml PropControl ToolProofs8 PropTool PropTool2 PropTool4.
Notation length := List.length.
Local Open Scope Z_scope.

Lemma files_in_reels l : all_in (s2z "file") (map tree_reel l) = map (tree_file false) (flat_map files_of l).
Proof.
  induction l as [|r l IH]; [reflexivity|]. cbn [map flat_map]. rewrite all_in_cons, IH, map_app. change (named (s2z "file") (tree_reel r)) with false. cbn [app]. f_equal.
  unfold tree_reel. rewrite find_all_in, all_in_app, (within_all_in [s2z "id"]) by (try reflexivity; now apply within_text_node). cbn [app]. unfold tail_files.
  assert (E : files_of r = match r_files r with Some _ => files_of r | None => [] end) by (unfold files_of; destruct (r_files r); reflexivity).
  destruct (r_files r) as [v|]; [|now rewrite E]. rewrite all_in_cons. change (named (s2z "file") (tree_files (files_of r))) with false. cbn [app].
  unfold tree_files. rewrite find_all_in, all_files_in. unfold all_in. cbn. now rewrite app_nil_r.
Qed.
Lemma files_in_toc t : find_all (s2z "file") (tree_toc t) = map (tree_file false) (all_files t).
Proof.
  unfold tree_toc. rewrite find_all_in, !all_in_app.
  rewrite (within_all_in [s2z "indexType"] (s2z "file") (text_node (s2z "indexType") _)) by (try reflexivity; now apply within_text_node).
  rewrite (within_all_in [s2z "jobId"] (s2z "file") (text_node (s2z "jobId") _)) by (try reflexivity; now apply within_text_node).
  rewrite (within_all_in [s2z "reelId"] (s2z "file") (text_node (s2z "reelId") _)) by (try reflexivity; now apply within_text_node).
  rewrite (within_all_in NMD (s2z "file") (tail_md t)) by (try reflexivity; apply within_md).
  rewrite (within_all_in NLD (s2z "file") (tail_ld t)) by (try reflexivity; apply within_ld). cbn [app].
  unfold tail_rl, all_files. destruct (reels_of t) as [|r l]; [reflexivity|]. rewrite all_in_cons. change (named (s2z "file") (tree_reels (r :: l))) with false. cbn [app].
  unfold tree_reels. rewrite find_all_in, files_in_reels. unfold all_in. cbn [flat_map filter]. now rewrite app_nil_r.
Qed.
(** What the tool reads from a saved table of contents: the files of all reels, in order. *)
Theorem C65_toc_files t : toc_is_valid t = true -> toc_carried t -> round_trips (save_toc t) load_files (back_list file_back (all_files t)).
Proof.
  intros V C. pose proof C as (_ & _ & _ & _ & _ & (RC & _) & _ & _ & SR). destruct (toc_parts_of t C V) as ((_ & _ & VR) & _).
  assert (Vr : Forall (fun r => reel_is_valid r = true) (reels_of t)).
  { destruct (reels_of t) as [|r l] eqn:E; [constructor|]. destruct (VR ltac:(discriminate)) as (VR' & _). exact (reels_each_valid (Some (r :: l)) VR' SR). }
  assert (Vf : Forall (fun f => file_is_valid f = true) (all_files t)).
  { unfold all_files. apply Forall_forall. intros f I. apply in_flat_map in I as (r & Ir & I). rewrite Forall_forall in RC, Vr. pose proof (reel_files_valid r (RC r Ir) (Vr r Ir)) as H. rewrite Forall_forall in H. auto. }
  assert (Cf : files_carried (all_files t)).
  { unfold all_files. rewrite Forall_forall in RC. split; apply Forall_forall; intros f I; apply in_flat_map in I as (r & Ir & I); destruct (RC r Ir) as (_ & (H1 & H2) & _); rewrite Forall_forall in H1, H2; auto. }
  apply (round_list _ _ (tree_toc t)); [now apply save_toc_ok|now apply wf_toc| |].
  - intros d S. unfold load_files. apply load_file_nodes; auto. rewrite <- files_in_toc. now apply sim_find_all.
  - intros d S. unfold load_files. apply load_file_nodes; auto. pose proof (sim_find_all (s2z "file") _ _ S) as F. unfold new_xml in F. rewrite find_all_in, all_in_cons in F.
    change (named (s2z "file") (tree_toc t)) with false in F. cbn [app] in F. rewrite files_in_toc in F. unfold all_in in F. cbn [flat_map filter] in F. now rewrite app_nil_r in F.
Qed.
Lemma read_saved {A} (load : node -> option A) s x : is_text s -> load_object load s = Ok (Some x) -> exists tree, load_bytes s = Ret (Some tree) /\ load tree = Some x.
Proof.
  intros T E. rewrite (load_text s T). unfold load_object in E. destruct s; [discriminate|]. destruct (load_string _) as [[tree|]| | |]; try discriminate. exists tree. split; [reflexivity|congruence].
Qed.
Lemma Forall2_weaken {A B} (P Q : A -> B -> Prop) l m : (forall x y, P x y -> Q x y) -> Forall2 P l m -> Forall2 Q l m.
Proof. intros H F. induction F; constructor; auto. Qed.
Lemma vec_back {A} (g : A -> A) l : vec_list (back_list g l) = map g l. Proof. destruct l; reflexivity. Qed.

(** The whole way: control data and a table of contents are saved; the frames hold the saved control data, the saved table of contents (whose first entry in
    the control data describes it) and the files; the run with -read recovers the chosen files. *)
Theorem C65_saved_and_recovered lib args p d a te b f l t ws nl ws' nl' decl bytes content name numbers jobs :
  reads_well lib -> says args nothing_set p -> Forall (fun s => Z.of_nat (length s) < 2 ^ 64) args ->
  pr_input p <> None -> pr_x p <> 0 -> pr_y p <> 0 -> pr_read p = true -> pr_numbers p = Some numbers -> Forall (fun n => 0 <= n) numbers ->
  admin_carried a -> tech_carried te -> te_format te = Some b -> te_tocs te = Some (Some (f :: l)) -> indenting ws ->
  save_object true (save_control_string (mkControl (Some a) (Some te))) ws nl = Some bytes -> control_frame lib p d bytes ->
  toc_is_valid t = true -> toc_carried t -> Z.of_nat (length (all_files t)) < 2 ^ 32 -> indenting ws' ->
  save_object decl (save_toc t) ws' nl' = Some content -> name <> s2z "control_data.xml" ->
  toc_available lib (with_format (bf_config (format_back b)) p) d [name; s2z "control_data.xml"] (file_back f) name content ->
  Forall2 (fun n job => exists g, nth_error (all_files t) (Z.to_nat n) = Some g /\
            recoverable lib (with_format (bf_config (format_back b)) p) d (name :: s2z "control_data.xml" :: map fst jobs) (file_back g) (fst job) (snd job))
          (asked numbers (Z.of_nat (length (all_files t)))) jobs ->
  NoDup (map fst jobs) ->
  exists d', main lib args d = Ok (d', 0) /\ Forall (fun job => d' (fst job) = Some (snd job)) jobs /\
             forall n, ~ In n (name :: s2z "control_data.xml" :: map fst jobs) -> d' n = d n.
Proof.
  intros RW H SZ I X Y RD NU NN CA CT TF TT W SC CF V C LE W' ST NC TA F2 ND.
  destruct (C23_control_round_trip a te CA CT ws nl W) as (s & S1 & S2 & S3). assert (s = bytes) as -> by congruence. destruct (read_saved _ _ _ S3 S2) as (tree & L1 & L2).
  destruct (C65_toc_files t V C ws' nl' decl W') as (s' & S1' & S2' & S3'). assert (s' = content) as -> by congruence. destruct (read_saved _ _ _ S3' S2') as (tree' & L1' & L2').
  apply (C65_recover lib args p d bytes tree (mkControl (Some (admin_back a)) (Some (tech_back te))) (tech_back te) (format_back b) (back_list file_back (f :: l)) (file_back f) (map file_back l) name content tree'
           (back_list file_back (all_files t)) numbers jobs); auto.
  - cbn [tech_back te_format]. now rewrite TF.
  - cbn [tech_back te_tocs]. unfold named_files_back. now rewrite TT.
  - rewrite vec_back, map_length. exact LE.
  - rewrite vec_back, map_length. eapply Forall2_weaken; [|exact F2]. intros n job (g & G1 & G2). exists (file_back g). split; [now apply map_nth_error|exact G2].
Qed.
Print Assumptions C65_toc_files.
Print Assumptions C65_saved_and_recovered.

(** The hypotheses of C65_saved_and_recovered are met: a table of contents with one reel of two files. *)
Definition ex5_toc : toc_data := mkToc (Some (s2z "1.0.0")) (Some (s2z "reel")) (Some (s2z "job 1")) (Some (s2z "reel-7")) (Some (Some [mkReel (Some (s2z "reel-7")) (Some (Some [ex_toc_entry; ex_dated]))])) None None.
Definition ex5_bytes (k : list node * bool) (decl : bool) : list Z := match save_object decl k no_ws false with Some s => s | _ => [] end.
Definition ex5_content : list Z := Eval vm_compute in ex5_bytes (save_toc ex5_toc) true.
Definition ex5_sum : list Z := Eval vm_compute in hexadecimal (SHA1 ex5_content).
Definition ex5_entry : toc_file := mkFile (Some (s2z "toc.xml")) (Some (s2z "2024")) (Some ex5_sum) 12 1 3 0 4 1 None FILE_NO_PARENT 1 None None None.
Definition ex5_tech : tech := mkTech (Some (mkFormat (Some ex_config))) (Some (Some [ex5_entry])) (Some None).
Definition ex5_control : list Z := Eval vm_compute in ex5_bytes (save_control_string (mkControl (Some ex_admin) (Some ex5_tech))) true.
Definition ex5_reel : disk := fun n => if str_eqb n (s2z "f1") then Some [9;9;9;9;9;9;9;9] else if str_eqb n (s2z "toc.xml") then Some ex5_content else ex_frames n.
Definition ex5_args := [s2z "-i"; s2z "f*d"; s2z "-s"; s2z "2"; s2z "4"; s2z "-read"; s2z "5-7"; s2z "1"; s2z "1"].
Definition ex5_p := mkParameters (Some (s2z "f*d")) None false true 2 4 (Some [5; 6; 7; 1; 1]) false.
Definition ex5_lib : library :=
  mkLibrary (fun c _ => match c with None => Some (fun _ => mkDecoded 0 ex5_control (Some 1)) | Some _ => Some ex_decoder end) (fun _ => 2) [None] 1 (fun _ => true) (fun _ => 0) 64 (repeat 0 64) (Reader (fun _ => O) (fun _ => false) 0).
Definition ex5_p1 := with_format (bf_config (format_back (mkFormat (Some ex_config)))) ex5_p.
Lemma ex5_says : says ex5_args nothing_set ex5_p.
Proof.
  apply says_input. apply says_size; [apply ex_digits; reflexivity|apply ex_digits; reflexivity|reflexivity|reflexivity|].
  apply (says_read [s2z "5-7"; s2z "1"; s2z "1"] [[5; 6; 7]; [1]; [1]] []); [|apply says_nothing].
  constructor; [apply (denotes_range (s2z "5") (s2z "7")); try reflexivity; apply ex_digits; reflexivity|].
  constructor; [apply (denotes_number (s2z "1")); [apply ex_digits; reflexivity|reflexivity]|].
  constructor; [apply (denotes_number (s2z "1")); [apply ex_digits; reflexivity|reflexivity]|constructor].
Qed.
Lemma ex5_frame i l name outs : get_input_file_name (s2z "f*d") i = Ok name -> existsb (str_eqb name) outs = false ->
  read_input_file (lib_fresh ex5_lib) ex5_reel name 2 4 = Ok (ex_image l) ->
  exists name, get_input_file_name (s2z "f*d") i = Ok name /\ ~ In name outs /\ read_input_file (lib_fresh ex5_lib) ex5_reel name (u32 (pr_x ex5_p1)) (u32 (pr_y ex5_p1)) = Ok (ex_image l).
Proof.
  intros H1 H2 H3. exists name. split; [exact H1|]. split; [|exact H3]. intro I. assert (existsb (str_eqb name) outs = true); [|congruence].
  apply existsb_exists. exists name. split; [exact I|apply str_eqb_refl].
Qed.
Lemma ex5_recoverable : recoverable ex5_lib ex5_p1 ex5_reel [s2z "toc.xml"; s2z "control_data.xml"; s2z "a.bin"] (file_back ex_dated) (s2z "a.bin") ex_placed.
Proof.
  exists (s2z "f*d"), ex_decoder, ex_images, [[]], ex_data.
  split; [split; [reflexivity|]; split; [discriminate|]; split; [discriminate|]; split; [discriminate|]; split; [discriminate|reflexivity]|].
  split; [reflexivity|]. split; [reflexivity|]. split.
  { change (from_to (f_start_frame (file_back ex_dated)) (f_end_frame (file_back ex_dated))) with [7; 8; 9]. unfold ex_images. constructor; [|constructor; [|constructor; [|constructor]]].
    - apply (ex5_frame _ _ (s2z "f7")); reflexivity.
    - apply (ex5_frame _ _ (s2z "f8")); reflexivity.
    - apply (ex5_frame _ _ (s2z "f9")); reflexivity. }
  split; [reflexivity|]. split; [constructor; [reflexivity|constructor]|]. split; [split; [reflexivity|]; cbn; lia|].
  split; [constructor; [|constructor; [|constructor]]; now apply ex_message|]. split; [constructor; [|constructor; [|constructor]]; reflexivity|].
  split; [reflexivity|]. split; [reflexivity|]. split; [split; [discriminate|]; cbn; lia|]. split; [cbn; lia|]. split; [reflexivity|]. vm_compute. reflexivity.
Qed.
Lemma none_carried : carried None. Proof. intros x E. discriminate E. Qed.
Lemma some_carried s : forallb (fun c => (32 <=? c) && (c <? 128)) s = true -> carried (Some s). Proof. intros H x E. injection E as <-. now apply ascii_by. Qed.
Ltac entry5 := unfold file_carried; cbn [f_name f_date f_checksum f_size f_id f_start_frame f_start_byte f_end_frame f_end_byte f_unique_id f_parent_id f_types f_preview f_file_format f_metadata fsources_of];
  do 5 (split; [first [exact none_carried|apply some_carried; vm_compute; reflexivity]|]); repeat (split; [unfold is_i32, is_i64, FILE_NO_PARENT; lia|]); split; [discriminate|]; split; [apply Forall_nil|reflexivity].
Lemma ex5_carried1 : file_carried ex_dated. Proof. unfold ex_dated. entry5. Qed.
Lemma ex5_carried2 : file_carried ex_toc_entry. Proof. unfold ex_toc_entry. entry5. Qed.
Lemma ex5_carried3 : file_carried ex5_entry. Proof. unfold ex5_entry. entry5. Qed.
Lemma ex5_files : files_carried [ex_toc_entry; ex_dated] /\ Forall (fun f => file_is_valid f = true) [ex_toc_entry; ex_dated] /\ files_carried [ex5_entry] /\ Forall (fun f => file_is_valid f = true) [ex5_entry].
Proof.
  split; [split; [constructor; [apply ex5_carried2|constructor; [apply ex5_carried1|constructor]]|constructor; [|constructor; [|constructor]]]|].
  1,2: split; intros x E; injection E as <-; discriminate.
  split; [constructor; [vm_compute; reflexivity|constructor; [vm_compute; reflexivity|constructor]]|].
  split; [split; [constructor; [apply ex5_carried3|constructor]|constructor; [|constructor]]|constructor; [vm_compute; reflexivity|constructor]].
  split; intros x E; injection E as <-; discriminate.
Qed.
Example C65_saved_witness : exists d', main ex5_lib ex5_args ex5_reel = Ok (d', 0) /\ d' (s2z "a.bin") = Some ex_placed.
Proof.
  destruct ex5_files as (FC & FV & GC & GV).
  destruct (C65_saved_and_recovered ex5_lib ex5_args ex5_p ex5_reel ex_admin ex5_tech (mkFormat (Some ex_config)) ex5_entry [] ex5_toc no_ws false no_ws false true ex5_control ex5_content (s2z "toc.xml")
             [5; 6; 7; 1; 1] [(s2z "a.bin", ex_placed)]) as (d' & H1 & H2 & _).
  - split; [now right|]. split; [reflexivity|]. intro; reflexivity.
  - exact ex5_says.
  - unfold ex5_args. repeat (apply Forall_cons; [reflexivity|]). apply Forall_nil.
  - discriminate.
  - discriminate.
  - discriminate.
  - reflexivity.
  - reflexivity.
  - repeat (apply Forall_cons; [lia|]). apply Forall_nil.
  - apply C23_witness.
  - split; [|split; [split; [exact GC|exact GV]|repeat constructor]]. eexists. split; [reflexivity|]. intros c Q. injection Q as <-. split; [apply ex_config_carried|reflexivity].
  - reflexivity.
  - reflexivity.
  - intros path t p. constructor.
  - vm_compute. reflexivity.
  - exists (s2z "f*d"), (s2z "f1"), (ex_image [9;9;9;9;9;9;9;9]), [], None, [], (fun _ => mkDecoded 0 ex5_control (Some 1)).
    split; [reflexivity|]. split; [reflexivity|]. split; [discriminate|]. split; [reflexivity|]. split; [reflexivity|]. split; [reflexivity|]. split; [constructor|].
    split; [reflexivity|]. split; [reflexivity|]. split; [now right|]. split; reflexivity.
  - vm_compute. reflexivity.
  - split; [atext|]. split; [atext|]. split; [atext|]. split; [constructor|]. split; [split; [constructor|split; constructor]|].
    split; [|split; [reflexivity|split; reflexivity]]. split; [constructor; [|constructor]|].
    + split; [atext|]. split; [exact FC|reflexivity].
    + constructor; [|constructor]. intros x E. injection E as <-. discriminate.
  - reflexivity.
  - intros path t p. constructor.
  - vm_compute. reflexivity.
  - discriminate.
  - split; [reflexivity|]. split; [apply ex_message; vm_compute; reflexivity|]. split; [vm_compute; reflexivity|]. split; [vm_compute; reflexivity|]. left. reflexivity.
  - change (asked [5; 6; 7; 1; 1] (Z.of_nat (length (all_files ex5_toc)))) with [1]. constructor; [|constructor]. exists ex_dated. split; [reflexivity|exact ex5_recoverable].
  - constructor; [intros []|constructor].
  - exists d'. split; [exact H1|]. now apply Forall_inv in H2.
Qed.
