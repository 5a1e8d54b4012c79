(** C63-C65: frames, command line and whole run of the recovery tool. *)
From Verif Require Import CBase CBaseProofs XmlModel TocModel TocXmlModel BuildModel BuildProofs FileModel ImageModel ShaModel SpecSha ControlModel LoadModel WsModel ToolModel SpecTool SpecTool2 ToolProofs ToolProofs2 ToolProofs3 ToolProofs4 ToolProofs5 ToolProofs6 PropTool PropControl.
Notation length := List.length.
Local Open Scope Z_scope.

(** * C63 *)
(** The size of a frame file tells its depth, with or without 64 more bytes. *)
Theorem C63_depth w h b : 0 < w -> 0 < h -> w * h < 2 ^ 29 -> w * h mod 8 = 0 -> b = 1 \/ b = 2 \/ b = 4 \/ b = 8 ->
  w * h <> 128 -> w * h <> 256 -> w * h <> 512 ->
  check_frame_size (w * h * b / 8) w h = Some (b, false) /\ check_frame_size (w * h * b / 8 + 64) w h = Some (b, true).
Proof. apply frame_size_spec. Qed.
(** The excluded sizes are ambiguous: 512 pixels of 2 bits are taken for 1 bit with 64 more bytes. *)
Theorem C63_ambiguous_refuted w h : (w * h = 512 -> check_frame_size (w * h * 2 / 8) w h = Some (1, true)) /\
  (w * h = 256 -> check_frame_size (w * h * 4 / 8) w h = Some (2, true)) /\ (w * h = 128 -> check_frame_size (w * h * 8 / 8) w h = Some (4, true)).
Proof. split; [|split]; intro H; unfold check_frame_size; cbn [check_depths]; rewrite H; reflexivity. Qed.
(** Every pixel of the image is the sample of the file at its place, scaled to 0..255. *)
Theorem C63_pixels fresh d name bytes w h b (header : bool) : 0 < w -> 0 < h -> w * h < 2 ^ 29 -> w * h mod 8 = 0 -> b = 1 \/ b = 2 \/ b = 4 \/ b = 8 ->
  w * h <> 128 -> w * h <> 256 -> w * h <> 512 ->
  d name = Some bytes -> Forall (fun x => 0 <= x < 256) bytes -> Z.of_nat (length bytes) = w * h * b / 8 + (if header then 64 else 0) ->
  exists im, read_input_file fresh d name w h = Ok (Some im) /\ im_width im = w /\ im_height im = h /\
  forall k, 0 <= k < w * h -> nth_error (im_data im) (Z.to_nat k) = Some (brightness b (sample (payload bytes (w * h * b / 8) header) b k)).
Proof.
  intros W H B M D N1 N2 N3 E F L.
  assert (C : check_frame_size (Z.of_nat (length bytes)) w h = Some (b, header)).
  { destruct (frame_size_spec w h b W H B M D N1 N2 N3) as (C1 & C2). rewrite L. destruct header; [exact C2|]. now rewrite Z.add_0_r. }
  destruct (read_frame fresh d name bytes w h b header E F W H B M D C L) as (im & R1 & R2 & R3 & R4 & R5). exists im. split; [exact R1|]. split; [exact R2|]. split; [exact R3|].
  intros k K. rewrite (nth_error_nth' (im_data im) 0) by lia. f_equal. rewrite (R4 k K). destruct (Z.eqb_spec b 8) as [-> |]; [|reflexivity].
  unfold brightness, sample. change (8 / 8) with 1. change (255 / (2 ^ 8 - 1)) with 1. rewrite Z.mod_1_r, Z.div_1_r, Z.mul_1_r. change (2 ^ (8 * 0)) with 1. rewrite Z.div_1_r, Z.div_mul by lia.
  symmetry. apply Z.mod_small. apply nth_byte. now apply payload_bytes.
Qed.
(** The scale goes from 0 to 255. *)
Theorem C63_scale b v : b = 1 \/ b = 2 \/ b = 4 \/ b = 8 -> 0 <= v < 2 ^ b -> 0 <= brightness b v <= 255 /\ brightness b 0 = 0 /\ brightness b (2 ^ b - 1) = 255.
Proof.
  intros D V. unfold brightness. destruct D as [-> |[-> |[-> | ->]]]; (split; [|split; reflexivity]).
  - change (255 / (2 ^ 1 - 1)) with 255. lia.
  - change (255 / (2 ^ 2 - 1)) with 85. lia.
  - change (255 / (2 ^ 4 - 1)) with 17. lia.
  - change (255 / (2 ^ 8 - 1)) with 1. lia.
Qed.
(** Another size, or no file: no image, and no undefined behaviour. *)
Theorem C63_no_image fresh d name w h : 0 <= w -> 0 <= h -> w * h < 2 ^ 29 ->
  (d name = None \/ exists bytes, d name = Some bytes /\ forall b, b = 1 \/ b = 2 \/ b = 4 \/ b = 8 -> Z.of_nat (length bytes) <> w * h * b / 8 /\ Z.of_nat (length bytes) <> w * h * b / 8 + 64) ->
  read_input_file fresh d name w h = Ok None.
Proof.
  intros W H B C. unfold read_input_file. destruct C as [-> |(bytes & -> & C)]; [reflexivity|]. unfold check_frame_size. rewrite check_depths_spec by (auto; apply all_depths).
  cbn [find]. rewrite !(proj2 (Z.eqb_neq _ _)) by (intro X; symmetry in X; revert X; apply C; tauto). reflexivity.
Qed.

(** An empty file gives no image, whatever the size. *)
Theorem C63_empty_file fresh d name w h : d name = Some [] -> read_input_file fresh d name w h = Ok None.
Proof.
  intro E. unfold read_input_file. rewrite E. destruct (check_frame_size _ w h) as [(b & header)|]; [|reflexivity].
  rewrite skipn_nil, firstn_nil. destruct (Z.to_nat (u64 (u64 (w * h) * b) / 8)); reflexivity.
Qed.

(** * C64 *)
Theorem C64_options args p : says args nothing_set p -> Forall (fun s => Z.of_nat (length s) < 2 ^ 64) args ->
  pr_input p <> None -> pr_x p <> 0 -> pr_y p <> 0 -> get_command_line_parameters args = Ok p.
Proof. apply parameters_spec. Qed.
(** Without the names of the frames or the size the tool stops with -1 and touches nothing. *)
Theorem C64_incomplete lib args p d : says args nothing_set p -> Forall (fun s => Z.of_nat (length s) < 2 ^ 64) args ->
  pr_input p = None \/ pr_x p = 0 \/ pr_y p = 0 -> main lib args d = Ok (d, -1).
Proof.
  intros H SZ C. unfold main, get_command_line_parameters. change (mkParameters None None false false 0 0 None false) with nothing_set.
  rewrite (parse_says args nothing_set p H SZ) by lia. cbn [obind]. destruct (pr_input p) eqn:E; [|now rewrite E].
  destruct ((pr_x p =? 0) || (pr_y p =? 0)) eqn:Z0; [reflexivity|]. destruct C as [C|C]; [congruence|lia].
Qed.
Theorem C64_chosen numbers count :
  boxing_check_files_numbers (Some numbers) count = Some (asked numbers count).
Proof. apply asked_spec. Qed.
Lemma keep_first_in l x : In x (keep_first l) <-> In x l.
Proof.
  induction l as [|y l IH]; [reflexivity|]. cbn [keep_first In]. rewrite filter_In, IH. split; [tauto|]. intros [-> |I]; [now left|].
  destruct (Z.eqb_spec x y) as [-> |]; [now left|right; split; [exact I|reflexivity]].
Qed.
(** ... which are files that exist, each at most once, exactly those asked for. *)
Theorem C64_asked numbers count l : Forall (fun n => 0 <= n) numbers -> boxing_check_files_numbers (Some numbers) count = Some l ->
  NoDup l /\ Forall (fun n => 0 <= n < count) l /\ (numbers = [] -> forall n, 0 <= n < count -> In n l) /\ (numbers <> [] -> sublist numbers l /\ forall n, In n l <-> In n numbers /\ n < count).
Proof.
  intros NN H. destruct numbers as [|n0 ns].
  - cbn [boxing_check_files_numbers] in H. injection H as <-. split; [|split; [|split]].
    + apply FinFun.Injective_map_NoDup; [|apply seq_NoDup]. intros a b. lia.
    + apply Forall_forall. intros x I. apply in_map_iff in I. destruct I as (k & <- & I). apply in_seq in I. lia.
    + intros _ n N. apply in_map_iff. exists (Z.to_nat n). split; [lia|]. apply in_seq. lia.
    + congruence.
  - assert (HL : l = check_loop count (n0 :: ns) []) by (unfold boxing_check_files_numbers in H; congruence). rewrite HL. clear H HL. destruct (check_loop_spec count (n0 :: ns) [] (NoDup_nil _)) as (more & H1 & H2 & H3 & H4). rewrite H1. cbn [app] in *.
    split; [exact H2|]. split; [|split; [congruence|]].
    + apply Forall_forall. intros x I. apply H4 in I. rewrite Forall_forall in NN. split; [apply NN|]; tauto.
    + intros _. split; [exact H3|]. intro n. rewrite H4. cbn [In]. tauto.
Qed.
(** A range that ends with the largest int never ends. *)
Theorem C64_range_refuted : get_command_line_parameters [s2z "-read"; s2z "0-2147483647"] = UB.
Proof. reflexivity. Qed.
(** * C65 *)
(** The documented run with -read: the chosen files are recovered, exit status 0, and nothing else changes but control_data.xml and the table of contents. *)
Theorem C65_recover lib args p d bytes tree c t b v0 f l name content tree' v numbers jobs : 
  reads_well lib -> says args nothing_set p -> Forall (fun s => Z.of_nat (length s) < 2 ^ 64) args ->
  pr_input p <> None -> pr_x p <> 0 -> pr_y p <> 0 -> pr_read p = true -> pr_numbers p = Some numbers -> Forall (fun n => 0 <= n) numbers ->
  control_frame lib p d bytes -> load_bytes bytes = Ret (Some tree) -> load_control tree = Some c -> cd_tech c = Some t -> te_format t = Some b ->
  te_tocs t = Some v0 -> vec_list v0 = f :: l -> name <> s2z "control_data.xml" ->
  toc_available lib (with_format (bf_config b) p) d [name; s2z "control_data.xml"] f name content ->
  load_bytes content = Ret (Some tree') -> load_files tree' = Some v -> Z.of_nat (length (vec_list v)) < 2 ^ 32 ->
  Forall2 (fun n job => exists g, nth_error (vec_list v) (Z.to_nat n) = Some g /\
                         recoverable lib (with_format (bf_config b) p) d (name :: s2z "control_data.xml" :: map fst jobs) g (fst job) (snd job))
          (asked numbers (Z.of_nat (length (vec_list v)))) jobs ->
  NoDup (map fst jobs) ->
  exists d', main lib args d = Ok (d', 0) /\ Forall (fun job => d' (fst job) = Some (snd job)) jobs /\
             forall n, ~ In n (name :: s2z "control_data.xml" :: map fst jobs) -> d' n = d n.
Proof.
  intros RW H SZ I X Y RD NU NN CF LB LC T B TV TL NC TA LB' LF SV F2 ND.
  destruct (main_front lib args p d bytes tree c t b H SZ I X Y CF LB LC T B) as (d1 & O1 & E). rewrite E. clear E. rewrite TV, TL.
  set (p' := with_format (bf_config b) p) in *. destruct TA as (FN & Mc & Lc & CK & TA).
  assert (TO : exists d2, toc_loop lib p' (f :: l) None d1 0 = Ok (d2, Some f, 0) /\ d2 name = Some content /\ only_changes d1 d2 name).
  { destruct TA as [TA|(old & T1 & T2 & T3 & T4 & T5)].
    - exists d1. assert (D1 : d1 name = Some content) by (rewrite (O1 name NC); exact TA). split; [now apply (toc_loop_present lib p' f l None d1 0 name content)|]. split; [exact D1|now intros n N].
    - cbn [toc_loop]. rewrite FN, (hash_file lib d1 name old RW T2 T3) by (rewrite (O1 name NC); exact T1). cbn [obind]. rewrite CK.
      rewrite (proj2 (str_eqb_neq _ _) T4).
      destruct (recover lib p' d [name; s2z "control_data.xml"] f name content d1 RW T5) as (d2 & E1 & E2 & E3); [now left| |].
      + intros n N. apply O1. intros ->. apply N. right. now left.
      + rewrite E1. cbn [obind fst snd]. exists d2. split; [reflexivity|]. split; [exact E2|exact E3]. }
  destruct TO as (d2 & TO & D2 & O2). rewrite TO. cbn [obind]. change (negb (0 =? 0)) with false. cbv iota.
  assert (LT : load_toc_files d2 (f_name f) = Ok v).
  { rewrite FN. apply load_toc_spec. unfold fetch. rewrite D2, LB'. now rewrite LF. }
  rewrite LT. cbn [obind]. rewrite RD, NU. change (files_count (Some v)) with (Z.of_nat (length (vec_list v))). rewrite asked_spec.
  assert (AS : Forall (fun n => 0 <= n < Z.of_nat (length (vec_list v))) (asked numbers (Z.of_nat (length (vec_list v))))).
  { destruct (C64_asked numbers (Z.of_nat (length (vec_list v))) _ NN (asked_spec _ _)) as (_ & A & _). exact A. }
  destruct (files_loop_spec lib p' v d (asked numbers (Z.of_nat (length (vec_list v)))) jobs (name :: s2z "control_data.xml" :: map fst jobs) RW) with (dcur := d2) as (d3 & E1 & E2 & E3).
  - assert (G : forall n job, In n (asked numbers (Z.of_nat (length (vec_list v)))) ->
      (exists g, nth_error (vec_list v) (Z.to_nat n) = Some g /\ recoverable lib p' d (name :: s2z "control_data.xml" :: map fst jobs) g (fst job) (snd job)) ->
      0 <= n < 2 ^ 32 /\ exists g, vec_get (Some v) n = Some g /\ recoverable lib p' d (name :: s2z "control_data.xml" :: map fst jobs) g (fst job) (snd job)).
    { intros n job A (g & G1 & G2). rewrite Forall_forall in AS. specialize (AS n A). split; [lia|]. exists g. split; [|exact G2]. rewrite vec_get_nth by lia. destruct v; exact G1. }
    clear -F2 G. revert F2 G. generalize (asked numbers (Z.of_nat (length (vec_list v)))) as ns. generalize (name :: s2z "control_data.xml" :: map fst jobs) as outs.
    intros outs ns F2. induction F2 as [|n job ns jobs R F2 IH]; intro G; constructor.
    + apply G; [now left|exact R].
    + apply IH. intros m j A. apply G. now right.
  - exact ND.
  - intros x Hx. right. now right.
  - intros n N. cbn [In] in N. rewrite (O2 n), (O1 n); [reflexivity| |]; intros ->; apply N; tauto.
  - rewrite E1. cbn [obind]. exists d3. split; [reflexivity|]. split; [exact E2|]. intros n N. cbn [In] in N. rewrite E3 by tauto. rewrite (O2 n), (O1 n); [reflexivity| |]; intros ->; apply N; tauto.
Qed.
(** No control frame: exit status -1; a control_data.xml from an earlier run is not used, and no other file changes. *)
Theorem C65_no_control lib args p d template name im : says args nothing_set p -> Forall (fun s => Z.of_nat (length s) < 2 ^ 64) args ->
  pr_input p = Some template -> pr_x p <> 0 -> pr_y p <> 0 -> lib_creatable lib (s2z "control_data.xml") = true ->
  get_input_file_name template 1 = Ok name -> name <> s2z "control_data.xml" -> read_input_file (lib_fresh lib) d name (u32 (pr_x p)) (u32 (pr_y p)) = Ok im ->
  no_control_frame lib p im ->
  exists d', main lib args d = Ok (d', -1) /\ only_changes d d' (s2z "control_data.xml").
Proof.
  intros H SZ I X Y C N NC R NO. change (s2z "control_data.xml") with CONTROL_FILE in *.
  unfold main. rewrite (parameters_spec args p H SZ) by (auto; congruence). cbn [obind]. rewrite I. unfold unbox_control. rewrite I, N. cbn [obind]. rewrite C. cbn [negb].
  rewrite (read_input_ext _ _ d) by (unfold write_file; destruct (str_eqb_spec name CONTROL_FILE); congruence). rewrite R. cbn [obind].
  destruct (control_loop_none lib (pr_raw p) im (rev (lib_control_formats lib))) with (d := write_file d CONTROL_FILE []) (result := -1) as (H1 & H2).
  { now apply Forall_rev. } { right. unfold write_file. now rewrite str_eqb_refl. }
  destruct (control_loop lib (pr_raw p) im (rev (lib_control_formats lib)) (write_file d CONTROL_FILE []) (-1)) as (d1 & r). cbn [fst] in *.
  assert (FE : fetch load_control true d1 CONTROL_FILE = Ok None).
  { unfold fetch. destruct H1 as [-> | ->]; [reflexivity|]. reflexivity. }
  rewrite FE. cbn [obind]. exists d1. split; [reflexivity|]. intros n Nn. rewrite (H2 n Nn). unfold write_file. destruct (str_eqb_spec n CONTROL_FILE); congruence.
Qed.
(** The table of contents is not there yet, as on a first run: undefined behaviour (strcmp with NULL). *)
Theorem C65_first_run_refuted lib args p d bytes tree c t b v0 f l : says args nothing_set p -> Forall (fun s => Z.of_nat (length s) < 2 ^ 64) args ->
  pr_input p <> None -> pr_x p <> 0 -> pr_y p <> 0 ->
  control_frame lib p d bytes -> load_bytes bytes = Ret (Some tree) -> load_control tree = Some c -> cd_tech c = Some t -> te_format t = Some b ->
  te_tocs t = Some v0 -> vec_list v0 = f :: l -> f_name f <> Some (s2z "control_data.xml") -> match f_name f with Some n => d n = None | None => True end ->
  main lib args d = UB.
Proof.
  intros H SZ I X Y CF LB LC T B TV TL NC NF.
  destruct (main_front lib args p d bytes tree c t b H SZ I X Y CF LB LC T B) as (d1 & O1 & E). rewrite E. clear E. rewrite TV, TL. cbn [toc_loop].
  assert (HS : sha1_of lib d1 (f_name f) = Ok None).
  { unfold sha1_of, afs_sha1_sum1. destruct (f_name f) as [n|].
    - rewrite (O1 n) by (intros ->; now apply NC). rewrite NF. exact (proj1 (proj2 (proj2 (PropSha.C03_no_string (lib_long lib) (lib_junk lib) (lib_reader lib) (Some n) None 0 (-1))))).
    - exact (proj1 (PropSha.C03_no_string (lib_long lib) (lib_junk lib) (lib_reader lib) None None 0 (-1))). }
  rewrite HS. cbn [obind]. now destruct (f_checksum f).
Qed.
(** No entry for a table of contents: undefined behaviour. *)
Theorem C65_no_toc_refuted lib args p d bytes tree c t b : says args nothing_set p -> Forall (fun s => Z.of_nat (length s) < 2 ^ 64) args ->
  pr_input p <> None -> pr_x p <> 0 -> pr_y p <> 0 ->
  control_frame lib p d bytes -> load_bytes bytes = Ret (Some tree) -> load_control tree = Some c -> cd_tech c = Some t -> te_format t = Some b ->
  match te_tocs t with Some v => vec_list v | None => [] end = [] -> main lib args d = UB.
Proof.
  intros H SZ I X Y CF LB LC T B TV.
  destruct (main_front lib args p d bytes tree c t b H SZ I X Y CF LB LC T B) as (d1 & O1 & E). rewrite E. clear E. rewrite TV. reflexivity.
Qed.
(** The first table of contents cannot be recovered, the second one is there: the tool gives up all the same. *)
Theorem C65_second_toc_refuted lib args p d bytes tree c t b v0 f g l name old name2 content :
  reads_well lib -> says args nothing_set p -> Forall (fun s => Z.of_nat (length s) < 2 ^ 64) args ->
  pr_input p <> None -> pr_x p <> 0 -> pr_y p <> 0 ->
  control_frame lib p d bytes -> load_bytes bytes = Ret (Some tree) -> load_control tree = Some c -> cd_tech c = Some t -> te_format t = Some b ->
  te_tocs t = Some v0 -> vec_list v0 = f :: g :: l ->
  f_name f = Some name -> name <> s2z "control_data.xml" -> d name = Some old -> message old -> Z.of_nat (length old) < 2 ^ 61 ->
  f_checksum f <> None -> f_checksum f <> Some (hexadecimal (SHA1 old)) ->
  (forall d1, exists d2 r, unbox_file lib (with_format (bf_config b) p) f d1 = Ok (d2, r) /\ r <> 0 /\ d2 name2 = d1 name2) ->
  f_name g = Some name2 -> name2 <> s2z "control_data.xml" -> d name2 = Some content -> message content -> Z.of_nat (length content) < 2 ^ 61 -> f_checksum g = Some (hexadecimal (SHA1 content)) ->
  exists d', main lib args d = Ok (d', -1).
Proof.
  intros RW H SZ I X Y CF LB LC T B TV TL FN NC DO MO LO CN CK UF GN NC2 DC MC LC2 CG.
  destruct (main_front lib args p d bytes tree c t b H SZ I X Y CF LB LC T B) as (d1 & O1 & E). rewrite E. clear E. rewrite TV, TL.
  remember (g :: l) as gl eqn:GL. cbn [toc_loop]. subst gl. rewrite FN, (hash_file lib d1 name old RW MO LO) by (rewrite (O1 name NC); exact DO). cbn [obind].
  destruct (f_checksum f) as [ck|]; [|congruence]. assert (ST : str_eqb ck (hexadecimal (SHA1 old)) = false) by (apply str_eqb_neq; congruence). rewrite ST.
  destruct (UF d1) as (d2 & r & U1 & U2 & U3). rewrite U1. cbn [obind fst snd]. replace (r =? 0) with false by lia.
  rewrite (toc_loop_present lib _ g l (Some f) d2 r name2 content RW GN) by (auto; rewrite U3, (O1 name2 NC2); exact DC). cbn [obind]. replace (r =? 0) with false by lia. cbn [negb]. exists d2. reflexivity.
Qed.

(** * Witnesses *)
(** 8 by 2 pixels of 2 bits: byte 0xE4 is 0, 1, 2, 3 from the lowest bits up. *)
Example C63_witness : read_input_file (fun _ => 0) (fun n => if str_eqb n (s2z "f") then Some [228; 0; 255; 27] else None) (s2z "f") 8 2 <> UB /\
  match read_input_file (fun _ => 0) (fun n => if str_eqb n (s2z "f") then Some [228; 0; 255; 27] else None) (s2z "f") 8 2 with
  | Ok (Some im) => str_eqb (firstn 16 (im_data im)) [0; 85; 170; 255; 0; 0; 0; 0; 255; 255; 255; 255; 255; 170; 85; 0] | _ => false end = true.
Proof. split; [discriminate|]. vm_compute. reflexivity. Qed.
Definition ex_args := [s2z "-i"; s2z "f*d"; s2z "-s"; s2z "2"; s2z "4"; s2z "-read"; s2z "5-7"; s2z "0"; s2z "0"].
Definition ex_p := mkParameters (Some (s2z "f*d")) None false true 2 4 (Some [5; 6; 7; 0; 0]) false.
Lemma ex_digits s : boxing_is_digit s = true -> digits s. Proof. apply is_digit_spec. Qed.
Lemma ex_says : says ex_args nothing_set ex_p.
Proof.
  apply says_input. apply says_size; [apply ex_digits; reflexivity|apply ex_digits; reflexivity|reflexivity|reflexivity|].
  apply (says_read [s2z "5-7"; s2z "0"; s2z "0"] [[5; 6; 7]; [0]; [0]] []); [|apply says_nothing].
  constructor; [apply (denotes_range (s2z "5") (s2z "7")); try reflexivity; apply ex_digits; reflexivity|].
  constructor; [apply (denotes_number (s2z "0")); [apply ex_digits; reflexivity|reflexivity]|].
  constructor; [apply (denotes_number (s2z "0")); [apply ex_digits; reflexivity|reflexivity]|constructor].
Qed.
Example C64_witness : says ex_args nothing_set ex_p /\ get_command_line_parameters ex_args = Ok ex_p /\ boxing_check_files_numbers (pr_numbers ex_p) 7 = Some [5; 6; 0].
Proof. split; [exact ex_says|]. split; reflexivity. Qed.
(** A reel: the control frame, the table of contents in a file, and the frames of C60_witness. *)
Definition ex_doc (k : list node) : list Z := match save_indented true (k, true) (guarded no_ws) false with Ok (Some s) => s | _ => [] end.
Definition ex_dated : toc_file := mkFile (f_name ex_entry) (Some (s2z "2024")) (f_checksum ex_entry) 12 1 7 2 9 5 None FILE_NO_PARENT 1 None None None.
Definition ex_content : list Z := Eval vm_compute in ex_doc (fst (save_files (Some (Some [ex_dated])))).
Definition ex_toc_entry : toc_file := mkFile (Some (s2z "toc.xml")) (Some (s2z "2024")) (Some (hexadecimal (SHA1 ex_content))) 12 1 3 0 4 1 None FILE_NO_PARENT 1 None None None.
Definition ex_control_bytes : list Z := Eval vm_compute in ex_doc (fst (save_control (mkControl (Some ex_admin) (Some (mkTech (Some (mkFormat (Some ex_config))) (Some (Some [ex_toc_entry])) None))))).
Definition ex_tree : node := Eval vm_compute in match load_bytes ex_control_bytes with Ret (Some t) => t | _ => Elem [] [] [] end.
Definition ex_tree2 : node := Eval vm_compute in match load_bytes ex_content with Ret (Some t) => t | _ => Elem [] [] [] end.
Definition ex_c : control := Eval vm_compute in match load_control ex_tree with Some c => c | None => mkControl None None end.
Definition ex_t : tech := Eval vm_compute in match cd_tech ex_c with Some t => t | None => mkTech None None None end.
Definition ex_b : bformat := Eval vm_compute in match te_format ex_t with Some b => b | None => mkFormat None end.
Definition ex_v : files := Eval vm_compute in match load_files ex_tree2 with Some v => v | None => None end.
Definition ex_f : toc_file := Eval vm_compute in match te_tocs ex_t with Some (Some (f :: _)) => f | _ => ex_dated end.
Definition ex_g : toc_file := Eval vm_compute in match ex_v with Some (f :: _) => f | _ => ex_dated end.
Definition ex_reel : disk := fun n => if str_eqb n (s2z "f1") then Some [9;9;9;9;9;9;9;9] else if str_eqb n (s2z "toc.xml") then Some ex_content else ex_frames n.
Definition ex_lib : library :=
  mkLibrary (fun c _ => match c with None => Some (fun _ => mkDecoded 0 ex_control_bytes (Some 1)) | Some _ => Some ex_decoder end) (fun _ => 2) [None] 1 (fun _ => true) (fun _ => 0) 64 (repeat 0 64) (Reader (fun _ => O) (fun _ => false) 0).
Lemma ex_lib_reads : reads_well ex_lib.
Proof. split; [now right|]. split; [reflexivity|]. intro; reflexivity. Qed.
Definition ex_p1 := with_format (bf_config ex_b) ex_p.
Lemma ex_lib_frame i l name outs : get_input_file_name (s2z "f*d") i = Ok name -> existsb (str_eqb name) outs = false ->
  read_input_file (lib_fresh ex_lib) ex_reel name 2 4 = Ok (ex_image l) ->
  exists name, get_input_file_name (s2z "f*d") i = Ok name /\ ~ In name outs /\ read_input_file (lib_fresh ex_lib) ex_reel name (u32 (pr_x ex_p1)) (u32 (pr_y ex_p1)) = Ok (ex_image l).
Proof.
  intros H1 H2 H3. exists name. split; [exact H1|]. split; [|exact H3]. intro I. assert (existsb (str_eqb name) outs = true); [|congruence].
  apply existsb_exists. exists name. split; [exact I|apply str_eqb_refl].
Qed.
Lemma ex_recoverable : recoverable ex_lib ex_p1 ex_reel [s2z "toc.xml"; s2z "control_data.xml"; s2z "a.bin"] ex_g (s2z "a.bin") ex_placed.
Proof.
  exists (s2z "f*d"), ex_decoder, ex_images, [[]], ex_data.
  split; [split; [reflexivity|]; split; [discriminate|]; split; [discriminate|]; split; [discriminate|]; split; [discriminate|reflexivity]|].
  split; [reflexivity|]. split; [reflexivity|]. split.
  { change (from_to (f_start_frame ex_g) (f_end_frame ex_g)) with [7; 8; 9]. unfold ex_images. constructor; [|constructor; [|constructor; [|constructor]]].
    - apply (ex_lib_frame _ _ (s2z "f7")); reflexivity.
    - apply (ex_lib_frame _ _ (s2z "f8")); reflexivity.
    - apply (ex_lib_frame _ _ (s2z "f9")); reflexivity. }
  split; [reflexivity|]. split; [constructor; [reflexivity|constructor]|]. split; [split; [reflexivity|]; cbn; lia|].
  split; [constructor; [|constructor; [|constructor]]; now apply ex_message|]. split; [constructor; [|constructor; [|constructor]]; reflexivity|].
  split; [reflexivity|]. split; [reflexivity|]. split; [split; [discriminate|]; cbn; lia|]. split; [cbn; lia|]. split; [reflexivity|]. vm_compute. reflexivity.
Qed.
(** The hypotheses of C65_recover are met. *)
Example C65_witness : exists d', main ex_lib ex_args ex_reel = Ok (d', 0) /\ d' (s2z "a.bin") = Some ex_placed.
Proof.
  destruct (C65_recover ex_lib ex_args ex_p ex_reel ex_control_bytes ex_tree ex_c ex_t ex_b (Some [ex_f]) ex_f [] (s2z "toc.xml") ex_content ex_tree2 ex_v [5; 6; 7; 0; 0] [(s2z "a.bin", ex_placed)]) as (d' & H1 & H2 & _).
  - exact ex_lib_reads.
  - exact ex_says.
  - unfold ex_args. repeat (apply Forall_cons; [reflexivity|]). apply Forall_nil.
  - discriminate.
  - discriminate.
  - discriminate.
  - reflexivity.
  - reflexivity.
  - repeat (apply Forall_cons; [lia|]). apply Forall_nil.
  - exists (s2z "f*d"), (s2z "f1"), (ex_image [9;9;9;9;9;9;9;9]), [], None, [], (fun _ => mkDecoded 0 ex_control_bytes (Some 1)).
    split; [reflexivity|]. split; [reflexivity|]. split; [discriminate|]. split; [reflexivity|]. split; [reflexivity|]. split; [reflexivity|]. split; [constructor|].
    split; [reflexivity|]. split; [reflexivity|]. split; [now right|]. split; reflexivity.
  - vm_compute. reflexivity.
  - vm_compute. reflexivity.
  - reflexivity.
  - reflexivity.
  - reflexivity.
  - reflexivity.
  - discriminate.
  - split; [reflexivity|]. split; [apply ex_message; vm_compute; reflexivity|]. split; [vm_compute; reflexivity|]. split; [vm_compute; reflexivity|]. left. reflexivity.
  - vm_compute. reflexivity.
  - vm_compute. reflexivity.
  - reflexivity.
  - change (asked [5; 6; 7; 0; 0] (Z.of_nat (length (vec_list ex_v)))) with [0]. constructor; [|constructor]. exists ex_g. split; [reflexivity|exact ex_recoverable].
  - constructor; [intros []|constructor].
  - exists d'. split; [exact H1|]. now apply Forall_inv in H2.
Qed.
(** Without the file toc.xml the same run is undefined. *)
Example C65_first_run_witness : main ex_lib ex_args (remove_file ex_reel (s2z "toc.xml")) = UB.
Proof. vm_compute. reflexivity. Qed.
(** An image that is no control frame. *)
Example C65_no_control_witness : no_control_frame (mkLibrary (fun _ _ => Some (fun _ => mkDecoded 0 [1] (Some 2))) (fun _ => 1) [None; None] 1 (fun _ => true) (fun _ => 0) 64 [] (Reader (fun _ => O) (fun _ => false) 0)) ex_p None.
Proof. constructor; [|constructor; [|constructor]]; intros dec E; injection E as <-; right; exists 2; split; try reflexivity; discriminate. Qed.
Print Assumptions C63_depth.
Print Assumptions C63_ambiguous_refuted.
Print Assumptions C63_pixels.
Print Assumptions C63_scale.
Print Assumptions C63_no_image.
Print Assumptions C63_empty_file.
Print Assumptions C64_options.
Print Assumptions C64_incomplete.
Print Assumptions C64_chosen.
Print Assumptions C64_asked.
Print Assumptions C64_range_refuted.
Print Assumptions C65_recover.
Print Assumptions C65_no_control.
Print Assumptions C65_first_run_refuted.
Print Assumptions C65_no_toc_refuted.
Print Assumptions C65_second_toc_refuted.
