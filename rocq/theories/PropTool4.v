(** C65: chosen files that cannot be recovered. *)
From Verif Require Import CBase CBaseProofs XmlModel TocModel TocXmlModel BuildModel BuildProofs FileModel ImageModel ShaModel SpecSha ControlModel LoadModel WsModel ToolModel SpecTool SpecTool2 ToolProofs ToolProofs2 ToolProofs3 ToolProofs4 ToolProofs5 ToolProofs6 PropTool PropControl ToolProofs8 PropTool2.
Notation length := List.length.
Local Open Scope Z_scope.

(** One damaged file: reported as failed, its file holds what was decoded. *)
Theorem C65_damaged_file lib p d outs f out bytes : reads_well lib -> damaged lib p d outs f out bytes -> In out outs ->
  exists d' r, unbox_file lib p f d = Ok (d', r) /\ r <> 0 /\ d' out = Some bytes /\ only_changes d d' out.
Proof.
  intros RW D I. destruct (attempt_spec lib p d outs f (out, Some bytes) d RW (attempt_damaged _ _ _ _ _ _ _ D) I (fun n _ => eq_refl)) as (d' & r & H1 & H2 & H3 & H4).
  exists d', r. split; [exact H1|]. split; [now apply H4|]. split; [exact H2|exact H3].
Qed.
(** The run with -read, with any of the chosen files damaged or impossible to create: the others are recovered all the same; the exit status is 0;
    a damaged file is on the disk with the bytes that were decoded. *)
Theorem C65_each_file lib args p d bytes tree c t b v0 f l name content tree' v numbers jobs : 
  reads_well lib -> says args nothing_set p -> Forall (fun s => Z.of_nat (length s) < 2 ^ 64) args ->
  pr_input p <> None -> pr_x p <> 0 -> pr_y p <> 0 -> pr_read p = true -> pr_numbers p = Some numbers -> Forall (fun n => 0 <= n) numbers ->
  control_frame lib p d bytes -> load_bytes bytes = Ret (Some tree) -> load_control tree = Some c -> cd_tech c = Some t -> te_format t = Some b ->
  te_tocs t = Some v0 -> vec_list v0 = f :: l -> name <> s2z "control_data.xml" ->
  toc_available lib (with_format (bf_config b) p) d [name; s2z "control_data.xml"] f name content ->
  load_bytes content = Ret (Some tree') -> load_files tree' = Some v -> Z.of_nat (length (vec_list v)) < 2 ^ 32 ->
  Forall2 (fun n job => exists g, nth_error (vec_list v) (Z.to_nat n) = Some g /\
                         attempt lib (with_format (bf_config b) p) d (name :: s2z "control_data.xml" :: map fst jobs) g job)
          (asked numbers (Z.of_nat (length (vec_list v)))) jobs ->
  NoDup (map fst jobs) -> ~ In name (map fst jobs) -> ~ In (s2z "control_data.xml") (map fst jobs) ->
  exists d', main lib args d = Ok (d', 0) /\
             Forall (fun job => d' (fst job) = match snd job with Some content => Some content | None => d (fst job) end) jobs /\
             forall n, ~ In n (name :: s2z "control_data.xml" :: map fst jobs) -> d' n = d n.
Proof.
  intros RW H SZ I X Y RD NU NN CF LB LC T B TV TL NC TA LB' LF SV F2 ND NJ1 NJ2.
  destruct (main_front lib args p d bytes tree c t b H SZ I X Y CF LB LC T B) as (d1 & O1 & E). rewrite E. clear E. rewrite TV, TL.
  set (p' := with_format (bf_config b) p) in *. destruct TA as (FN & Mc & Lc & CK & TA).
  assert (TO : exists d2, toc_loop lib p' (f :: l) None d1 0 = Ok (d2, Some f, 0) /\ d2 name = Some content /\ only_changes d1 d2 name).
  { destruct TA as [TA|(old & T1 & T2 & T3 & T4 & T5)].
    - exists d1. assert (D1 : d1 name = Some content) by (rewrite (O1 name NC); exact TA). split; [now apply (toc_loop_present lib p' f l None d1 0 name content)|]. split; [exact D1|now intros n N].
    - cbn [toc_loop]. rewrite FN, (hash_file lib d1 name old RW T2 T3) by (rewrite (O1 name NC); exact T1). cbn [obind]. rewrite CK.
      rewrite (proj2 (str_eqb_neq _ _) T4).
      destruct (recover lib p' d [name; s2z "control_data.xml"] f name content d1 RW T5) as (d2 & E1 & E2 & E3); [now left| |].
      + intros n N. apply O1. intros ->. apply N. right. now left.
      + rewrite E1. cbn [obind fst snd]. exists d2. split; [reflexivity|]. split; [exact E2|exact E3]. }
  destruct TO as (d2 & TO & D2 & O2). rewrite TO. cbn [obind]. change (negb (0 =? 0)) with false. cbv iota.
  assert (LT : load_toc_files d2 (f_name f) = Ok v).
  { rewrite FN. apply load_toc_spec. unfold fetch. rewrite D2, LB'. now rewrite LF. }
  rewrite LT. cbn [obind]. rewrite RD, NU. change (files_count (Some v)) with (Z.of_nat (length (vec_list v))). rewrite asked_spec.
  assert (AS : Forall (fun n => 0 <= n < Z.of_nat (length (vec_list v))) (asked numbers (Z.of_nat (length (vec_list v))))).
  { destruct (C64_asked numbers (Z.of_nat (length (vec_list v))) _ NN (asked_spec _ _)) as (_ & A & _). exact A. }
  destruct (files_loop_attempts lib p' v d (asked numbers (Z.of_nat (length (vec_list v)))) jobs (name :: s2z "control_data.xml" :: map fst jobs) RW) with (dcur := d2) as (d3 & E1 & E2 & E3).
  - assert (G : forall n job, In n (asked numbers (Z.of_nat (length (vec_list v)))) ->
      (exists g, nth_error (vec_list v) (Z.to_nat n) = Some g /\ attempt lib p' d (name :: s2z "control_data.xml" :: map fst jobs) g job) ->
      0 <= n < 2 ^ 32 /\ exists g, vec_get (Some v) n = Some g /\ attempt lib p' d (name :: s2z "control_data.xml" :: map fst jobs) g job).
    { intros n job A (g & G1 & G2). rewrite Forall_forall in AS. specialize (AS n A). split; [lia|]. exists g. split; [|exact G2]. rewrite vec_get_nth by lia. destruct v; exact G1. }
    clear -F2 G. revert F2 G. generalize (asked numbers (Z.of_nat (length (vec_list v)))) as ns. generalize (name :: s2z "control_data.xml" :: map fst jobs) as outs.
    intros outs ns F2. induction F2 as [|n job ns jobs R F2 IH]; intro G; constructor.
    + apply G; [now left|exact R].
    + apply IH. intros m j A. apply G. now right.
  - exact ND.
  - intros x Hx. right. now right.
  - intros n N. cbn [In] in N. rewrite (O2 n), (O1 n); [reflexivity| |]; intros ->; apply N; tauto.
  - rewrite E1. cbn [obind]. exists d3. split; [reflexivity|]. split.
    + apply Forall_forall. intros job J. rewrite Forall_forall in E2. specialize (E2 job J). unfold left_by in E2. rewrite E2. destruct (snd job); [reflexivity|].
      assert (IJ : In (fst job) (map fst jobs)) by now apply in_map. rewrite (O2 (fst job)), (O1 (fst job)); [reflexivity| |]; intros Q; rewrite Q in IJ; contradiction.
    + intros n N. cbn [In] in N. rewrite E3 by tauto. rewrite (O2 n), (O1 n); [reflexivity| |]; intros ->; apply N; tauto.
Qed.
(** * Witness: the first chosen file cannot be created, the second is damaged, the third is recovered *)
Definition ex_named n c : toc_file := mkFile (Some n) (Some (s2z "2024")) c 12 1 7 2 9 5 None FILE_NO_PARENT 1 None None None.
Definition ex_list : list toc_file := [ex_named (s2z "d/c.bin") (f_checksum ex_entry); ex_named (s2z "b.bin") (Some (s2z "0000")); ex_dated].
Definition ex_content3 : list Z := Eval vm_compute in ex_doc (fst (save_files (Some (Some ex_list)))).
Definition ex_toc_entry3 : toc_file := mkFile (Some (s2z "toc.xml")) (Some (s2z "2024")) (Some (hexadecimal (SHA1 ex_content3))) 12 1 3 0 4 1 None FILE_NO_PARENT 1 None None None.
Definition ex_control_bytes3 : list Z := Eval vm_compute in ex_doc (fst (save_control (mkControl (Some ex_admin) (Some (mkTech (Some (mkFormat (Some ex_config))) (Some (Some [ex_toc_entry3])) None))))).
Definition ex_tree_3 : node := Eval vm_compute in match load_bytes ex_control_bytes3 with Ret (Some t) => t | _ => Elem [] [] [] end.
Definition ex_tree2_3 : node := Eval vm_compute in match load_bytes ex_content3 with Ret (Some t) => t | _ => Elem [] [] [] end.
Definition ex_c3 : control := Eval vm_compute in match load_control ex_tree_3 with Some c => c | None => mkControl None None end.
Definition ex_t3 : tech := Eval vm_compute in match cd_tech ex_c3 with Some t => t | None => mkTech None None None end.
Definition ex_b3 : bformat := Eval vm_compute in match te_format ex_t3 with Some b => b | None => mkFormat None end.
Definition ex_v3 : files := Eval vm_compute in match load_files ex_tree2_3 with Some v => v | None => None end.
Definition ex_f3 : toc_file := Eval vm_compute in match te_tocs ex_t3 with Some (Some (f :: _)) => f | _ => ex_dated end.
Definition ex_nth k : toc_file := nth k (vec_list ex_v3) ex_dated.
Definition ex_g0 : toc_file := Eval vm_compute in ex_nth 0.
Definition ex_g1 : toc_file := Eval vm_compute in ex_nth 1.
Definition ex_g2 : toc_file := Eval vm_compute in ex_nth 2.
Definition ex_reel3 : disk := fun n => if str_eqb n (s2z "f1") then Some [9;9;9;9;9;9;9;9] else if str_eqb n (s2z "toc.xml") then Some ex_content3 else ex_frames n.
Definition ex_lib3 : library :=
  mkLibrary (fun c _ => match c with None => Some (fun _ => mkDecoded 0 ex_control_bytes3 (Some 1)) | Some _ => Some ex_decoder end) (fun _ => 2) [None] 1 (fun n => negb (str_eqb n (s2z "c.bin"))) (fun _ => 0) 64 (repeat 0 64) (Reader (fun _ => O) (fun _ => false) 0).
Definition ex_args3 := [s2z "-i"; s2z "f*d"; s2z "-s"; s2z "2"; s2z "4"; s2z "-read"; s2z "0-2"].
Definition ex_p3 := mkParameters (Some (s2z "f*d")) None false true 2 4 (Some [0; 1; 2]) false.
Definition ex_p3' := with_format (bf_config ex_b3) ex_p3.
Lemma ex_says3 : says ex_args3 nothing_set ex_p3.
Proof.
  apply says_input. apply says_size; [apply ex_digits; reflexivity|apply ex_digits; reflexivity|reflexivity|reflexivity|].
  apply (says_read [s2z "0-2"] [[0; 1; 2]] []); [|apply says_nothing].
  constructor; [apply (denotes_range (s2z "0") (s2z "2")); try reflexivity; apply ex_digits; reflexivity|constructor].
Qed.
Lemma ex_frame3 i l name outs : get_input_file_name (s2z "f*d") i = Ok name -> existsb (str_eqb name) outs = false ->
  read_input_file (lib_fresh ex_lib3) ex_reel3 name 2 4 = Ok (ex_image l) ->
  exists name, get_input_file_name (s2z "f*d") i = Ok name /\ ~ In name outs /\ read_input_file (lib_fresh ex_lib3) ex_reel3 name (u32 (pr_x ex_p3')) (u32 (pr_y ex_p3')) = Ok (ex_image l).
Proof.
  intros H1 H2 H3. exists name. split; [exact H1|]. split; [|exact H3]. intro I. assert (existsb (str_eqb name) outs = true); [|congruence].
  apply existsb_exists. exists name. split; [exact I|apply str_eqb_refl].
Qed.
Definition ex_outs3 := [s2z "toc.xml"; s2z "control_data.xml"; s2z "c.bin"; s2z "b.bin"; s2z "a.bin"].
Ltac ex_parts := split; [split; [reflexivity|]; split; [discriminate|]; split; [discriminate|]; split; [discriminate|]; split; [discriminate|reflexivity]|];
  split; [reflexivity|]; split; [reflexivity|]; split;
  [unfold ex_images; constructor; [|constructor; [|constructor; [|constructor]]];
    [apply (ex_frame3 _ _ (s2z "f7")); reflexivity | apply (ex_frame3 _ _ (s2z "f8")); reflexivity | apply (ex_frame3 _ _ (s2z "f9")); reflexivity]|];
  split; [reflexivity|]; split; [constructor; [reflexivity|constructor]|]; split; [split; [reflexivity|]; cbn; lia|];
  split; [constructor; [|constructor; [|constructor]]; now apply ex_message|]; split; [constructor; [|constructor; [|constructor]]; reflexivity|];
  split; [reflexivity|].
Lemma ex_recoverable3 : recoverable ex_lib3 ex_p3' ex_reel3 ex_outs3 ex_g2 (s2z "a.bin") ex_placed.
Proof.
  exists (s2z "f*d"), ex_decoder, ex_images, [[]], ex_data. ex_parts.
  split; [reflexivity|]. split; [split; [discriminate|]; cbn; lia|]. split; [cbn; lia|]. split; [reflexivity|]. vm_compute. reflexivity.
Qed.
Lemma ex_damaged3 : damaged ex_lib3 ex_p3' ex_reel3 ex_outs3 ex_g1 (s2z "b.bin") ex_placed.
Proof.
  exists (s2z "f*d"), ex_decoder, ex_images, [[]], ex_data, (s2z "0000"). ex_parts.
  split; [split; [discriminate|]; cbn; lia|]. split; [cbn; lia|]. split; [reflexivity|]. split; [reflexivity|]. left.
  apply str_eqb_neq. vm_compute. reflexivity.
Qed.
Example C65_each_witness : exists d', main ex_lib3 ex_args3 ex_reel3 = Ok (d', 0) /\ d' (s2z "a.bin") = Some ex_placed /\ d' (s2z "b.bin") = Some ex_placed /\ d' (s2z "c.bin") = None.
Proof.
  destruct (C65_each_file ex_lib3 ex_args3 ex_p3 ex_reel3 ex_control_bytes3 ex_tree_3 ex_c3 ex_t3 ex_b3 (Some [ex_f3]) ex_f3 [] (s2z "toc.xml") ex_content3 ex_tree2_3 ex_v3 [0; 1; 2]
    [(s2z "c.bin", None); (s2z "b.bin", Some ex_placed); (s2z "a.bin", Some ex_placed)]) as (d' & H1 & H2 & _).
  - split; [now right|]. split; [reflexivity|]. intro; reflexivity.
  - exact ex_says3.
  - unfold ex_args3. repeat (apply Forall_cons; [reflexivity|]). apply Forall_nil.
  - discriminate.
  - discriminate.
  - discriminate.
  - reflexivity.
  - reflexivity.
  - repeat (apply Forall_cons; [lia|]). apply Forall_nil.
  - exists (s2z "f*d"), (s2z "f1"), (ex_image [9;9;9;9;9;9;9;9]), [], None, [], (fun _ => mkDecoded 0 ex_control_bytes3 (Some 1)).
    split; [reflexivity|]. split; [reflexivity|]. split; [discriminate|]. split; [reflexivity|]. split; [reflexivity|]. split; [reflexivity|]. split; [constructor|].
    split; [reflexivity|]. split; [reflexivity|]. split; [now right|]. split; reflexivity.
  - vm_compute. reflexivity.
  - vm_compute. reflexivity.
  - reflexivity.
  - reflexivity.
  - reflexivity.
  - reflexivity.
  - discriminate.
  - split; [reflexivity|]. split; [apply ex_message; vm_compute; reflexivity|]. split; [vm_compute; reflexivity|]. split; [vm_compute; reflexivity|]. left. reflexivity.
  - vm_compute. reflexivity.
  - vm_compute. reflexivity.
  - reflexivity.
  - change (asked [0; 1; 2] (Z.of_nat (length (vec_list ex_v3)))) with [0; 1; 2]. change (s2z "toc.xml" :: s2z "control_data.xml" :: map fst _) with ex_outs3.
    constructor; [|constructor; [|constructor; [|constructor]]].
    + exists ex_g0. split; [reflexivity|]. apply attempt_uncreatable; reflexivity.
    + exists ex_g1. split; [reflexivity|]. apply attempt_damaged. exact ex_damaged3.
    + exists ex_g2. split; [reflexivity|]. apply attempt_good. exact ex_recoverable3.
  - cbn [map fst]. repeat (constructor; [cbn [In]; intuition discriminate|]). constructor.
  - cbn [map fst In]. intuition discriminate.
  - cbn [map fst In]. intuition discriminate.
  - exists d'. split; [exact H1|]. inversion H2 as [|? ? A1 H3]; subst. inversion H3 as [|? ? A2 H4]; subst. inversion H4 as [|? ? A3 _]; subst.
    split; [exact A3|]. split; [exact A2|exact A1].
Qed.
Print Assumptions C65_damaged_file.
Print Assumptions C65_each_file.
