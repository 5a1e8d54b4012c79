(** The whole run of the recovery tool. *)
From Verif Require Import CBase CBaseProofs XmlModel TocModel TocXmlModel BuildModel FileModel ImageModel ShaModel SpecSha ControlModel LoadModel SpecLoad LoadProofs ToolModel SpecTool SpecTool2 ToolProofs ToolProofs2 ToolProofs3 ToolProofs5 PropTool.
Notation length := List.length.
Local Open Scope Z_scope.

Lemma recover lib p d outs f out bytes dcur : reads_well lib -> recoverable lib p d outs f out bytes -> In out outs -> (forall n, ~ In n outs -> dcur n = d n) ->
  exists d', unbox_file lib p f dcur = Ok (d', 0) /\ d' out = Some bytes /\ only_changes dcur d' out.
Proof.
  intros RW (template & dec & images & empty & frames & R & P & C & F2 & M & Fe & FR & FM & FS & FL & LR & W & N1 & -> & CK) I EQ.
  apply (C60_extract lib p f dcur template dec out images empty frames); auto.
  revert F2. apply Forall2_weaken. intros i im (name & H1 & H2 & H3). exists name. split; [exact H1|]. split; [intros ->; contradiction|]. rewrite <- H3. apply read_input_ext. now apply EQ.
Qed.
Lemma u32_small n : 0 <= n < 2 ^ 32 -> u32 n = n. Proof. intro. unfold u32. now apply Z.mod_small. Qed.
Lemma files_loop_spec lib p v d numbers jobs outs : reads_well lib ->
  Forall2 (fun n job => 0 <= n < 2 ^ 32 /\ exists f, vec_get (Some v) n = Some f /\ recoverable lib p d outs f (fst job) (snd job)) numbers jobs ->
  NoDup (map fst jobs) -> incl (map fst jobs) outs ->
  forall dcur, (forall n, ~ In n outs -> dcur n = d n) ->
  exists d', files_loop lib p v numbers dcur = Ok d' /\ Forall (fun job => d' (fst job) = Some (snd job)) jobs /\ (forall n, ~ In n (map fst jobs) -> d' n = dcur n).
Proof.
  intros RW F. induction F as [|n job numbers jobs (B & f & G & R) F IH]; intros ND IN dcur EQ.
  - exists dcur. split; [reflexivity|]. split; [constructor|reflexivity].
  - cbn [files_loop map]. unfold files_get. rewrite u32_small by exact B. rewrite G. cbn [map] in ND, IN. inversion ND as [|? ? N1 N2]; subst.
    destruct (recover lib p d outs f (fst job) (snd job) dcur RW R) as (d1 & E1 & E2 & E3); [apply IN; now left|exact EQ|].
    rewrite E1. cbn [obind fst]. destruct (IH N2) with (dcur := d1) as (d' & H1 & H2 & H3).
    + intros x X. apply IN. now right.
    + intros x X. rewrite (E3 x); [now apply EQ|]. intros ->. apply X. apply IN. now left.
    + exists d'. split; [exact H1|]. split.
      * constructor; [|exact H2]. rewrite H3 by exact N1. exact E2.
      * intros x X. cbn [map In] in X. rewrite H3 by tauto. apply E3. intros ->. apply X. now left.
Qed.
(** * The control frame *)
Lemma save_whole data : Z.of_nat (length data) < 2 ^ 32 -> save_output_data data true true 0 (u32 (u32 (Z.of_nat (length data)) - 1)) = data.
Proof.
  intro L. unfold save_output_data. rewrite (u32_small (Z.of_nat (length data))) by lia. destruct data as [|x l]; [now destruct (_ && _)|]. set (n := Z.of_nat (length (x :: l))) in *.
  assert (1 <= n) by (unfold n; cbn [List.length]; lia). rewrite (u32_small (n - 1)) by lia. destruct ((0 <? n - 1) && (n - 1 <? n)); [|reflexivity].
  rewrite u32_small by lia. cbn [skipn Z.to_nat]. apply firstn_all2. unfold n. lia.
Qed.
Definition no_control (d : disk) : Prop := d CONTROL_FILE = None \/ d CONTROL_FILE = Some [].
Lemma control_loop_spec lib raw im fails c rest dec bytes : 
  Forall (fun c' => forall dec', lib_unboxer lib c' raw = Some dec' -> dc_result (dec' [im]) <> 0) fails ->
  lib_unboxer lib c raw = Some dec -> dc_result (dec [im]) = 0 -> dc_content_type (dec [im]) = None \/ dc_content_type (dec [im]) = Some (lib_control_type lib) ->
  dc_data (dec [im]) = bytes -> Z.of_nat (length bytes) < 2 ^ 32 -> lib_creatable lib CONTROL_FILE = true ->
  forall d result, no_control d -> exists d', control_loop lib raw im (fails ++ c :: rest) d result = (d', 0) /\ d' CONTROL_FILE = Some bytes /\ only_changes d d' CONTROL_FILE.
Proof.
  intros F U R0 CT DT L C. induction F as [|c' fails H F IH]; intros d result NC; cbn [app control_loop].
  - rewrite U, R0. replace (match dc_content_type (dec [im]) with Some t => t =? lib_control_type lib | None => true end) with true by (destruct CT as [-> | ->]; [reflexivity|now rewrite Z.eqb_refl]).
    change (0 =? 0) with true. cbn [andb]. rewrite C, DT. rewrite save_whole by exact L. eexists. split; [reflexivity|]. split.
    + rewrite append_at, str_eqb_refl. destruct NC as [-> | ->]; reflexivity.
    + intros n N. rewrite append_at. destruct (str_eqb_spec n CONTROL_FILE); congruence.
  - destruct (lib_unboxer lib c' raw) as [dec'|] eqn:E; [|now apply IH]. specialize (H dec' eq_refl). replace (dc_result (dec' [im]) =? 0) with false by lia. cbn [andb].
    destruct (IH (remove_file d CONTROL_FILE) (dc_result (dec' [im]))) as (d' & H1 & H2 & H3).
    { left. unfold remove_file. now rewrite str_eqb_refl. }
    exists d'. split; [exact H1|]. split; [exact H2|]. intros n N. rewrite (H3 n N). unfold remove_file. destruct (str_eqb_spec n CONTROL_FILE); congruence.
Qed.
Lemma unbox_control_spec lib p d bytes : control_frame lib p d bytes -> exists d', unbox_control lib p d = Ok (d', 0) /\ d' CONTROL_FILE = Some bytes /\ only_changes d d' CONTROL_FILE.
Proof.
  intros (template & name & im & before & c & after & dec & H1 & H2 & H3 & H4 & H5 & H6 & H7 & H8 & H9 & H10 & H11 & H12).
  change (s2z "control_data.xml") with CONTROL_FILE in *. unfold unbox_control. rewrite H1, H2. cbn [obind]. rewrite H5. cbn [negb].
  rewrite (read_input_ext _ _ d) by (unfold write_file; destruct (str_eqb_spec name CONTROL_FILE); congruence). rewrite H4. cbn [obind].
  rewrite H6, rev_app_distr. cbn [rev]. rewrite <- app_assoc. cbn [app].
  destruct (control_loop_spec lib (pr_raw p) im (rev after) c (rev before) dec bytes) with (d := write_file d CONTROL_FILE []) (result := -1) as (d' & E1 & E2 & E3); auto.
  - now apply Forall_rev.
  - right. unfold write_file. now rewrite str_eqb_refl.
  - exists d'. rewrite E1. split; [reflexivity|]. split; [exact E2|]. intros n N. rewrite (E3 n N). unfold write_file. destruct (str_eqb_spec n CONTROL_FILE); congruence.
Qed.
Lemma control_loop_none lib raw im formats : Forall (fun c => forall dec, lib_unboxer lib c raw = Some dec -> dc_result (dec [im]) <> 0 \/ exists t, dc_content_type (dec [im]) = Some t /\ t <> lib_control_type lib) formats ->
  forall d result, no_control d -> no_control (fst (control_loop lib raw im formats d result)) /\ only_changes d (fst (control_loop lib raw im formats d result)) CONTROL_FILE.
Proof.
  induction 1 as [|c l H F IH]; intros d result NC; cbn [control_loop]; [split; [exact NC|now intros n N]|].
  destruct (lib_unboxer lib c raw) as [dec|]; [|now apply IH].
  assert (E : (dc_result (dec [im]) =? 0) && match dc_content_type (dec [im]) with Some t => t =? lib_control_type lib | None => true end = false).
  { destruct (H dec eq_refl) as [N|(t & T1 & T2)]; [replace (dc_result (dec [im]) =? 0) with false by lia; reflexivity|]. rewrite T1. replace (t =? lib_control_type lib) with false by lia. apply andb_false_r. }
  rewrite E. assert (NR : no_control (remove_file d CONTROL_FILE)) by (left; unfold remove_file; now rewrite str_eqb_refl).
  destruct (IH (remove_file d CONTROL_FILE) (dc_result (dec [im])) NR) as (H1 & H2). split; [exact H1|]. intros n N. rewrite (H2 n N). unfold remove_file. destruct (str_eqb_spec n CONTROL_FILE); congruence.
Qed.
(** * Loading the list of files *)
Lemma load_toc_spec d name v : fetch load_files true d name = Ok (Some v) -> load_toc_files d (Some name) = Ok v.
Proof.
  unfold fetch, load_toc_files. destruct (d name) as [s|]; [|discriminate]. destruct (load_bytes s) as [[t|]| | |]; try discriminate.
  intro H. pose proof (files_as_new t) as E. destruct (load_files t) as [v'|]; [|discriminate]. rewrite E. cbn [fst]. congruence.
Qed.
(** * main *)
Lemma toc_loop_present lib p f l current d result name content : reads_well lib -> f_name f = Some name -> d name = Some content -> message content -> Z.of_nat (length content) < 2 ^ 61 ->
  f_checksum f = Some (hexadecimal (SHA1 content)) -> toc_loop lib p (f :: l) current d result = Ok (d, Some f, result).
Proof. intros RW H1 H2 H3 H4 H5. cbn [toc_loop]. rewrite H1, (hash_file lib d name content RW H3 H4 H2). cbn [obind]. now rewrite H5, str_eqb_refl. Qed.
Lemma toc_loop_stale lib p f l current d result name old bytes : reads_well lib -> f_name f = Some name -> d name = Some old -> message old -> Z.of_nat (length old) < 2 ^ 61 ->
  recoverable lib p d [name] f name bytes -> exists d' r, toc_loop lib p (f :: l) current d result = Ok (d', Some f, r) /\ (r = 0 \/ r = result) /\ d' name = Some (if str_eqb (hexadecimal (SHA1 bytes)) (hexadecimal (SHA1 old)) then old else bytes) /\ only_changes d d' name.
Proof.
  intros RW H1 H2 H3 H4 R. cbn [toc_loop]. rewrite H1, (hash_file lib d name old RW H3 H4 H2). cbn [obind].
  assert (CK : f_checksum f = Some (hexadecimal (SHA1 bytes))) by (destruct R as (? & ? & ? & ? & ? & R); repeat (destruct R as (_ & R)); exact R). rewrite CK.
  destruct (str_eqb (hexadecimal (SHA1 bytes)) (hexadecimal (SHA1 old))).
  - exists d, result. split; [reflexivity|]. split; [now right|]. split; [exact H2|now intros n N].
  - destruct (recover lib p d [name] f name bytes d RW R) as (d' & E1 & E2 & E3); [now left|reflexivity|]. rewrite E1. cbn [obind fst snd]. change (0 =? 0) with true. cbv iota. exists d', 0. auto.
Qed.
Lemma with_format_id c p : mkParameters (pr_input p) c (pr_raw p) (pr_read p) (pr_x p) (pr_y p) (pr_numbers p) (pr_help p) = with_format c p. Proof. reflexivity. Qed.
Definition sizes (args : list cstr) : Prop := Forall (fun s => Z.of_nat (length s) < 2 ^ 64) args.
Lemma parameters_spec args p : says args nothing_set p -> sizes args -> pr_input p <> None -> pr_x p <> 0 -> pr_y p <> 0 -> get_command_line_parameters args = Ok p.
Proof.
  intros H SZ I X Y. unfold get_command_line_parameters. change (mkParameters None None false false 0 0 None false) with nothing_set.
  rewrite (parse_says args nothing_set p H SZ) by lia. cbn [obind]. destruct (pr_input p); [|congruence]. now replace ((pr_x p =? 0) || (pr_y p =? 0)) with false by lia.
Qed.
(** The run up to the table of contents. *)
Lemma main_front lib args p d bytes tree c t b : says args nothing_set p -> sizes args -> pr_input p <> None -> pr_x p <> 0 -> pr_y p <> 0 ->
  control_frame lib p d bytes -> load_bytes bytes = Ret (Some tree) -> load_control tree = Some c -> cd_tech c = Some t -> te_format t = Some b ->
  exists d1, only_changes d d1 CONTROL_FILE /\
  main lib args d =
  obind (toc_loop lib (with_format (bf_config b) p) (match te_tocs t with Some v => vec_list v | None => [] end) None d1 0) (fun r =>
    let '(d2, current, result) := r in
    if negb (result =? 0) then Ok (d2, -1)
    else match current with
         | None => UB
         | Some f =>
             obind (load_toc_files d2 (f_name f)) (fun v =>
             if pr_read p
             then match boxing_check_files_numbers (pr_numbers p) (files_count (Some v)) with
                  | None => UB
                  | Some numbers => obind (files_loop lib (with_format (bf_config b) p) v numbers d2) (fun d3 => Ok (d3, 0))
                  end
             else Ok (d2, 0))
         end).
Proof.
  intros H SZ I X Y CF LB LC T B. destruct (unbox_control_spec lib p d bytes CF) as (d1 & E1 & E2 & E3). exists d1. split; [exact E3|].
  unfold main. rewrite (parameters_spec args p H SZ I X Y). cbn [obind]. destruct (pr_input p) as [template|] eqn:EI; [|congruence]. rewrite E1. cbn [obind fst].
  unfold fetch. rewrite E2, LB, LC. cbn [obind]. rewrite T, B. unfold with_format. rewrite EI. reflexivity.
Qed.
