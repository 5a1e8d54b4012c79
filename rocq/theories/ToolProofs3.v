(** The whole extraction of a file by the recovery tool. *)
From Verif Require Import CBase CBaseProofs TocModel FileModel FileProofs ImageModel ShaModel SpecSha PropSha ControlModel ToolModel SpecTool SpecTool2 ToolProofs ToolProofs2.
Notation length := List.length.
Local Open Scope Z_scope.

Lemma outputs_length {A B} (dec : list A -> B) ims : forall given, length (outputs dec given ims) = length ims.
Proof. induction ims as [|im l IH]; intro given; cbn [outputs List.length]; [reflexivity|]. now rewrite IH. Qed.
Lemma Forall2_len {A B} (P : A -> B -> Prop) l l' : Forall2 P l l' -> length l = length l'.
Proof. induction 1; cbn [List.length]; congruence. Qed.
Lemma last_result (l : list decoded) a b : l <> [] -> last (map dc_result l) a = last (map dc_result l) b.
Proof. induction l as [|r l IH]; intro N; [congruence|]. destruct l as [|r' l]; [reflexivity|]. cbn [map last] in *. now rewrite IH. Qed.
Lemma unbox_file_run lib p f d template dec out images pre frames :
  ready lib p template dec -> prepare_file_name f = Ok out -> lib_creatable lib out = true ->
  Forall2 (frame_is lib p d template out) (from_to (f_start_frame f) (f_end_frame f)) images ->
  map dc_data (outputs dec [] images) = pre ++ frames -> Forall (eq []) pre -> frames_in_range lib p f (length pre) ->
  well_placed frames (f_start_byte f) (f_end_byte f) -> Forall small frames ->
  exists d1, (forall n, d1 n = if str_eqb n out then Some (written frames (f_start_byte f) (f_end_byte f)) else d n) /\
  unbox_file lib p f d =
    obind (sha1_of lib d1 (Some out)) (fun hash =>
    match f_checksum f, hash with
    | Some c, Some x => Ok (d1, if str_eqb c x then last (map dc_result (outputs dec [] images)) (-1) else -1)
    | _, _ => UB
    end).
Proof.
  intros (R1 & R2 & R3 & R4 & R5 & R6) P C F2 M Fp (Q1 & Q2 & Q3 & Q4 & Q5) W Fs.
  assert (LI : length images = Z.to_nat (f_end_frame f - f_start_frame f + 1)).
  { rewrite <- (Forall2_len _ _ _ F2). unfold from_to. now rewrite map_length, seq_length. }
  assert (LO : length images = (length pre + length frames)%nat).
  { rewrite <- app_length, <- M, map_length. symmetry. apply outputs_length. }
  assert (LF : (0 < length frames)%nat) by (destruct W as (W & _); destruct frames; [congruence|cbn [List.length]; lia]).
  set (outs := outputs dec [] images) in *.
  set (opre := firstn (length pre) outs). set (oframes := skipn (length pre) outs).
  assert (OE : outs = opre ++ oframes) by (unfold opre, oframes; now rewrite firstn_skipn).
  assert (LP : length opre = length pre).
  { unfold opre. rewrite firstn_length. assert (length outs = length images) by apply outputs_length. lia. }
  assert (MO : map dc_data opre = pre /\ map dc_data oframes = frames).
  { rewrite OE, map_app in M. assert (length (map dc_data opre) = length pre) by now rewrite map_length.
    clear -M H. clearbody opre oframes. revert pre M H. induction opre as [|r l IH]; intros [|x pre] M H; cbn [map List.length app] in *; try discriminate; [auto|].
    injection M as M1 M2. destruct (IH pre M2 ltac:(lia)) as (H1 & H2). split; [congruence|exact H2]. }
  destruct MO as (MO1 & MO2).
  assert (Fo : Forall (fun r => dc_data r = []) opre).
  { rewrite <- MO1 in Fp. rewrite Forall_map in Fp. revert Fp. apply Forall_impl. intros; congruence. }
  assert (Fr : Forall (fun r => small (dc_data r)) oframes) by (rewrite <- MO2 in Fs; now rewrite Forall_map in Fs).
  assert (LR : length oframes = length frames) by (rewrite <- MO2; now rewrite map_length).
  destruct W as (W1 & W2 & W3 & W4).
  assert (SB : u32 (f_start_byte f) = f_start_byte f).
  { unfold u32. apply Z.mod_small. destruct frames as [|o r]; [congruence|]. cbn [hd] in W2. pose proof (Forall_inv Fs) as So. unfold small in So. lia. }
  assert (EB : u32 (f_end_byte f) = f_end_byte f).
  { unfold u32. apply Z.mod_small. rewrite Forall_forall in Fs. assert (small (last frames [])) as Sl.
    { apply Fs. rewrite (app_removelast_last [] W1) at 2. apply in_or_app. right. now left. } unfold small in Sl. lia. }
  set (d0 := write_file d out []).
  assert (D0 : d0 out = Some []) by (unfold d0, write_file; now rewrite str_eqb_refl).
  destruct (unbox_frames_spec lib p template f out dec (f_start_frame f + Z.of_nat (length pre)) (from_to (f_start_frame f) (f_end_frame f)) C [] images d0 [] (-1) D0) as (d1 & E1 & E2).
  { revert F2. apply Forall2_weaken. intros i im (n & N1 & N2 & N3). exists n. split; [exact N1|]. split; [exact N2|]. rewrite <- N3. apply read_input_ext.
    unfold d0, write_file. destruct (str_eqb_spec n out); congruence. }
  exists d1. split.
  - intro n. rewrite E2. destruct (str_eqb_spec n out) as [-> |Nn].
    + cbn [app]. f_equal. fold outs. rewrite OE. change (from_to (f_start_frame f) (f_end_frame f)) with (frame_numbers (f_start_frame f) (f_end_frame f)).
      rewrite pieces_skip by exact Fo. rewrite LP. rewrite SB, EB. rewrite pieces_written; [now rewrite MO2| | |exact Fr].
      * destruct oframes; [cbn [List.length] in *; lia|discriminate].
      * rewrite LR. lia.
    + unfold d0, write_file. destruct (str_eqb_spec n out); congruence.
  - unfold unbox_file. rewrite R1. destruct template as [|t0 ts] eqn:ET; [congruence|]. rewrite <- ET in *.
    destruct (pr_format p) as [cf|] eqn:EF; [|congruence]. replace ((pr_x p =? 0) || (pr_y p =? 0)) with false by lia.
    rewrite P. cbn [obind]. rewrite C. cbn [negb]. rewrite R6. rewrite Q1. replace (Z.of_nat (length pre) + 1 - 1) with (Z.of_nat (length pre)) by lia.
    unfold chk32 at 1. replace ((- 2 ^ 31 <=? Z.of_nat (length pre)) && (Z.of_nat (length pre) <? 2 ^ 31)) with true by lia. cbn [obind].
    assert (FF : (if 0 <? Z.of_nat (length pre) then chk32 (f_start_frame f + Z.of_nat (length pre)) else Ok (f_start_frame f)) = Ok (f_start_frame f + Z.of_nat (length pre))).
    { destruct (Z.ltb_spec 0 (Z.of_nat (length pre))); [|f_equal; lia]. unfold chk32. now replace ((- 2 ^ 31 <=? f_start_frame f + Z.of_nat (length pre)) && (f_start_frame f + Z.of_nat (length pre) <? 2 ^ 31)) with true by lia. }
    rewrite FF. cbn [obind]. replace (f_end_frame f =? 2 ^ 31 - 1) with false by lia. rewrite andb_false_r.
    change (frame_numbers (f_start_frame f) (f_end_frame f)) with (from_to (f_start_frame f) (f_end_frame f)). fold d0. rewrite E1. cbn [obind snd fst].
    reflexivity.
Qed.
(** Whatever happens, at most one file changes. *)
Lemma unbox_frames_only lib template w h f out dec first l : forall fed d result d' r, unbox_frames lib template w h f out dec first fed l d result = Ok (d', r) -> only_changes d d' out.
Proof.
  induction l as [|i l IH]; intros fed d result d' r H; cbn [unbox_frames] in H.
  - injection H as <- <-. now intros n N.
  - destruct (get_input_file_name template i) as [name|]; [|discriminate]. cbn [obind] in H.
    destruct (read_input_file (lib_fresh lib) d name w h) as [im|]; [|discriminate]. cbn [obind] in H.
    destruct (lib_creatable lib out); [|injection H as <- <-; now intros n N].
    apply IH in H. intros n N. rewrite (H n N), append_at. destruct (str_eqb_spec n out); congruence.
Qed.
Lemma unbox_file_only lib p f d d' r : unbox_file lib p f d = Ok (d', r) -> d' = d \/ exists out, prepare_file_name f = Ok out /\ only_changes d d' out.
Proof.
  unfold unbox_file. intro H.
  destruct (pr_input p) as [[|t0 ts]|]; [left; congruence| |left; congruence].
  destruct (pr_format p) as [cf|]; [|left; congruence].
  destruct ((pr_x p =? 0) || (pr_y p =? 0)); [left; congruence|].
  destruct (prepare_file_name f) as [out|] eqn:P; [|discriminate]. cbn [obind] in H.
  destruct (lib_creatable lib out); cbn [negb] in H; [|left; congruence]. right. exists out. split; [reflexivity|].
  assert (W : only_changes d (write_file d out []) out) by (intros n N; unfold write_file; destruct (str_eqb_spec n out); congruence).
  destruct (lib_unboxer lib (Some cf) (pr_raw p)) as [dec|]; [|injection H as <- <-; exact W].
  destruct (chk32 (lib_stripe_size lib (Some cf) - 1)) as [strip|]; [|discriminate]. cbn [obind] in H.
  destruct (if 0 <? strip then chk32 (f_start_frame f + strip) else Ok (f_start_frame f)) as [first|]; [|discriminate]. cbn [obind] in H.
  destruct ((f_start_frame f <=? f_end_frame f) && (f_end_frame f =? 2 ^ 31 - 1)); [discriminate|].
  destruct (unbox_frames _ _ _ _ _ _ _ _ _ _ _ _) as [(d1 & r1)|] eqn:U; [|discriminate]. cbn [obind fst snd] in H. apply unbox_frames_only in U.
  assert (X : d' = d1).
  { destruct r1 as [r1|]; [|congruence]. destruct (sha1_of lib d1 (Some out)) as [x|]; [|discriminate]. cbn [obind] in H.
    destruct (f_checksum f), x; congruence. }
  subst. intros n N. rewrite (U n N). apply W. exact N.
Qed.
(** Result 0: the checksum of what has been written is the one of the entry. *)
Lemma unbox_file_zero lib p f d d' : unbox_file lib p f d = Ok (d', 0) ->
  exists out c, prepare_file_name f = Ok out /\ f_checksum f = Some c /\ sha1_of lib d' (Some out) = Ok (Some c).
Proof.
  unfold unbox_file. intro H.
  destruct (pr_input p) as [[|t0 ts]|]; [congruence| |congruence].
  destruct (pr_format p) as [cf|]; [|congruence].
  destruct ((pr_x p =? 0) || (pr_y p =? 0)); [congruence|].
  destruct (prepare_file_name f) as [out|] eqn:P; [|discriminate]. cbn [obind] in H.
  destruct (lib_creatable lib out); cbn [negb] in H; [|congruence].
  destruct (lib_unboxer lib (Some cf) (pr_raw p)) as [dec|]; [|congruence].
  destruct (chk32 (lib_stripe_size lib (Some cf) - 1)) as [strip|]; [|discriminate]. cbn [obind] in H.
  destruct (if 0 <? strip then chk32 (f_start_frame f + strip) else Ok (f_start_frame f)) as [first|]; [|discriminate]. cbn [obind] in H.
  destruct ((f_start_frame f <=? f_end_frame f) && (f_end_frame f =? 2 ^ 31 - 1)); [discriminate|].
  destruct (unbox_frames _ _ _ _ _ _ _ _ _ _ _ _) as [(d1 & r1)|]; [|discriminate]. cbn [obind fst snd] in H.
  destruct r1 as [r1|]; [|congruence]. destruct (sha1_of lib d1 (Some out)) as [x|] eqn:X; [|discriminate]. cbn [obind] in H.
  destruct (f_checksum f) as [c|] eqn:EC; [|discriminate]. destruct x as [x|]; [|discriminate].
  destruct (str_eqb_spec c x) as [-> |]; [|congruence]. assert (d1 = d') by congruence. subst. exists out, x. auto.
Qed.
