(** Extraction of a file by the recovery tool. *)
From Verif Require Import CBase CBaseProofs TocModel FileModel FileProofs ImageModel ShaModel ToolModel SpecTool SpecTool2 ToolProofs.
Local Open Scope Z_scope.

Lemma str_eqb_spec a b : reflect (a = b) (str_eqb a b).
Proof. destruct (str_eqb a b) eqn:E; constructor; [now apply str_eqb_eq|now apply str_eqb_neq]. Qed.
Lemma Forall2_weaken {A B} (P Q : A -> B -> Prop) l l' : (forall a b, P a b -> Q a b) -> Forall2 P l l' -> Forall2 Q l l'.
Proof. intros H F. induction F; constructor; auto. Qed.
Lemma append_at d name bytes n : append_file d name bytes n = if str_eqb n name then Some (match d name with Some s => s ++ bytes | None => bytes end) else d n.
Proof. unfold append_file, write_file. reflexivity. Qed.
Lemma read_input_ext fresh d d' name w h : d name = d' name -> read_input_file fresh d name w h = read_input_file fresh d' name w h.
Proof. intro H. unfold read_input_file. now rewrite H. Qed.
Definition piece (first fin sb eb : Z) (io : Z * decoded) : list Z :=
  save_output_data (dc_data (snd io)) (fst io =? first) (fst io =? fin) sb eb.
Lemma unbox_frames_spec lib p template f out dec first l : lib_creatable lib out = true ->
  forall fed ims d base result, d out = Some base -> Forall2 (frame_is lib p d template out) l ims ->
  exists d', unbox_frames lib template (u32 (pr_x p)) (u32 (pr_y p)) f out dec first fed l d result = Ok (d', Some (last (map dc_result (outputs dec fed ims)) result)) /\
             (forall n, d' n = if str_eqb n out then Some (base ++ flat_map (piece first (f_end_frame f) (u32 (f_start_byte f)) (u32 (f_end_byte f))) (combine l (outputs dec fed ims))) else d n).
Proof.
  intro C. induction l as [|i l IH]; intros fed ims d base result B H; inversion H as [|? im ? ims' (name & N1 & N2 & N3) H' Q1 Q2]; subst; clear H.
  - exists d. split; [reflexivity|]. intro n. cbn [outputs combine flat_map]. rewrite app_nil_r. destruct (str_eqb_spec n out) as [-> |]; auto.
  - cbn [unbox_frames outputs combine flat_map map]. rewrite N1. cbn [obind]. rewrite N3. cbn [obind]. rewrite C.
    set (r := dec (fed ++ [im])). set (pc := save_output_data _ _ _ _ _).
    destruct (IH (fed ++ [im]) ims' (append_file d out pc) (base ++ pc) (dc_result r)) as (d' & E1 & E2).
    + rewrite append_at, B. destruct (str_eqb_spec out out); congruence.
    + revert H'. apply Forall2_weaken. intros j im' (n & P1 & P2 & P3). exists n. split; [exact P1|]. split; [exact P2|].
      rewrite <- P3. apply read_input_ext. rewrite append_at. destruct (str_eqb_spec n out); congruence.
    + exists d'. split.
      * rewrite E1. do 3 f_equal. destruct (map dc_result (outputs dec (fed ++ [im]) ims')) eqn:M; [reflexivity|]. cbn [last]. clear. revert z. induction l0; intros; [reflexivity|]. cbn [last]. apply IHl0.
      * intro n. rewrite E2. rewrite append_at. destruct (str_eqb_spec n out); [|reflexivity]. f_equal. rewrite app_assoc. reflexivity.
Qed.

(** * The bytes *)
Lemma firstn_exact {A} n (l : list A) : (List.length l <= n)%nat -> firstn n l = l. Proof. apply firstn_all2. Qed.
Lemma save_empty is_first is_last a b : save_output_data [] is_first is_last a b = [].
Proof. unfold save_output_data. destruct (_ && _); [|reflexivity]. now rewrite skipn_nil, firstn_nil. Qed.
Definition small (o : list Z) : Prop := Z.of_nat (length o) < 2 ^ 32.
Lemma save_middle o a b : small o -> save_output_data o false false a b = o.
Proof.
  intro H. unfold small in H. unfold save_output_data. destruct o as [|x o]; [now destruct (_ && _)|].
  set (n := Z.of_nat (length (x :: o))) in *. assert (1 <= n) by (unfold n; cbn [List.length]; lia).
  unfold u32. rewrite (Z.mod_small n) by lia. rewrite (Z.mod_small (n - 1)) by lia. destruct ((0 <? n - 1) && (n - 1 <? n)) eqn:E; [|reflexivity].
  rewrite Z.mod_small by lia. cbn [skipn Z.to_nat]. apply firstn_exact. unfold n. lia.
Qed.
Lemma save_first o a b : small o -> 0 <= a < Z.of_nat (length o) ->
  save_output_data o true false a b = if (a + 1 <? Z.of_nat (length o)) || (a =? 0) then skipn (Z.to_nat a) o else o.
Proof.
  intros H A. unfold small in H. unfold save_output_data. set (n := Z.of_nat (length o)) in *.
  unfold u32. rewrite (Z.mod_small n) by lia. rewrite (Z.mod_small (n - 1)) by lia.
  destruct (Z.ltb_spec (a + 1) n); cbn [orb].
  - replace ((a <? n - 1) && (n - 1 <? n)) with true by lia. rewrite Z.mod_small by lia. apply firstn_exact. rewrite skipn_length. unfold n. lia.
  - replace (a <? n - 1) with false by lia. cbn [andb]. destruct (Z.eqb_spec a 0) as [-> |]; reflexivity.
Qed.
Lemma save_last o a b : small o -> 0 <= b < Z.of_nat (length o) ->
  save_output_data o false true a b = if 0 <? b then firstn (Z.to_nat (b + 1)) o else o.
Proof.
  intros H B. unfold small in H. unfold save_output_data. set (n := Z.of_nat (length o)) in *.
  destruct (Z.ltb_spec 0 b).
  - replace (b <? n) with true by lia. cbn [andb skipn Z.to_nat]. unfold u32. rewrite Z.mod_small by lia. now rewrite Z.sub_0_r.
  - cbn [andb]. reflexivity.
Qed.
Lemma save_only o a b : small o -> 0 <= a -> a <= b < Z.of_nat (length o) ->
  save_output_data o true true a b = if a <? b then firstn (Z.to_nat (b - a + 1)) (skipn (Z.to_nat a) o) else o.
Proof.
  intros H A B. unfold small in H. unfold save_output_data. set (n := Z.of_nat (length o)) in *.
  destruct (Z.ltb_spec a b).
  - replace (b <? n) with true by lia. cbn [andb]. unfold u32. rewrite Z.mod_small by lia. reflexivity.
  - cbn [andb]. reflexivity.
Qed.
Lemma frame_numbers_cons a b : a <= b -> frame_numbers a b = a :: frame_numbers (a + 1) b.
Proof.
  intro H. unfold frame_numbers. replace (Z.to_nat (b - a + 1)) with (S (Z.to_nat (b - (a + 1) + 1))) by lia. cbn [seq map]. f_equal; [lia|].
  rewrite <- seq_shift, map_map. apply map_ext. intro k. lia.
Qed.
Lemma frame_numbers_nil a b : b < a -> frame_numbers a b = [].
Proof. intro H. unfold frame_numbers. now replace (Z.to_nat (b - a + 1)) with O by lia. Qed.
Lemma frame_numbers_length a b : length (frame_numbers a b) = Z.to_nat (b - a + 1).
Proof. unfold frame_numbers. now rewrite map_length, seq_length. Qed.
(** The empty outputs before the first data. *)
Lemma pieces_skip first fin sb eb pre l : forall a, Forall (fun r => dc_data r = []) pre ->
  flat_map (piece first fin sb eb) (combine (frame_numbers a fin) (pre ++ l)) = flat_map (piece first fin sb eb) (combine (frame_numbers (a + Z.of_nat (length pre)) fin) l).
Proof.
  induction pre as [|r pre IH]; intros a F; cbn [app List.length]; [now rewrite Z.add_0_r|]. inversion F as [|? ? E F']; subst.
  destruct (Z.le_gt_cases a fin) as [L|G].
  - rewrite frame_numbers_cons by exact L. cbn [combine flat_map]. unfold piece at 1. cbn [fst snd]. rewrite E, save_empty. cbn [app].
    rewrite IH by exact F'. do 3 f_equal. lia.
  - rewrite !frame_numbers_nil by lia. reflexivity.
Qed.
(** From the second frame on. *)
Lemma pieces_rest first fin sb eb l : forall a, first < a -> l <> [] -> Z.of_nat (length l) = fin - a + 1 -> Forall (fun r => small (dc_data r)) l ->
  flat_map (piece first fin sb eb) (combine (frame_numbers a fin) l) =
  List.concat (removelast (map dc_data l)) ++ save_output_data (last (map dc_data l) []) false true sb eb.
Proof.
  induction l as [|r l IH]; intros a A N L F; [congruence|]. inversion F as [|? ? Sr F']; subst. cbn [List.length] in L.
  rewrite frame_numbers_cons by lia. cbn [combine flat_map]. unfold piece at 1. cbn [fst snd]. replace (a =? first) with false by lia.
  destruct l as [|r' l].
  - cbn [List.length] in L. replace (a =? fin) with true by lia. destruct (frame_numbers (a + 1) fin); cbn [combine flat_map map removelast List.concat last app]; now rewrite ?app_nil_r.
  - replace (a =? fin) with false by (cbn [List.length] in L; lia). rewrite save_middle by exact Sr. rewrite IH; [|lia|discriminate|lia|exact F'].
    cbn [map]. cbn [removelast List.concat last]. cbn [List.concat]. now rewrite app_assoc.
Qed.
Lemma concat_split (r : list (list Z)) : r <> [] -> List.concat r = List.concat (removelast r) ++ last r [].
Proof. intro N. rewrite (app_removelast_last [] N) at 1. rewrite concat_app. cbn [List.concat]. now rewrite app_nil_r. Qed.
Lemma placed_one o a b : 0 <= a <= b -> placed_bytes [o] a b = firstn (Z.to_nat (b - a + 1)) (skipn (Z.to_nat a) o).
Proof. intro H. unfold placed_bytes. cbn [removelast List.concat List.length]. rewrite app_nil_r. f_equal. lia. Qed.
Lemma placed_more o r a b : r <> [] -> 0 <= a <= Z.of_nat (length o) -> 0 <= b < Z.of_nat (length (last r [])) ->
  placed_bytes (o :: r) a b = skipn (Z.to_nat a) o ++ List.concat (removelast r) ++ firstn (Z.to_nat (b + 1)) (last r []).
Proof.
  intros N A B. unfold placed_bytes. assert (E : removelast (o :: r) = o :: removelast r) by (destruct r; [congruence|reflexivity]). rewrite E.
  cbn [List.concat]. rewrite (concat_split r N). rewrite skipn_app. replace (Z.to_nat a - length o)%nat with 0%nat by lia. cbn [skipn].
  rewrite app_length. set (m := List.concat (removelast r)). set (z := last r []) in *.
  replace (length o + length m + Z.to_nat b + 1 - Z.to_nat a)%nat with (length (skipn (Z.to_nat a) o) + (length m + Z.to_nat (b + 1)))%nat by (rewrite skipn_length; lia).
  rewrite firstn_app_2. f_equal. now rewrite firstn_app_2.
Qed.
(** What the tool writes for the frames, from the first one with data. *)
Definition written (frames : list (list Z)) (sb eb : Z) : list Z :=
  match frames with
  | [] => []
  | [o] => save_output_data o true true sb eb
  | o :: r => save_output_data o true false sb eb ++ List.concat (removelast r) ++ save_output_data (last r []) false true sb eb
  end.
Lemma pieces_written first fin sb eb l : l <> [] -> Z.of_nat (length l) = fin - first + 1 -> Forall (fun r => small (dc_data r)) l ->
  flat_map (piece first fin sb eb) (combine (frame_numbers first fin) l) = written (map dc_data l) sb eb.
Proof.
  intros N L F. destruct l as [|r l]; [congruence|]. inversion F as [|? ? Sr F']; subst. cbn [List.length] in L. rewrite frame_numbers_cons by lia.
  cbn [combine flat_map map written]. unfold piece at 1. cbn [fst snd]. rewrite Z.eqb_refl. destruct l as [|r' l].
  - cbn [List.length] in L. replace (first =? fin) with true by lia. destruct (frame_numbers (first + 1) fin); cbn [combine flat_map map]; now rewrite app_nil_r.
  - replace (first =? fin) with false by (cbn [List.length] in L; lia). rewrite pieces_rest; [|lia|discriminate|lia|exact F']. reflexivity.
Qed.
Lemma written_placed frames sb eb : Forall small frames -> well_placed frames sb eb ->
  (never_one_byte frames sb eb -> written frames sb eb = placed_bytes frames sb eb) /\
  (~ never_one_byte frames sb eb -> (length (placed_bytes frames sb eb) < length (written frames sb eb))%nat).
Proof.
  intros F (N & A & B & C). destruct frames as [|o r]; [congruence|]. inversion F as [|? ? So F']; subst. cbn [hd] in A. destruct r as [|o' r].
  - cbn [last] in B. specialize (C eq_refl). cbn [written never_one_byte]. rewrite save_only by (auto; lia). rewrite placed_one by lia.
    destruct (Z.ltb_spec sb eb) as [L|L]; [split; [reflexivity|intro H; exfalso; apply H; now left]|]. assert (eb = sb) by lia. subst eb. split.
    + intros [H|H]; [lia|]. assert (sb = 0) by lia. subst. symmetry. apply firstn_exact. lia.
    + intro H. rewrite firstn_length, skipn_length. assert (length o <> 1%nat) by tauto. lia.
  - set (R := o' :: r) in *. assert (NR : R <> []) by discriminate.
    assert (LR : last (o :: R) [] = last R []) by reflexivity. rewrite LR in B.
    assert (Sl : small (last R [])).
    { rewrite Forall_forall in F'. apply F'. rewrite (app_removelast_last [] NR) at 2. apply in_or_app. right. now left. }
    replace (written (o :: R) sb eb) with (save_output_data o true false sb eb ++ List.concat (removelast R) ++ save_output_data (last R []) false true sb eb) by reflexivity.
    rewrite placed_more by (auto; lia). rewrite save_first, save_last by (auto; lia).
    replace (never_one_byte (o :: R) sb eb) with ((sb + 1 < Z.of_nat (length o) \/ sb = 0) /\ (0 < eb \/ length (last R []) = 1%nat)) by reflexivity.
    set (z := last R []) in *. split.
    + intros (H1 & H2). replace ((sb + 1 <? Z.of_nat (length o)) || (sb =? 0)) with true by lia. do 2 f_equal.
      destruct (Z.ltb_spec 0 eb); [reflexivity|]. symmetry. apply firstn_exact. lia.
    + intro H. rewrite !app_length, firstn_length, skipn_length.
      destruct ((sb + 1 <? Z.of_nat (length o)) || (sb =? 0)) eqn:E1; destruct (Z.ltb_spec 0 eb) as [E2|E2]; rewrite ?skipn_length, ?firstn_length.
      * exfalso. apply H. lia.
      * assert (length z <> 1%nat) by (intro; apply H; lia). lia.
      * lia.
      * lia.
Qed.
