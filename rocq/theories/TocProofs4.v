(** Reel and table-of-contents queries built on the file lists; sections added through a layout
    definition; access by index. *)
From Verif Require Import CBase CBaseProofs TocModel SpecToc ValidProofs PreviewProofs TocProofs2 TocProofs3.

(** * C10: sections added through a layout definition *)
Lemma add_section_append d s :
  layout_def_add_section d s =
  (if snd (sections_append (match ld_sections d with Some v => v | None => None end) s)
   then (mkLayoutDef (ld_id d) (ld_name d) (Some (Some (def_sections d ++ [s]))), true) else (d, false)).
Proof.
  unfold layout_def_add_section, sections_append, def_sections, vec_append.
  destruct (section_is_valid s); cbn [negb snd]; [|reflexivity].
  replace (match ld_sections d with Some v => vec_list v | None => [] end)
    with (vec_list match ld_sections d with Some v => v | None => None end) by (destruct (ld_sections d); reflexivity).
  destruct (existsb _ _) eqn:E; cbn [snd]; [reflexivity|].
  destruct (ld_sections d) as [[l|]|]; reflexivity.
Qed.
Lemma add_sections_history d l :
  Forall fits l -> Forall fits (def_sections d) -> good_sections (def_sections d) ->
  let r := run layout_def_add_section d l in
  accepted (def_sections d) l (snd r) (def_sections (fst r)) /\ good_sections (def_sections (fst r)) /\
  ld_id (fst r) = ld_id d /\ ld_name (fst r) = ld_name d.
Proof.
  revert d; induction l as [|s l IH]; intros d Fl Fd Gd; cbn zeta.
  - cbn. repeat split; try apply Gd. constructor.
  - inversion Fl as [|? ? Fs Fl']; subst. cbn [run]. rewrite add_section_append.
    set (v := match ld_sections d with Some v => v | None => None end).
    assert (Ev : vec_list v = def_sections d) by (unfold v, def_sections; destruct (ld_sections d) as [[|]|]; reflexivity).
    assert (Fv : Forall fits (vec_list v)) by (rewrite Ev; exact Fd).
    assert (Gv : Forall section_ok (vec_list v)) by (rewrite Ev; apply Gd).
    destruct (append_spec v s Fv Fs Gv) as [[Ha E]|[Ha E]]; rewrite E; cbn [snd]; rewrite Ev in Ha.
    + set (d1 := mkLayoutDef _ _ _).
      assert (E1 : def_sections d1 = def_sections d ++ [s]) by reflexivity.
      destruct (IH d1) as (H1 & H2 & H3 & H4).
      * exact Fl'.
      * rewrite E1. apply Forall_app. split; [exact Fd|]. constructor; [exact Fs|constructor].
      * rewrite E1. apply acceptable_good; assumption.
      * destruct (run layout_def_add_section d1 l) as [d2 bs]. cbn [fst snd] in *.
        rewrite E1 in H1. repeat split; try apply H2; try assumption. constructor; assumption.
    + destruct (IH d) as (H1 & H2 & H3 & H4); try assumption.
      destruct (run layout_def_add_section d l) as [d2 bs]. cbn [fst snd] in *.
      repeat split; try apply H2; try assumption. constructor; assumption.
Qed.

(** * C27: reels *)
Lemma reel_frames r :
  Exists digital (files_of r) -> in_frame_order (filter file_is_digital (files_of r)) ->
  exists first last, reel_first_frame r 1 = first /\ reel_last_frame r 1 = Ok last /\
    (exists f, In f (files_of r) /\ digital f /\ f_start_frame f = first) /\
    (exists f, In f (files_of r) /\ digital f /\ f_end_frame f = last) /\
    (forall f, In f (files_of r) -> digital f -> first <= f_start_frame f /\ f_end_frame f <= last) /\
    (0 <= first <= last -> last - first + 1 < 2^31 -> reel_frame_count r 1 = Ok (last - first + 1)).
Proof.
  intros He Ho. unfold files_of in *.
  destruct (r_files r) as [[l|]|] eqn:Er; try (inversion He; fail).
  destruct (digital_bounds l None He Ho) as (last & El & H1 & H2 & H3 & H4).
  assert (E1 : reel_first_frame r 1 = files_first_frame (Some (Some l)) TYPE_DIGITAL).
  { unfold reel_first_frame. rewrite Er. reflexivity. }
  assert (E2 : reel_last_frame r 1 = Ok last).
  { unfold reel_last_frame. rewrite Er. exact El. }
  exists (reel_first_frame r 1), last. rewrite E1 in *.
  split; [reflexivity|]. split; [exact E2|]. repeat (split; [assumption|]).
  intros P1 P2. unfold reel_frame_count. rewrite E2. cbn [obind]. rewrite E1.
  replace (_ || _ || _) with false by lia. unfold chk32. replace (_ && _) with true by lia. cbn [obind].
  replace (_ && _) with true by lia. cbn [obind]. rewrite u32_small by lia. reflexivity.
Qed.
Lemma reel_frames_none r : ~ Exists digital (files_of r) ->
  reel_first_frame r 1 = -1 /\ reel_last_frame r 1 = Ok (-1) /\ reel_frame_count r 1 = Ok 0.
Proof.
  intro He.
  assert (E : forall l, ~ Exists digital l -> filter file_is_digital l = []).
  { induction l as [|f l IH]; intro H; [reflexivity|]. cbn. destruct (file_is_digital f) eqn:Ef.
    - exfalso. apply H. left. now apply file_digital_iff.
    - apply IH. intro. apply H. now right. }
  assert (P : reel_first_frame r 1 = -1 /\ reel_last_frame r 1 = Ok (-1)).
  { unfold reel_first_frame, reel_last_frame, files_of in *.
    destruct (r_files r) as [[l|]|]; try (split; reflexivity).
    destruct l as [|a l']; [split; reflexivity|]. set (l := a :: l') in *.
    specialize (E l He). change (section_type 1 =? 0) with false. change (section_type 1) with TYPE_DIGITAL. cbn iota. split.
    - change (files_first_frame (Some (Some l)) TYPE_DIGITAL) with (first_frame_scan TYPE_DIGITAL l).
      pose proof (first_scan_digital l) as H. rewrite E in H. exact H.
    - change (files_last_frame (Some (Some l)) TYPE_DIGITAL None) with (last_frame_scan TYPE_DIGITAL None (rev l)).
      rewrite last_scan_digital, filter_rev, E. reflexivity. }
  destruct P as (P1 & P2). repeat split; try assumption.
  unfold reel_frame_count. rewrite P2, P1. reflexivity.
Qed.

(** * C42: totals of a table of contents *)
Lemma toc_reels_eq t : toc_reels t = reels_of t.
Proof. unfold toc_reels, reels_of. destruct (t_reels t) as [[|]|]; reflexivity. Qed.
Lemma reel_count_small r : (Z.of_nat (List.length (files_of r)) < 2^32) -> reel_file_count r = Z.of_nat (List.length (files_of r)).
Proof. intro H. unfold reel_file_count. rewrite reel_files_of. apply u32_small. lia. Qed.
Lemma file_count_total t :
  Z.of_nat (List.length (all_files t)) < 2^32 ->
  toc_file_count t = Z.of_nat (List.length (all_files t)).
Proof.
  unfold toc_file_count, all_files.
  assert (G : forall l acc, 0 <= acc -> acc + Z.of_nat (List.length (flat_map files_of l)) < 2^32 ->
    fold_left (fun acc r => u32 (acc + reel_file_count r)) l acc = acc + Z.of_nat (List.length (flat_map files_of l))).
  { induction l as [|r l IH]; intros acc Ha H; cbn [flat_map fold_left] in *; [cbn; lia|].
    rewrite app_length in *. rewrite reel_count_small by lia. rewrite u32_small by lia. rewrite IH by lia. lia. }
  intro H. replace (toc_reels t) with (reels_of t) by (symmetry; apply toc_reels_eq). rewrite G by lia. lia.
Qed.
Lemma frame_count_total t ns :
  Forall2 (fun r n => reel_frame_count r 1 = Ok n /\ 0 <= n) (reels_of t) ns -> zsum ns < 2^32 ->
  toc_frame_count t = Ok (zsum ns).
Proof.
  unfold toc_frame_count.
  assert (G : forall l ns acc, Forall2 (fun r n => reel_frame_count r 1 = Ok n /\ 0 <= n) l ns -> 0 <= acc ->
     acc + zsum ns < 2^32 -> toc_frame_count_loop l acc = Ok (acc + zsum ns)).
  { induction l as [|r l IH]; intros ms acc HF Ha H; inversion HF as [|? n ? ms' (E & Hn) HF' E1 E2]; subst; cbn [toc_frame_count_loop zsum] in *.
    - unfold zsum in *; cbn in *. f_equal. lia.
    - change TYPE_DIGITAL with 1. rewrite E. cbn [obind].
      assert (Hp : 0 <= zsum ms').
      { clear -HF'. induction HF' as [|? ? ? ? (_ & ?) ? IH]; unfold zsum in *; cbn; lia. }
      unfold zsum in *. cbn in *. rewrite u32_small by lia. rewrite (IH ms') by (try assumption; lia).
      f_equal. lia. }
  intros HF H. replace (toc_reels t) with (reels_of t) by (symmetry; apply toc_reels_eq). rewrite (G _ ns) by (try assumption; lia). f_equal.
Qed.
Lemma toc_bounds t r rest : reels_of t = r :: rest ->
  toc_first_frame t = reel_first_frame r 1 /\ toc_last_frame t = reel_last_frame (last (r :: rest) r) 1.
Proof.
  intro E. unfold toc_first_frame, toc_last_frame, reels_of in *.
  destruct (t_reels t) as [[l|]|]; try discriminate. cbn [vec_list]. subst l. split; [reflexivity|].
  assert (R : rev (r :: rest) = last (r :: rest) r :: rev (removelast (r :: rest))).
  { rewrite (app_removelast_last r (l := r :: rest)) at 1 by discriminate. rewrite rev_app_distr. reflexivity. }
  rewrite R. reflexivity.
Qed.

(** * C43: access by index *)
Lemma section_by_index d i : 0 <= i -> layout_def_get_section d i = nth_error (def_sections d) (Z.to_nat i).
Proof.
  intro H. unfold layout_def_get_section, vec_get, def_sections.
  destruct (ld_sections d) as [[l|]|]; try (now destruct (Z.to_nat i)).
  destruct (i <? _) eqn:E; [reflexivity|]. symmetry. apply nth_error_None. lia.
Qed.
Lemma file_by_index r i : 0 <= i -> reel_file_by_index r i = nth_error (files_of r) (Z.to_nat i).
Proof.
  intro H. unfold reel_file_by_index, vec_get, files_of.
  destruct (r_files r) as [[l|]|]; try (now destruct (Z.to_nat i)).
  destruct (i <? _) eqn:E; [reflexivity|]. symmetry. apply nth_error_None. lia.
Qed.
