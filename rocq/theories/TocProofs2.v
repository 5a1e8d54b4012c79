(** C25-C30. *)
From Verif Require Import CBase CBaseProofs TocModel SpecToc ValidProofs PreviewProofs EqualProofs TocProofs.
From Coq Require Import ZifyBool Sorting.Permutation.

(** * C25: adding *)
Lemma run_only_accepted {S A} (add : S -> A -> S * bool) (stored : S -> list A) (P : A -> Prop) (dom : A -> Prop) :
  (forall s x, dom x -> P x -> snd (add s x) = true /\ stored (fst (add s x)) = stored s ++ [x]) ->
  (forall s x, dom x -> ~ P x -> add s x = (s, false)) ->
  (forall x, dom x -> P x \/ ~ P x) ->
  forall l s, Forall dom l ->
  exists fin, only_accepted P l (snd (run add s l)) fin /\ stored (fst (run add s l)) = stored s ++ fin.
Proof.
  intros Hyes Hno Hdec. induction l as [|x l IH]; intros s Hl.
  - exists []. split; [constructor|]. cbn. rewrite app_nil_r. reflexivity.
  - inversion Hl as [|? ? Hx Hl']; subst. cbn [run]. destruct (Hdec x Hx) as [Hp|Hp].
    + destruct (Hyes s x Hx Hp) as [E1 E2]. destruct (add s x) as [s1 b] eqn:E. cbn [fst snd] in *. subst b.
      destruct (IH s1 Hl') as (fin & H1 & H2). destruct (run add s1 l) as [s2 bs]. cbn [fst snd] in *.
      exists (x :: fin). split; [constructor; assumption|]. rewrite H2, E2, <- app_assoc. reflexivity.
    + rewrite (Hno s x Hx Hp). destruct (IH s Hl') as (fin & H1 & H2). destruct (run add s l) as [s2 bs]. cbn [fst snd] in *.
      exists fin. split; [constructor; assumption|exact H2].
Qed.
Lemma only_accepted_all {A} (P : A -> Prop) l bs fin : only_accepted P l bs fin -> Forall P fin.
Proof. induction 1; auto. Qed.

Ltac adds valid iff :=
  intros; let E := fresh in
  repeat match goal with H : _ |- _ => idtac end.

Lemma bool_dec_iff b (P : Prop) : (b = true <-> P) -> P \/ ~ P.
Proof. intro H. destruct b; [left; apply H; reflexivity|right; rewrite <- H; discriminate]. Qed.

Lemma guarded_add {A} (valid : A -> bool) (P dom : A -> Prop) (l : list A) :
  (forall x, dom x -> valid x = true <-> P x) -> Forall dom l ->
  let r := run (fun (v : option (list A)) x => if negb (valid x) then (v, false) else (vec_append v x, true)) None l in
  only_accepted P l (snd r) (vec_list (fst r)) /\ Forall P (vec_list (fst r)).
Proof.
  intros Hv Hl r.
  destruct (run_only_accepted (fun v x => if negb (valid x) then (v, false) else (vec_append v x, true)) vec_list P dom) with (l := l) (s := @None (list A)) as (fin & H1 & H2).
  - intros s x Hx Hp. rewrite (proj2 (Hv x Hx) Hp). cbn. auto.
  - intros s x Hx Hp. destruct (valid x) eqn:E; [|reflexivity]. exfalso. apply Hp, Hv; assumption.
  - intros x Hx. eapply bool_dec_iff, Hv, Hx.
  - exact Hl.
  - subst r. rewrite H2. cbn [vec_list app]. split; [exact H1|eapply only_accepted_all, H1].
Qed.

Lemma files_history l : Forall file_small l ->
  let r := run files_add_toc None l in
  only_accepted file_ok l (snd r) (vec_list (fst r)) /\ Forall file_ok (vec_list (fst r)).
Proof. apply (guarded_add file_is_valid file_ok file_small). exact file_valid_iff. Qed.
Lemma reels_history l : Forall reel_small l ->
  let r := run reels_add_reel None l in
  only_accepted reel_ok l (snd r) (vec_list (fst r)) /\ Forall reel_ok (vec_list (fst r)).
Proof. apply (guarded_add reel_is_valid reel_ok reel_small). exact reel_valid_iff. Qed.
Lemma metadata_history l :
  let r := run metadata_add_source None l in
  only_accepted msource_ok l (snd r) (vec_list (fst r)) /\ Forall msource_ok (vec_list (fst r)).
Proof.
  apply (guarded_add msource_is_valid msource_ok (fun _ => True)); [intros; apply msource_valid_iff|].
  apply Forall_forall; auto.
Qed.
Lemma fmetadata_history l :
  let r := run fmetadata_add_source None l in
  only_accepted fsource_ok l (snd r) (vec_list (fst r)) /\ Forall fsource_ok (vec_list (fst r)).
Proof.
  apply (guarded_add fsource_is_valid fsource_ok (fun _ => True)); [intros; apply fsource_valid_iff|].
  apply Forall_forall; auto.
Qed.
Lemma pages_history dpi l :
  let r := run preview_add_page (mkPreview None dpi) l in
  only_accepted page_ok l (snd r) (pages_of (fst r)) /\ Forall page_ok (pages_of (fst r)) /\ pv_dpi (fst r) = dpi.
Proof.
  intro r.
  assert (Hd : pv_dpi (fst r) = dpi).
  { subst r. generalize (@None (list page)) as v. induction l as [|x l IH]; intro v; cbn [run]; [reflexivity|].
    unfold preview_add_page at 1. destruct (negb (page_is_valid x)); cbn [pv_pages pv_dpi].
    - specialize (IH v). destruct (run preview_add_page _ l). exact IH.
    - specialize (IH (vec_append v x)). destruct (run preview_add_page _ l). exact IH. }
  destruct (run_only_accepted preview_add_page (fun p => vec_list (pv_pages p)) page_ok (fun _ => True)) with (l := l) (s := mkPreview None dpi) as (fin & H1 & H2).
  - intros s x _ Hp. unfold preview_add_page. rewrite (proj2 (page_valid_iff x) Hp). cbn. auto.
  - intros s x _ Hp. unfold preview_add_page. destruct (page_is_valid x) eqn:E; [|reflexivity]. exfalso. apply Hp, page_valid_iff, E.
  - intros x _. eapply bool_dec_iff, page_valid_iff.
  - apply Forall_forall; auto.
  - fold r in H1, H2. assert (E : pages_of (fst r) = fin). { unfold pages_of. unfold vec_list in H2. cbn in H2. exact H2. }
    rewrite E. split; [exact H1|]. split; [eapply only_accepted_all, H1|exact Hd].
Qed.
Lemma reel_files_history id l : Forall file_small l ->
  let r := run reel_add_file (mkReel id None) l in
  only_accepted file_ok l (snd r) (files_of (fst r)) /\ Forall file_ok (files_of (fst r)).
Proof.
  intros Hl r.
  destruct (run_only_accepted reel_add_file files_of file_ok file_small) with (l := l) (s := mkReel id None) as (fin & H1 & H2).
  - intros s x Hx Hp. unfold reel_add_file. rewrite (proj2 (file_valid_iff x Hx) Hp). cbn [negb fst snd].
    split; [reflexivity|]. unfold files_of; cbn. destruct (r_files s) as [[f|]|]; reflexivity.
  - intros s x Hx Hp. unfold reel_add_file. destruct (file_is_valid x) eqn:E; [|reflexivity]. exfalso. apply Hp, file_valid_iff; assumption.
  - intros x Hx. eapply bool_dec_iff, file_valid_iff, Hx.
  - exact Hl.
  - fold r in H1, H2. rewrite H2. cbn [files_of r_files app]. split; [exact H1|eapply only_accepted_all, H1].
Qed.

(** * C26: frame offsets *)
Lemma set_bit_digital t : set_bit TYPE_DIGITAL t = Z.testbit t 0. Proof. apply set_bit_testbit0. Qed.
Lemma set_bit_preview t : set_bit TYPE_PREVIEW t = Z.testbit t 1. Proof. apply set_bit_testbit1. Qed.

Lemma Forall2_map_r {A B} (R : A -> B -> Prop) (f : A -> B) l : Forall (fun x => R x (f x)) l -> Forall2 R l (map f l).
Proof. induction 1; cbn; constructor; auto. Qed.

Lemma file_offset_shifted mask offset f :
  0 <= offset -> offset_fits offset f -> file_shifted mask offset f (file_offset_step offset mask f).
Proof.
  intros Ho (F1 & F2 & F3 & F4 & F5). unfold file_offset_step, is_i32 in *. rewrite set_bit_digital, set_bit_preview.
  assert (Hp : forall moved : bool, preview_shifted moved offset (f_preview f)
     (if moved then option_map (preview_add_frame_offset offset) (f_preview f) else f_preview f)).
  { intros moved. destruct (f_preview f) as [pv|] eqn:E; [|destruct moved; exact I].
    specialize (F5 pv eq_refl). unfold pages_of in F5. destruct moved; cbn.
    - split; [reflexivity|]. destruct (pv_pages pv) as [l|]; cbn; [|exact I].
      apply Forall2_map_r. eapply Forall_impl; [|exact F5]. intros g Hg. cbv beta in Hg. unfold page_shifted, page_add_offset; cbn [pg_layout_id pg_start_frame pg_start_section pg_section_count pg_dimension_x pg_dimension_y pg_overlap_x pg_overlap_y].
      rewrite u32_small by lia. auto 10.
    - split; [reflexivity|]. destruct (pv_pages pv) as [l|]; [|exact I].
      rewrite <- (map_id l) at 2. apply Forall2_map_r. apply Forall_forall. intros g _. unfold page_shifted. auto 10. }
  assert (Hs : forall moved : bool, shifted moved offset (f_start_frame f)
     (if moved then if 0 <=? f_start_frame f then i32 (f_start_frame f + offset) else f_start_frame f else f_start_frame f)).
  { intros [|]; unfold shifted; cbn [andb]; [|reflexivity]. destruct (Z.leb_spec 0 (f_start_frame f)); [|reflexivity].
    apply i32_small. unfold is_i32. lia. }
  assert (He : forall moved : bool, shifted moved offset (f_end_frame f)
     (if moved then if 0 <=? f_end_frame f then i32 (f_end_frame f + offset) else f_end_frame f else f_end_frame f)).
  { intros [|]; unfold shifted; cbn [andb]; [|reflexivity]. destruct (Z.leb_spec 0 (f_end_frame f)); [|reflexivity].
    apply i32_small. unfold is_i32. lia. }
  specialize (Hp (Z.testbit mask 1)). specialize (Hs (Z.testbit mask 0)). specialize (He (Z.testbit mask 0)).
  unfold file_shifted.
  destruct (Z.testbit mask 0), (Z.testbit mask 1); cbn; auto 20.
Qed.

Lemma files_offset_shifted mask offset v :
  0 <= offset -> Forall (offset_fits offset) (vec_list v) ->
  Forall2 (file_shifted mask offset) (vec_list v) (vec_list (files_add_frame_offset v offset mask)).
Proof.
  intros Ho H. destruct v as [l|]; cbn; [|constructor]. apply Forall2_map_r.
  eapply Forall_impl; [|exact H]. intros f Hf. apply file_offset_shifted; assumption.
Qed.

Lemma section_type_digital sect : Z.testbit (section_type sect) 0 = Z.testbit sect 0.
Proof. unfold section_type. rewrite set_bit_testbit0, set_bit_testbit1. destruct (Z.testbit sect 0), (Z.testbit sect 1); reflexivity. Qed.
Lemma section_type_preview sect : Z.testbit (section_type sect) 1 = Z.testbit sect 1.
Proof. unfold section_type. rewrite set_bit_testbit0, set_bit_testbit1. destruct (Z.testbit sect 0), (Z.testbit sect 1); reflexivity. Qed.
Lemma section_type_zero sect : section_type sect = 0 -> Z.testbit sect 0 = false /\ Z.testbit sect 1 = false.
Proof. unfold section_type. rewrite set_bit_testbit0, set_bit_testbit1. destruct (Z.testbit sect 0), (Z.testbit sect 1); cbn; auto; discriminate. Qed.

Lemma file_shifted_mask m1 m2 offset a b :
  Z.testbit m1 0 = Z.testbit m2 0 -> Z.testbit m1 1 = Z.testbit m2 1 ->
  file_shifted m1 offset a b -> file_shifted m2 offset a b.
Proof. unfold file_shifted. intros -> ->. auto. Qed.
Lemma page_shifted_refl offset g : page_shifted false offset g g.
Proof. unfold page_shifted. auto 10. Qed.
Lemma Forall2_refl {A} (R : A -> A -> Prop) l : (forall x, R x x) -> Forall2 R l l.
Proof. intro H. induction l; constructor; auto. Qed.
Lemma file_shifted_refl m offset f : Z.testbit m 0 = false -> Z.testbit m 1 = false -> file_shifted m offset f f.
Proof.
  unfold file_shifted, shifted. intros -> ->. cbn [andb].
  assert (preview_shifted false offset (f_preview f) (f_preview f)).
  { destruct (f_preview f) as [p|]; [|exact I]. cbn. split; [reflexivity|]. destruct (pv_pages p); [|exact I].
    apply Forall2_refl, page_shifted_refl. }
  auto 20.
Qed.

Lemma reel_offset_shifted mask offset r :
  0 <= offset -> Forall (offset_fits offset) (files_of r) ->
  reel_shifted mask offset r (reel_add_frame_offset r offset mask).
Proof.
  intros Ho H. unfold reel_add_frame_offset. destruct (r_files r) as [v|] eqn:E.
  - destruct (Z.eqb_spec (section_type mask) 0) as [Z0|Z0].
    + apply section_type_zero in Z0 as [Z1 Z2]. repeat split; auto. apply Forall2_refl. intro f. apply file_shifted_refl; assumption.
    + assert (E2 : files_of r = vec_list v) by (unfold files_of; rewrite E; destruct v; reflexivity).
      split; [reflexivity|]. split; [|rewrite E; cbn; split; discriminate].
      assert (E3 : files_of (mkReel (r_id r) (Some (files_add_frame_offset v offset (section_type mask)))) = vec_list (files_add_frame_offset v offset (section_type mask))).
      { unfold files_of; cbn. destruct v; reflexivity. }
      rewrite E3, E2. rewrite E2 in H. pose proof (files_offset_shifted (section_type mask) offset v Ho H) as HF.
      clear -HF. induction HF; constructor; auto. eapply file_shifted_mask; [apply section_type_digital|apply section_type_preview|assumption].
  - split; [reflexivity|]. split; [|tauto]. unfold files_of. rewrite E. constructor.
Qed.

Lemma toc_offset_shifted mask offset t :
  0 <= offset -> Forall (fun r => Forall (offset_fits offset) (files_of r)) (reels_of t) ->
  toc_shifted mask offset t (toc_add_frame_offset t offset mask).
Proof.
  intros Ho H. unfold toc_shifted, toc_add_frame_offset; cbn. repeat split.
  unfold reels_of in *; cbn. destruct (t_reels t) as [[l|]|]; cbn; [|constructor|constructor].
  apply Forall2_map_r. eapply Forall_impl; [|exact H]. intros r Hr. apply reel_offset_shifted; assumption.
Qed.

(** Consequences of [file_shifted]: validity and durations are kept, offsets add up. *)
Lemma preview_shifted_ok moved offset a b p :
  preview_shifted moved offset a b -> a = Some p -> preview_ok p -> exists q, b = Some q /\ preview_ok q.
Proof.
  intros H -> [H1 H2]. destruct b as [q|]; [|destruct H]. exists q. split; [reflexivity|]. destruct H as [_ H].
  unfold preview_ok, pages_of in *. destruct (pv_pages p) as [l|], (pv_pages q) as [m|]; try contradiction.
  split.
  - intro E. subst. inversion H; subst. contradiction.
  - clear H1. induction H as [|x y l m Hxy _ IH]; inversion H2; subst; constructor; auto.
    destruct Hxy as (_ & E1 & E2 & E3 & E4 & E5 & E6 & E7). unfold page_ok in *. rewrite E1, E3, E4, E5, E6, E7. assumption.
Qed.
Lemma file_shifted_ok mask offset a b :
  0 <= offset -> file_shifted mask offset a b -> file_ok a -> file_ok b.
Proof.
  intros Ho (S1 & S2 & S3 & E1 & E2 & E3 & E4 & E5 & E6 & E7 & E8 & E9 & E10 & E11 & E12) (O1 & O2 & O3 & O4 & O5 & O6).
  unfold file_ok, digital, previewed, fsources_of in *. rewrite E1, E2, E3, E5, E6, E7, E10, E12.
  split; [exact O1|]. split; [exact O2|]. split; [exact O3|]. split; [|split; [|exact O6]].
  - intro D. destruct (O4 D) as (A1 & A2 & A3 & A4). unfold shifted in S1, S2.
    rewrite S1, S2. destruct (Z.testbit mask 0); cbn [andb]; [|auto].
    replace (0 <=? f_start_frame a) with true by lia. replace (0 <=? f_end_frame a) with true by lia.
    repeat split; try lia; auto.
  - intro P. destruct (O5 P) as (p & Ep & Hp). eapply preview_shifted_ok; eauto.
Qed.
Lemma file_shifted_duration mask offset a b :
  file_shifted mask offset a b -> 0 <= f_start_frame a -> 0 <= f_end_frame a ->
  f_end_frame b - f_start_frame b = f_end_frame a - f_start_frame a.
Proof.
  intros (S1 & S2 & _) H1 H2. unfold shifted in *. rewrite S1, S2. destruct (Z.testbit mask 0); cbn [andb]; [|lia].
  replace (0 <=? f_start_frame a) with true by lia. replace (0 <=? f_end_frame a) with true by lia. lia.
Qed.
Lemma page_shifted_trans m o1 o2 a b c : page_shifted m o1 a b -> page_shifted m o2 b c -> page_shifted m (o1 + o2) a c.
Proof.
  unfold page_shifted. intros (A1 & ? & ? & ? & ? & ? & ? & ?) (B1 & ? & ? & ? & ? & ? & ? & ?).
  split; [destruct m; lia|]. repeat split; congruence.
Qed.
Lemma preview_shifted_trans m o1 o2 a b c : preview_shifted m o1 a b -> preview_shifted m o2 b c -> preview_shifted m (o1 + o2) a c.
Proof.
  destruct a as [a|], b as [b|], c as [c|]; cbn; try tauto. intros [A1 A2] [B1 B2]. split; [congruence|].
  destruct (pv_pages a), (pv_pages b), (pv_pages c); try tauto.
  revert l1 B2. induction A2 as [|x y l l0 Hxy _ IH]; intros l1 B2; inversion B2; subst; constructor; eauto using page_shifted_trans.
Qed.
Lemma shifted_trans m o1 o2 a b c : 0 <= o1 -> 0 <= o2 -> shifted m o1 a b -> shifted m o2 b c -> shifted m (o1 + o2) a c.
Proof. unfold shifted. intros H1 H2 E1 E2. destruct m; cbn [andb] in *; [|congruence]. destruct (Z.leb_spec 0 a); destruct (Z.leb_spec 0 b); lia. Qed.
Lemma file_shifted_trans m o1 o2 a b c :
  0 <= o1 -> 0 <= o2 -> file_shifted m o1 a b -> file_shifted m o2 b c -> file_shifted m (o1 + o2) a c.
Proof.
  intros H1 H2 (A1 & A2 & A3 & ? & ? & ? & ? & ? & ? & ? & ? & ? & ? & ? & ?)
               (B1 & B2 & B3 & ? & ? & ? & ? & ? & ? & ? & ? & ? & ? & ? & ?).
  split; [eapply shifted_trans; eassumption|]. split; [eapply shifted_trans; eassumption|].
  split; [eapply preview_shifted_trans; eassumption|]. repeat split; congruence.
Qed.
(** A shift determines its result. *)
Lemma Forall2_functional {A} (R : A -> A -> Prop) l m n :
  (forall x y z, R x y -> R x z -> y = z) -> Forall2 R l m -> Forall2 R l n -> m = n.
Proof.
  intros H H1. revert n. induction H1 as [|x y l m Hxy _ IH]; intros n H2; inversion H2; subst; [reflexivity|].
  f_equal; eauto.
Qed.
Lemma page_shifted_fun m o a b c : page_shifted m o a b -> page_shifted m o a c -> b = c.
Proof.
  unfold page_shifted. destruct b, c; cbn. intros (A & ? & ? & ? & ? & ? & ? & ?) (B & ? & ? & ? & ? & ? & ? & ?).
  f_equal; congruence.
Qed.
Lemma file_eta f :
  f = mkFile (f_name f) (f_date f) (f_checksum f) (f_size f) (f_id f) (f_start_frame f) (f_start_byte f)
         (f_end_frame f) (f_end_byte f) (f_unique_id f) (f_parent_id f) (f_types f)
         (f_preview f) (f_file_format f) (f_metadata f).
Proof. destruct f; reflexivity. Qed.
Lemma file_shifted_fun m o a b c : file_shifted m o a b -> file_shifted m o a c -> b = c.
Proof.
  unfold file_shifted, shifted.
  intros (A1 & A2 & A3 & A4 & A5 & A6 & A7 & A8 & A9 & A10 & A11 & A12 & A13 & A14 & A15)
         (B1 & B2 & B3 & B4 & B5 & B6 & B7 & B8 & B9 & B10 & B11 & B12 & B13 & B14 & B15).
  assert (E : f_preview b = f_preview c).
  { clear -A3 B3. destruct (f_preview a) as [p|], (f_preview b) as [q|], (f_preview c) as [s|]; cbn in A3, B3; try tauto.
    destruct A3 as [A3 A4], B3 as [B3 B4]. f_equal. destruct p as [pp pd], q as [qp qd], s as [sp sd]; cbn in *.
    f_equal; [|congruence]. destruct pp, qp, sp; try tauto. f_equal. eapply Forall2_functional; [|eassumption|eassumption].
    intros ? ? ?. apply page_shifted_fun. }
  rewrite (file_eta b), (file_eta c).
  rewrite E, A1, A2, A4, A5, A6, A7, A8, A9, A10, A11, A12, A13, A14, A15,
             B1, B2, B4, B5, B6, B7, B8, B9, B10, B11, B12, B13, B14, B15. reflexivity.
Qed.
Lemma file_offset_twice mask o1 o2 f :
  0 <= o1 -> 0 <= o2 -> offset_fits (o1 + o2) f ->
  file_offset_step o2 mask (file_offset_step o1 mask f) = file_offset_step (o1 + o2) mask f.
Proof.
  intros H1 H2 F.
  assert (F1 : offset_fits o1 f).
  { destruct F as (A & B & C & D & E). repeat split; unfold is_i32 in *; try lia. intros pv Hpv. specialize (E pv Hpv).
    eapply Forall_impl; [|exact E]. intros g Hg. cbv beta in *. lia. }
  assert (S1 := file_offset_shifted mask o1 f H1 F1).
  assert (F2 : offset_fits o2 (file_offset_step o1 mask f)).
  { destruct F as (A & B & C & D & E). destruct S1 as (S1 & S2 & S3 & _). unfold shifted in *.
    assert (forall z b : Z, b = (if Z.testbit mask 0 && (0 <=? z) then z + o1 else z) -> is_i32 z -> z + (o1 + o2) < 2^31 -> is_i32 b /\ b + o2 < 2^31) as Hz.
    { intros z b -> Hz Hz2. unfold is_i32 in *. destruct (Z.testbit mask 0); cbn [andb]; [|lia]. destruct (Z.leb_spec 0 z); lia. }
    destruct (Hz _ _ S1 A C), (Hz _ _ S2 B D). repeat split; try tauto; unfold is_i32 in *; try lia.
    intros pv Hpv. rewrite Hpv in S3. destruct (f_preview f) as [p|]; [|destruct S3]. specialize (E p eq_refl).
    destruct S3 as [_ S3]. unfold pages_of in *. destruct (pv_pages p), (pv_pages pv); try tauto; [|constructor].
    clear -S3 E H1 H2. induction S3 as [|x y l m Hxy HF IH]; inversion E as [|? ? Ex El]; subst; constructor; [|auto].
    destruct Hxy as (Hxy & _). destruct (Z.testbit mask 1); cbv beta in *; lia. }
  assert (S2 := file_offset_shifted mask o2 _ H2 F2).
  eapply file_shifted_fun; [eapply file_shifted_trans; [| |exact S1|exact S2]; assumption|].
  apply file_offset_shifted; [lia|exact F].
Qed.
Lemma file_offset_zero mask f : offset_fits 0 f -> file_offset_step 0 mask f = f.
Proof.
  intro F. eapply (file_shifted_fun mask 0 f); [apply file_offset_shifted; [lia|exact F]|].
  assert (P : forall m, preview_shifted m 0 (f_preview f) (f_preview f)).
  { intro m. destruct (f_preview f) as [p|]; [|exact I]. cbn. split; [reflexivity|]. destruct (pv_pages p); [|exact I].
    apply Forall2_refl. intro g. unfold page_shifted. split; [destruct m; lia|auto 10]. }
  unfold file_shifted, shifted. repeat split; try apply P; destruct (_ && _); lia.
Qed.

(** afs_toc_file_add_frame_offset on a single file. *)
Lemma single_file_offset offset f :
  0 <= offset -> is_i32 (f_start_frame f) -> is_i32 (f_end_frame f) ->
  f_start_frame f + offset < 2^31 -> f_end_frame f + offset < 2^31 ->
  let moved := (0 <=? f_start_frame f) && (0 <=? f_end_frame f) in
  file_add_frame_offset offset f =
    file_set_frames f (if moved then f_start_frame f + offset else f_start_frame f)
                      (if moved then f_end_frame f + offset else f_end_frame f).
Proof.
  intros Ho A B C D moved. unfold file_add_frame_offset, is_i32 in *. subst moved.
  destruct (Z.ltb_spec (f_start_frame f) 0), (Z.ltb_spec (f_end_frame f) 0); cbn [orb].
  1-3: replace (_ && _) with false by lia; destruct f; reflexivity.
  replace (_ && _) with true by lia. rewrite !i32_small by (unfold is_i32; lia). reflexivity.
Qed.
