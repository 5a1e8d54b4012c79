(** Clone and equality (C24). *)
From Verif Require Import CBase CBaseProofs TocModel.
From Coq Require Import ZifyBool.

(** A boolean relation that is an equivalence. *)
Definition equivalence {A} (eqf : A -> A -> bool) : Prop :=
  (forall a, eqf a a = true) /\
  (forall a b, eqf a b = true -> eqf b a = true) /\
  (forall a b c, eqf a b = true -> eqf b c = true -> eqf a c = true).

Lemma equivalence_on {A B} (f : A -> B) (eqf : A -> A -> bool) :
  (forall a b, eqf a b = true <-> f a = f b) -> equivalence eqf.
Proof. intro H. repeat split; intros *; rewrite !H; congruence. Qed.

Lemma equivalence_and {A} (e1 e2 : A -> A -> bool) :
  equivalence e1 -> equivalence e2 -> equivalence (fun a b => e1 a b && e2 a b).
Proof.
  intros (R1 & S1 & T1) (R2 & S2 & T2). repeat split; intros *; rewrite ?andb_true_iff.
  - rewrite R1, R2; auto.
  - intros [H1 H2]; auto.
  - intros [H1 H2] [H3 H4]; eauto.
Qed.
Lemma equivalence_by {A B} (f : A -> B) (e : B -> B -> bool) :
  equivalence e -> equivalence (fun a b => e (f a) (f b)).
Proof. intros (R & S & T). repeat split; intros *; eauto. Qed.
Lemma equivalence_str : equivalence str_equal.
Proof. apply (equivalence_on or_empty). intros; unfold str_equal; apply str_eqb_eq. Qed.
Lemma equivalence_str_eqb : equivalence str_eqb.
Proof. apply (equivalence_on (fun x => x)). intros; apply str_eqb_eq. Qed.
Lemma equivalence_Z : equivalence Z.eqb.
Proof. apply (equivalence_on (fun x => x)). intros; apply Z.eqb_eq. Qed.
Lemma equivalence_ptr {A} (e : A -> A -> bool) : equivalence e -> equivalence (ptr_equal e).
Proof.
  intros (R & S & T). repeat split.
  - intros [a|]; cbn; auto.
  - intros [a|] [b|]; cbn; auto.
  - intros [a|] [b|] [c|]; cbn; eauto; discriminate.
Qed.
Lemma equivalence_list {A} (e : A -> A -> bool) : equivalence e -> equivalence (list_equal e).
Proof.
  intros (R & S & T). repeat split.
  - induction a as [|x a IH]; cbn; [reflexivity|]. rewrite R, IH; reflexivity.
  - induction a as [|x a IH]; intros [|y b]; cbn; auto. rewrite !andb_true_iff. intros [H1 H2]; auto.
  - induction a as [|x a IH]; intros [|y b] [|z c]; cbn; auto; try discriminate.
    rewrite !andb_true_iff. intros [H1 H2] [H3 H4]; eauto.
Qed.
Lemma equivalence_vec {A} (e : A -> A -> bool) : equivalence e -> equivalence (vec_equal e).
Proof. intro H. apply equivalence_ptr, equivalence_list, H. Qed.

Ltac equiv_and := repeat match goal with
  | |- equivalence (fun a b => _ && _) => apply (equivalence_and (fun a b => _) (fun a b => _))
  end.
Ltac equiv_field := first
  [ apply (equivalence_by _ Z.eqb equivalence_Z)
  | apply (equivalence_by _ str_equal equivalence_str) ].

Lemma section_equal_equiv : equivalence section_equal.
Proof. unfold section_equal. equiv_and; equiv_field. Qed.
Lemma sections_equal_equiv : equivalence sections_equal.
Proof. apply equivalence_vec, section_equal_equiv. Qed.
Lemma layout_def_equal_equiv : equivalence layout_def_equal.
Proof.
  unfold layout_def_equal. equiv_and; try equiv_field.
  apply (equivalence_by _ _ (equivalence_ptr _ sections_equal_equiv)).
Qed.
Lemma layout_defs_equal_equiv : equivalence layout_defs_equal.
Proof. apply equivalence_vec, layout_def_equal_equiv. Qed.
Lemma page_equal_equiv : equivalence page_equal.
Proof. unfold page_equal. equiv_and; equiv_field. Qed.
Lemma preview_equal_equiv : equivalence preview_equal.
Proof.
  unfold preview_equal. equiv_and; try equiv_field.
  apply (equivalence_by _ _ (equivalence_vec _ page_equal_equiv)).
Qed.
Lemma fsource_equal_equiv : equivalence fsource_equal.
Proof. unfold fsource_equal. equiv_and; equiv_field. Qed.
Lemma fmetadata_equal_equiv : equivalence fmetadata_equal.
Proof. apply equivalence_vec, fsource_equal_equiv. Qed.
Lemma msource_equal_equiv : equivalence msource_equal.
Proof.
  unfold msource_equal. equiv_and; try equiv_field.
  apply (equivalence_by _ _ (equivalence_vec _ equivalence_str_eqb)).
Qed.
Lemma metadata_equal_equiv : equivalence metadata_equal.
Proof. apply equivalence_vec, msource_equal_equiv. Qed.
Lemma file_equal_equiv : equivalence file_equal.
Proof.
  unfold file_equal. equiv_and; try equiv_field.
  - apply (equivalence_by _ _ (equivalence_ptr _ preview_equal_equiv)).
  - apply (equivalence_by _ _ (equivalence_ptr _ fmetadata_equal_equiv)).
Qed.
Lemma files_equal_equiv : equivalence files_equal.
Proof. apply equivalence_vec, file_equal_equiv. Qed.
Lemma reel_equal_equiv : equivalence reel_equal.
Proof.
  unfold reel_equal. equiv_and; try equiv_field.
  apply (equivalence_by _ _ (equivalence_ptr _ files_equal_equiv)).
Qed.
Lemma reels_equal_equiv : equivalence reels_equal.
Proof. apply equivalence_vec, reel_equal_equiv. Qed.

(** Equal or both empty: still an equivalence because equal containers have equal counts. *)
Lemma list_equal_length {A} (e : A -> A -> bool) a b : list_equal e a b = true -> List.length a = List.length b.
Proof.
  revert b; induction a as [|x a IH]; intros [|y b]; cbn; auto; try discriminate.
  rewrite andb_true_iff. intros [_ H]. f_equal; auto.
Qed.
Lemma equivalence_or_empty {A} (e : A -> A -> bool) (count : option (option (list A)) -> Z) :
  equivalence e ->
  (forall v, count v = match v with Some v => u32 (vec_size v) | None => 0 end) ->
  equivalence (fun a b => ptr_equal (vec_equal e) a b || ((count a =? 0) && (count b =? 0))).
Proof.
  intros He Hc. pose proof (equivalence_ptr _ (equivalence_vec _ He)) as (R & S & T).
  assert (Hcount : forall a b, ptr_equal (vec_equal e) a b = true -> count a = count b).
  { intros a b H. rewrite !Hc. destruct a as [[a|]|], b as [[b|]|]; cbn in H; try discriminate; try reflexivity.
    unfold vec_size; cbn [vec_list]. rewrite (list_equal_length _ _ _ H). reflexivity. }
  repeat split.
  - intro a. rewrite R. reflexivity.
  - intros a b. rewrite !orb_true_iff, !andb_true_iff. intros [H|[H1 H2]]; auto.
  - intros a b c. rewrite !orb_true_iff, !andb_true_iff.
    intros [H|[H1 H2]] [H'|[H1' H2']]; eauto.
    + apply Hcount in H. rewrite H. auto.
    + apply Hcount in H'. rewrite <- H'. auto.
Qed.
Lemma toc_equal_equiv : equivalence toc_equal.
Proof.
  unfold toc_equal. equiv_and; try equiv_field.
  - apply (equivalence_by t_reels _ (equivalence_or_empty reel_equal reels_count reel_equal_equiv ltac:(reflexivity))).
  - apply (equivalence_by t_metadata _ (equivalence_or_empty msource_equal metadata_count msource_equal_equiv ltac:(reflexivity))).
  - apply (equivalence_by t_layouts _ (equivalence_or_empty layout_def_equal layout_defs_count layout_def_equal_equiv ltac:(reflexivity))).
Qed.

(** * Clones are the same values *)
Lemma clone_vec_id {A} (c : A -> A) v : (forall x, c x = x) -> clone_vec c v = v.
Proof.
  intro H. destruct v as [l|]; cbn; [|reflexivity]. f_equal. rewrite <- (map_id l) at 2. apply map_ext, H.
Qed.
Lemma option_map_idem {A} (c : A -> A) v : (forall x, c x = x) -> option_map c v = v.
Proof. intro H. destruct v; cbn; [rewrite H|]; reflexivity. Qed.
Lemma section_clone_id s : section_clone s = s. Proof. destruct s; reflexivity. Qed.
Lemma sections_clone_id s : sections_clone s = s. Proof. apply clone_vec_id, section_clone_id. Qed.
Lemma layout_def_clone_id d : layout_def_clone d = d.
Proof. destruct d; unfold layout_def_clone; cbn. f_equal. apply option_map_idem, sections_clone_id. Qed.
Lemma layout_defs_clone_id d : layout_defs_clone d = d. Proof. apply clone_vec_id, layout_def_clone_id. Qed.
Lemma page_clone_id p : page_clone p = p. Proof. destruct p; reflexivity. Qed.
Lemma preview_clone_id p : preview_clone p = p.
Proof. destruct p as [[l|] d]; unfold preview_clone; cbn; [|reflexivity]. do 2 f_equal. rewrite <- (map_id l) at 2. apply map_ext, page_clone_id. Qed.
Lemma fsource_clone_id s : fsource_clone s = s. Proof. destruct s; reflexivity. Qed.
Lemma fmetadata_clone_id s : fmetadata_clone s = s. Proof. apply clone_vec_id, fsource_clone_id. Qed.
Lemma msource_clone_id s : msource_clone s = s.
Proof. destruct s; unfold msource_clone; cbn. f_equal. apply clone_vec_id. reflexivity. Qed.
Lemma metadata_clone_id s : metadata_clone s = s. Proof. apply clone_vec_id, msource_clone_id. Qed.
Lemma file_clone_id f : file_clone f = f.
Proof.
  destruct f; unfold file_clone; cbn. f_equal; apply option_map_idem; [apply preview_clone_id|apply fmetadata_clone_id].
Qed.
Lemma files_clone_id f : files_clone f = f. Proof. apply clone_vec_id, file_clone_id. Qed.
Lemma reel_clone_id r : reel_clone r = r.
Proof. destruct r; unfold reel_clone; cbn. f_equal. apply option_map_idem, files_clone_id. Qed.
Lemma reels_clone_id r : reels_clone r = r. Proof. apply clone_vec_id, reel_clone_id. Qed.
Lemma toc_clone_id t : toc_clone t = t.
Proof.
  destruct t; unfold toc_clone; cbn.
  f_equal; apply option_map_idem; [apply reels_clone_id|apply metadata_clone_id|apply layout_defs_clone_id].
Qed.

(** * Equality is agreement of every field *)
From Verif Require Import SpecToc ValidProofs.

Definition decides {A B} (norm : A -> B) (e : A -> A -> bool) : Prop :=
  forall a b, e a b = true <-> norm a = norm b.
Lemma str_decides a b : str_equal a b = true <-> nstr a = nstr b.
Proof. unfold str_equal, nstr. rewrite str_eqb_eq. destruct a, b; cbn; split; congruence. Qed.
Lemma list_decides {A B} (n : A -> B) e : decides n e -> decides (map n) (list_equal e).
Proof.
  intros H a. induction a as [|x a IH]; intros [|y b]; cbn; split; intro E; try discriminate; try reflexivity.
  - apply andb_true_iff in E as [E1 E2]. apply H in E1. apply IH in E2. congruence.
  - injection E as E1 E2. apply andb_true_iff. split; [apply H, E1|apply IH, E2].
Qed.
Lemma ptr_decides {A B} (n : A -> B) e : decides n e -> decides (option_map n) (ptr_equal e).
Proof.
  intros H [a|] [b|]; cbn; split; intro E; try discriminate; try reflexivity.
  - f_equal. apply H, E.
  - apply H. injection E; auto.
Qed.
Lemma vec_decides {A B} (n : A -> B) e : decides n e -> decides (option_map (map n)) (vec_equal e).
Proof. intro H. apply ptr_decides, list_decides, H. Qed.
Lemma id_vec {A} (v : option (list A)) : option_map (map (fun x => x)) v = v.
Proof. destruct v; cbn; [rewrite map_id|]; reflexivity. Qed.
Lemma id_opt {A} (v : option A) : option_map (fun x => x) v = v.
Proof. destruct v; reflexivity. Qed.

Lemma section_decides : decides (fun x => x) section_equal.
Proof.
  intros [a1 a2 a3 a4 a5 a6] [b1 b2 b3 b4 b5 b6]. unfold section_equal; cbn.
  rewrite !andb_true_iff, !Z.eqb_eq. split; [intros; f_equal; tauto|intros [= -> -> -> -> -> ->]; auto 7].
Qed.
Lemma sections_decides : decides (fun x => x) sections_equal.
Proof.
  intros a b. unfold sections_equal. rewrite (vec_decides _ _ section_decides a b), !id_vec. reflexivity.
Qed.
Lemma def_decides : decides norm_def layout_def_equal.
Proof.
  intros [a1 a2 a3] [b1 b2 b3]. unfold layout_def_equal, norm_def; cbn [ld_id ld_name ld_sections].
  rewrite !andb_true_iff, !str_decides, (ptr_decides _ _ sections_decides a3 b3), !id_opt.
  split; [intros; f_equal; tauto|intros [= ? ? ?]; unfold nstr; intuition congruence].
Qed.
Lemma page_decides : decides norm_page page_equal.
Proof.
  intros a b. unfold page_equal.
  rewrite !andb_true_iff, !Z.eqb_eq, !str_decides.
  split.
  - intro H. repeat match goal with H : _ /\ _ |- _ => destruct H end. unfold norm_page.
    repeat match goal with H : _ = _ |- _ => rewrite H; clear H end. reflexivity.
  - intro H. repeat split; [exact (f_equal pg_layout_id H)|exact (f_equal pg_start_frame H)|exact (f_equal pg_start_section H)|exact (f_equal pg_section_count H)|exact (f_equal pg_dimension_x H)|exact (f_equal pg_dimension_y H)|exact (f_equal pg_overlap_x H)|exact (f_equal pg_overlap_y H)].
Qed.
Lemma preview_decides : decides norm_preview preview_equal.
Proof.
  intros a b. unfold preview_equal.
  rewrite !andb_true_iff, !Z.eqb_eq, (vec_decides _ _ page_decides _ _).
  split.
  - intro H. repeat match goal with H : _ /\ _ |- _ => destruct H end. unfold norm_preview.
    repeat match goal with H : _ = _ |- _ => rewrite H; clear H end. reflexivity.
  - intro H. repeat split; [exact (f_equal pv_pages H)|exact (f_equal pv_dpi H)].
Qed.
Lemma fsource_decides : decides norm_fsource fsource_equal.
Proof.
  intros a b. unfold fsource_equal.
  rewrite !andb_true_iff, !Z.eqb_eq, !str_decides.
  split.
  - intro H. repeat match goal with H : _ /\ _ |- _ => destruct H end. unfold norm_fsource.
    repeat match goal with H : _ = _ |- _ => rewrite H; clear H end. reflexivity.
  - intro H. repeat split; [exact (f_equal fs_data H)|exact (f_equal fs_format_id H)|exact (f_equal fs_file_id H)|exact (f_equal fs_source_id H)].
Qed.
Lemma msource_decides : decides norm_msource msource_equal.
Proof.
  intros a b. unfold msource_equal.
  rewrite !andb_true_iff, !Z.eqb_eq, !str_decides, (vec_decides (fun x => x) str_eqb str_eqb_eq _ _), !id_vec.
  split.
  - intro H. repeat match goal with H : _ /\ _ |- _ => destruct H end. unfold norm_msource.
    repeat match goal with H : _ = _ |- _ => rewrite H; clear H end. reflexivity.
  - intro H. repeat split; [exact (f_equal ms_tags H)|exact (f_equal ms_format H)|exact (f_equal ms_id H)|exact (f_equal ms_file_id H)|exact (f_equal ms_data H)].
Qed.
Lemma file_decides : decides norm_file file_equal.
Proof.
  intros a b. unfold file_equal.
  rewrite !andb_true_iff, !Z.eqb_eq, !str_decides, (ptr_decides _ _ preview_decides _ _), (ptr_decides _ _ (vec_decides _ _ fsource_decides) _ _).
  split.
  - intro H. repeat match goal with H : _ /\ _ |- _ => destruct H end. unfold norm_file.
    repeat match goal with H : _ = _ |- _ => rewrite H; clear H end. reflexivity.
  - intro H. repeat split; [exact (f_equal f_name H)|exact (f_equal f_date H)|exact (f_equal f_checksum H)|exact (f_equal f_size H)|exact (f_equal f_id H)|exact (f_equal f_start_frame H)|exact (f_equal f_start_byte H)|exact (f_equal f_end_frame H)|exact (f_equal f_end_byte H)|exact (f_equal f_unique_id H)|exact (f_equal f_parent_id H)|exact (f_equal f_types H)|exact (f_equal f_preview H)|exact (f_equal f_file_format H)|exact (f_equal f_metadata H)].
Qed.
Lemma reel_decides : decides norm_reel reel_equal.
Proof.
  intros a b. unfold reel_equal.
  rewrite !andb_true_iff, !str_decides, (ptr_decides _ _ (vec_decides _ _ file_decides) _ _).
  split.
  - intro H. repeat match goal with H : _ /\ _ |- _ => destruct H end. unfold norm_reel.
    repeat match goal with H : _ = _ |- _ => rewrite H; clear H end. reflexivity.
  - intro H. repeat split; [exact (f_equal r_id H)|exact (f_equal r_files H)].
Qed.

Definition toc_sizes (t : toc_data) : Prop := small (reels_of t) /\ small (msources_of t) /\ small (layouts_of t).
Lemma container_decides {A B} (n : A -> B) e (a b : option (option (list A))) (count : option (option (list A)) -> Z) :
  let ls v := match v with Some (Some l) => l | _ => [] end in
  decides n e -> (forall v, count v = match v with Some v => u32 (vec_size v) | None => 0 end) ->
  small (ls a) -> small (ls b) ->
  ptr_equal (vec_equal e) a b || ((count a =? 0) && (count b =? 0)) = true <-> map n (ls a) = map n (ls b).
Proof.
  intros ls Hd Hc Ha Hb.
  assert (Hcount : forall v, small (ls v) -> (count v =? 0) = true <-> ls v = []).
  { intros v Hv. rewrite Hc. destruct v as [[l|]|]; cbn [ls] in *; try (split; reflexivity).
    unfold vec_size, small in *; cbn [vec_list ls] in *. rewrite u32_small by lia.
    destruct l; cbn [List.length]; [split; reflexivity|]. split; [lia|discriminate]. }
  rewrite orb_true_iff, andb_true_iff, (Hcount a Ha), (Hcount b Hb).
  rewrite (ptr_decides _ _ (vec_decides _ _ Hd) a b).
  destruct a as [[a|]|], b as [[b|]|]; cbn [ls option_map] in *; split; intro H;
    try (destruct H as [H|[H1 H2]]; [try discriminate; try (injection H as H); try congruence|subst; reflexivity]); try reflexivity; auto.
  - left. do 2 f_equal. exact H.
  - apply map_eq_nil in H as ->. auto.
  - apply map_eq_nil in H as ->. auto.
  - symmetry in H. apply map_eq_nil in H as ->. auto.
  - symmetry in H. apply map_eq_nil in H as ->. auto.
Qed.
Lemma toc_decides a b : toc_sizes a -> toc_sizes b -> toc_equal a b = true <-> norm_toc a = norm_toc b.
Proof.
  intros (A1 & A2 & A3) (B1 & B2 & B3). unfold toc_equal, norm_toc.
  rewrite !andb_true_iff, !str_decides.
  unfold reels_equal, metadata_equal, layout_defs_equal, toc_reel_count, toc_metadata_source_count, toc_layout_count.
  rewrite (container_decides norm_reel reel_equal _ _ reels_count reel_decides ltac:(reflexivity) A1 B1).
  rewrite (container_decides norm_msource msource_equal _ _ metadata_count msource_decides ltac:(reflexivity) A2 B2).
  rewrite (container_decides norm_def layout_def_equal _ _ layout_defs_count def_decides ltac:(reflexivity) A3 B3).
  fold (reels_of a) (reels_of b) (msources_of a) (msources_of b) (layouts_of a) (layouts_of b).
  split.
  - intros H. destruct H as [[[[[[-> ->] ->] ->] ->] ->] ->]. reflexivity.
  - intro H. injection H as H1 H2 H3 H4 H5 H6 H7. unfold nstr. rewrite H1, H2, H3, H4, H5, H6, H7. tauto.
Qed.

Lemma clones_equal :
  (forall x, section_equal (section_clone x) x = true) /\ (forall x, sections_equal (sections_clone x) x = true) /\
  (forall x, layout_def_equal (layout_def_clone x) x = true) /\ (forall x, layout_defs_equal (layout_defs_clone x) x = true) /\
  (forall x, page_equal (page_clone x) x = true) /\ (forall x, preview_equal (preview_clone x) x = true) /\
  (forall x, fsource_equal (fsource_clone x) x = true) /\ (forall x, fmetadata_equal (fmetadata_clone x) x = true) /\
  (forall x, msource_equal (msource_clone x) x = true) /\ (forall x, metadata_equal (metadata_clone x) x = true) /\
  (forall x, file_equal (file_clone x) x = true) /\ (forall x, files_equal (files_clone x) x = true) /\
  (forall x, reel_equal (reel_clone x) x = true) /\ (forall x, reels_equal (reels_clone x) x = true) /\
  (forall x, toc_equal (toc_clone x) x = true).
Proof.
  repeat split; intro x.
  - rewrite section_clone_id; apply (proj1 section_equal_equiv).
  - rewrite sections_clone_id; apply (proj1 sections_equal_equiv).
  - rewrite layout_def_clone_id; apply (proj1 layout_def_equal_equiv).
  - rewrite layout_defs_clone_id; apply (proj1 layout_defs_equal_equiv).
  - rewrite page_clone_id; apply (proj1 page_equal_equiv).
  - rewrite preview_clone_id; apply (proj1 preview_equal_equiv).
  - rewrite fsource_clone_id; apply (proj1 fsource_equal_equiv).
  - rewrite fmetadata_clone_id; apply (proj1 fmetadata_equal_equiv).
  - rewrite msource_clone_id; apply (proj1 msource_equal_equiv).
  - rewrite metadata_clone_id; apply (proj1 metadata_equal_equiv).
  - rewrite file_clone_id; apply (proj1 file_equal_equiv).
  - rewrite files_clone_id; apply (proj1 files_equal_equiv).
  - rewrite reel_clone_id; apply (proj1 reel_equal_equiv).
  - rewrite reels_clone_id; apply (proj1 reels_equal_equiv).
  - rewrite toc_clone_id; apply (proj1 toc_equal_equiv).
Qed.
Lemma equals_equivalences :
  equivalence section_equal /\ equivalence sections_equal /\ equivalence layout_def_equal /\ equivalence layout_defs_equal /\
  equivalence page_equal /\ equivalence preview_equal /\ equivalence fsource_equal /\ equivalence fmetadata_equal /\
  equivalence msource_equal /\ equivalence metadata_equal /\ equivalence file_equal /\ equivalence files_equal /\
  equivalence reel_equal /\ equivalence reels_equal /\ equivalence toc_equal.
Proof.
  pose proof section_equal_equiv. pose proof sections_equal_equiv. pose proof layout_def_equal_equiv. pose proof layout_defs_equal_equiv.
  pose proof page_equal_equiv. pose proof preview_equal_equiv. pose proof fsource_equal_equiv. pose proof fmetadata_equal_equiv.
  pose proof msource_equal_equiv. pose proof metadata_equal_equiv. pose proof file_equal_equiv. pose proof files_equal_equiv.
  pose proof reel_equal_equiv. pose proof reels_equal_equiv. pose proof toc_equal_equiv. auto 20.
Qed.
Lemma equal_means_same_fields :
  (forall a b, section_equal a b = true <-> a = b) /\
  (forall a b, layout_def_equal a b = true <-> norm_def a = norm_def b) /\
  (forall a b, page_equal a b = true <-> norm_page a = norm_page b) /\
  (forall a b, preview_equal a b = true <-> norm_preview a = norm_preview b) /\
  (forall a b, fsource_equal a b = true <-> norm_fsource a = norm_fsource b) /\
  (forall a b, msource_equal a b = true <-> norm_msource a = norm_msource b) /\
  (forall a b, file_equal a b = true <-> norm_file a = norm_file b) /\
  (forall a b, files_equal a b = true <-> option_map (map norm_file) a = option_map (map norm_file) b) /\
  (forall a b, reel_equal a b = true <-> norm_reel a = norm_reel b) /\
  (forall a b, toc_sizes a -> toc_sizes b -> toc_equal a b = true <-> norm_toc a = norm_toc b).
Proof.
  pose proof section_decides. pose proof def_decides. pose proof page_decides. pose proof preview_decides.
  pose proof fsource_decides. pose proof msource_decides. pose proof file_decides. pose proof (vec_decides _ _ file_decides).
  pose proof reel_decides. pose proof toc_decides. unfold decides in *. unfold files_equal. auto 20.
Qed.
