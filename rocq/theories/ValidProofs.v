(** The is_valid functions decide the documented validity. *)
From Verif Require Import CBase CBaseProofs TocModel SpecToc.
From Coq Require Import ZifyBool.

Lemma null_or_empty_iff s : null_or_empty s = false <-> nonempty s.
Proof.
  unfold nonempty. destruct s as [[|c t]|]; cbn; split; intro H; try discriminate; eauto;
  destruct H as (? & ? & ?); discriminate.
Qed.
Lemma null_or_empty_true_iff s : null_or_empty s = true <-> ~ nonempty s.
Proof. rewrite <- null_or_empty_iff. destruct (null_or_empty s); split; congruence. Qed.

Lemma section_valid_iff s : section_is_valid s = true <-> section_ok s.
Proof.
  unfold section_is_valid, section_ok. cbn [In].
  destruct (negb _ && _ && _ && _) eqn:E; lia.
Qed.

Lemma forallb_Forall {A} (f : A -> bool) (P : A -> Prop) l :
  (forall x, In x l -> f x = true <-> P x) -> forallb f l = true <-> Forall P l.
Proof.
  intro H. rewrite forallb_forall, Forall_forall. split; intros H2 x Hx; apply H; auto.
Qed.

Lemma overlap_iff a b :
  fits a -> fits b -> section_ok a -> section_ok b ->
  section_is_overlap a b = true <-> exists px py, in_rect a px py /\ in_rect b px py.
Proof.
  intros Fa Fb Va Vb. unfold section_is_overlap.
  rewrite (proj2 (section_valid_iff a) Va), (proj2 (section_valid_iff b) Vb). cbn [negb orb].
  unfold fits, is_u32, section_ok in *.
  rewrite !u32_small by lia. unfold in_rect. split.
  - intro H. exists (Z.max (s_x a) (s_x b)), (Z.max (s_y a) (s_y b)). lia.
  - intros (px & py & H). lia.
Qed.

Lemma overlap_false_iff a b :
  fits a -> fits b -> section_ok a -> section_ok b ->
  section_is_overlap a b = false <-> disjoint a b.
Proof.
  intros Fa Fb Va Vb. rewrite <- not_true_iff_false, overlap_iff by assumption.
  unfold disjoint. split; [intros H px py Hp; apply H; eauto|intros H (px & py & Hp); eapply H; eauto].
Qed.

Lemma overlap_sym a b : section_is_overlap a b = section_is_overlap b a.
Proof.
  unfold section_is_overlap. rewrite orb_comm.
  destruct (negb (section_is_valid b) || negb (section_is_valid a)); [reflexivity|].
  repeat match goal with |- context [?x <=? ?y] => let E := fresh in destruct (x <=? y) eqn:E; clear E end; reflexivity.
Qed.

Lemma sections_check_iff l :
  Forall fits l ->
  sections_check l = true <-> Forall section_ok l /\ ForallOrdPairs disjoint l.
Proof.
  induction 1 as [|s l Fs Fl IH]; cbn [sections_check]; [split; auto; split; constructor|].
  destruct (section_is_valid s) eqn:Vs; cbn [negb].
  2:{ split; [discriminate|]. intros [H _]. inversion H as [|? ? Hs]; subst. apply section_valid_iff in Hs. congruence. }
  apply section_valid_iff in Vs.
  destruct (existsb (section_is_overlap s) l) eqn:E.
  - split; [discriminate|]. intros [H1 H2]. inversion H1; subst. inversion H2; subst.
    apply existsb_exists in E as (c & Hc & E). rewrite Forall_forall in *.
    assert (section_is_overlap s c = false) by (apply overlap_false_iff; auto). congruence.
  - rewrite IH. split.
    + intros [H1 H2]. split; [constructor; assumption|]. constructor; [|assumption].
      rewrite Forall_forall in *. intros c Hc. apply overlap_false_iff; auto.
      destruct (section_is_overlap s c) eqn:E2; [|reflexivity].
      assert (existsb (section_is_overlap s) l = true) by (apply existsb_exists; eauto). congruence.
    + intros [H1 H2]. inversion H1; inversion H2; auto.
Qed.

Lemma layout_valid_iff d : layout_fits d -> layout_def_is_valid d = true <-> layout_ok d.
Proof.
  unfold layout_fits, layout_def_is_valid, layout_ok, sections_ok, def_sections. intro F.
  rewrite !andb_true_iff, !negb_true_iff, !null_or_empty_iff.
  assert (sections_is_valid (ld_sections d) = true <->
          (match ld_sections d with Some (Some l) => l | _ => [] end <> [] /\
           Forall section_ok (match ld_sections d with Some (Some l) => l | _ => [] end) /\
           ForallOrdPairs disjoint (match ld_sections d with Some (Some l) => l | _ => [] end))) as ->; [|tauto].
  destruct (ld_sections d) as [[[|s l]|]|]; cbn [sections_is_valid] in *;
    try (split; [discriminate|intros [H _]; contradiction]).
  rewrite sections_check_iff by exact F. split; [intros H; split; [discriminate|exact H]|tauto].
Qed.

Lemma page_valid_iff p : page_is_valid p = true <-> page_ok p.
Proof.
  unfold page_is_valid, page_ok. rewrite !andb_true_iff, !negb_true_iff, null_or_empty_iff, Z.eqb_neq, !Z.leb_le. tauto.
Qed.

Lemma preview_valid_iff o : preview_is_valid o = true <-> exists p, o = Some p /\ preview_ok p.
Proof.
  unfold preview_is_valid, preview_ok, pages_of. destruct o as [p|].
  - destruct (pv_pages p) as [[|g l]|] eqn:E.
    + split; [discriminate|]. intros (q & [= <-] & H & _). rewrite E in H. contradiction.
    + rewrite (forallb_Forall _ page_ok) by (intros; apply page_valid_iff). split.
      * intro H. exists p. rewrite E. repeat split; auto. discriminate.
      * intros (q & [= <-] & H1 & H2). rewrite E in H2. exact H2.
    + split; [discriminate|]. intros (q & [= <-] & H & _). rewrite E in H. contradiction.
  - split; [discriminate|]. intros (q & H & _). discriminate.
Qed.

Lemma fsource_valid_iff s : fsource_is_valid s = true <-> fsource_ok s.
Proof. unfold fsource_is_valid, fsource_ok. rewrite orb_true_iff, !negb_true_iff, null_or_empty_iff, Z.eqb_neq. tauto. Qed.

Lemma set_bit_testbit0 t : set_bit 1 t = Z.testbit t 0.
Proof.
  unfold set_bit. destruct (Z.testbit t 0) eqn:E.
  - apply negb_true_iff, Z.eqb_neq. intro H. apply (f_equal (fun x => Z.testbit x 0)) in H.
    rewrite Z.land_spec, E in H. discriminate.
  - apply negb_false_iff, Z.eqb_eq. apply Z.bits_inj'. intros n Hn. rewrite Z.land_spec, Z.bits_0.
    destruct (Z.eq_dec n 0) as [->|Hne]; [rewrite E; reflexivity|].
    replace (Z.testbit 1 n) with false; [apply andb_false_r|]. symmetry. apply (Z.pow2_bits_false 0 n). lia.
Qed.
Lemma set_bit_testbit1 t : set_bit 2 t = Z.testbit t 1.
Proof.
  unfold set_bit. destruct (Z.testbit t 1) eqn:E.
  - apply negb_true_iff, Z.eqb_neq. intro H. apply (f_equal (fun x => Z.testbit x 1)) in H.
    rewrite Z.land_spec, E in H. discriminate.
  - apply negb_false_iff, Z.eqb_eq. apply Z.bits_inj'. intros n Hn. rewrite Z.land_spec, Z.bits_0.
    destruct (Z.eq_dec n 1) as [->|Hne]; [rewrite E; reflexivity|].
    replace (Z.testbit 2 n) with false; [apply andb_false_r|]. symmetry. apply (Z.pow2_bits_false 1 n). lia.
Qed.
Lemma file_digital_iff f : file_is_digital f = true <-> digital f.
Proof. unfold file_is_digital, digital, TYPE_DIGITAL. rewrite set_bit_testbit0. reflexivity. Qed.
Lemma file_preview_iff f : file_is_preview f = true <-> previewed f.
Proof. unfold file_is_preview, previewed, TYPE_PREVIEW. rewrite set_bit_testbit1. reflexivity. Qed.

(** Vectors whose size fits an unsigned int (the C code converts sizes to unsigned int). *)
Definition small {A} (l : list A) : Prop := Z.of_nat (List.length l) < 2^32.

Lemma fmetadata_check f :
  small (fsources_of f) ->
  file_has_metadata f && negb (fmetadata_is_valid (f_metadata f)) = false <-> Forall fsource_ok (fsources_of f).
Proof.
  unfold small, file_has_metadata, fmetadata_count, fmetadata_is_valid, fsources_of.
  destruct (f_metadata f) as [[l|]|]; cbn [vec_size vec_list].
  - unfold vec_size. cbn [vec_list]. intro H. rewrite u32_small by lia.
    rewrite <- (forallb_Forall fsource_is_valid) by (intros; apply fsource_valid_iff).
    destruct l as [|s l]; [cbn; tauto|].
    replace (Z.of_nat _ =? 0) with false by (cbn [List.length]; lia). cbn [negb andb]. rewrite negb_false_iff. reflexivity.
  - intros _. split; [constructor|reflexivity].
  - intros _. split; [constructor|reflexivity].
Qed.

Lemma file_valid_iff f : small (fsources_of f) -> file_is_valid f = true <-> file_ok f.
Proof.
  intro Hs. pose proof (fmetadata_check f Hs) as Hm. unfold file_is_valid, file_ok.
  rewrite <- Hm. rewrite <- !null_or_empty_iff. rewrite <- file_digital_iff, <- file_preview_iff.
  rewrite <- preview_valid_iff.
  destruct (f_id f <? -2) eqn:E1; [split; [discriminate|intros (H & _); lia]|].
  destruct (null_or_empty (f_name f)); cbn [orb]; [split; [discriminate|intros (? & ? & ?); discriminate]|].
  destruct (null_or_empty (f_date f)); cbn [orb]; [split; [discriminate|intros (? & ? & ? & ?); discriminate]|].
  assert (Hd : file_is_digital f &&
     ((f_start_frame f <? 0) || (f_start_byte f <? 0) || (f_end_frame f <? f_start_frame f)
      || (match f_checksum f with Some _ => false | None => true end)
      || ((f_end_frame f =? f_start_frame f) && (f_end_byte f <? f_start_byte f))) = false <->
     (file_is_digital f = true -> 0 <= f_start_frame f <= f_end_frame f /\ 0 <= f_start_byte f /\ f_checksum f <> None /\
                (f_start_frame f = f_end_frame f -> f_start_byte f <= f_end_byte f))).
  { destruct (file_is_digital f); cbn [andb]; [|split; [discriminate|reflexivity]].
    destruct (f_checksum f); cbn; split; intro H; try lia.
    - repeat split; try lia; congruence.
    - destruct (H eq_refl) as (? & ? & ? & ?). congruence. }
  destruct (_ && (_ || _)) eqn:E2.
  - split; [discriminate|]. intros (_ & _ & _ & H & _). apply Hd in H. discriminate.
  - assert (Hd' := proj1 Hd eq_refl). clear Hd.
    destruct (file_is_preview f); cbn [andb].
    + destruct (preview_is_valid (f_preview f)); cbn [negb].
      * destruct (file_has_metadata f && _); split; intro H; try discriminate; try tauto.
        -- exfalso. destruct H as (_ & _ & _ & _ & _ & H). discriminate.
        -- repeat split; auto; try lia; apply Hd'; assumption.
      * split; [discriminate|]. intros (_ & _ & _ & _ & H & _). discriminate (H eq_refl).
    + destruct (file_has_metadata f && _); split; intro H; try discriminate; try tauto.
      * exfalso. destruct H as (_ & _ & _ & _ & _ & H). discriminate.
      * repeat split; auto; try lia; try discriminate; apply Hd'; assumption.
Qed.

Lemma msource_valid_iff s : msource_is_valid s = true <-> msource_ok s.
Proof.
  unfold msource_is_valid, msource_ok, FILE_ID_UNDEFINED. rewrite <- !null_or_empty_iff.
  rewrite negb_true_iff, !orb_false_iff.
  destruct (null_or_empty (ms_format s)), (null_or_empty (ms_data s)); lia.
Qed.

Lemma reel_files_of r : reel_files r = files_of r.
Proof. unfold reel_files, files_of. destruct (r_files r) as [[l|]|]; reflexivity. Qed.

Definition file_small (f : toc_file) : Prop := small (fsources_of f).
Definition reel_small (r : reel) : Prop := small (files_of r) /\ Forall file_small (files_of r).

Lemma reel_valid_iff r : reel_small r -> reel_is_valid r = true <-> reel_ok r.
Proof.
  intros [Hs Hf]. unfold reel_is_valid, reel_ok, reel_file_count. rewrite reel_files_of.
  rewrite <- null_or_empty_iff.
  rewrite <- (forallb_Forall file_is_valid) by (rewrite Forall_forall in Hf; intros; apply file_valid_iff, Hf; assumption).
  unfold small, files_of, files_is_valid in *.
  rewrite u32_small by lia.
  destruct (r_files r) as [[[|f l]|]|]; cbn [List.length vec_list].
  - cbn. rewrite negb_true_iff. tauto.
  - replace (Z.of_nat _ =? 0) with false by lia. cbn [negb andb].
    destruct (forallb file_is_valid (f :: l)); cbn [negb]; rewrite ?negb_true_iff; [tauto|].
    split; [discriminate|intros [_ H]; discriminate].
  - cbn. rewrite negb_true_iff. tauto.
  - cbn. rewrite negb_true_iff. tauto.
Qed.

Definition toc_small (t : toc_data) : Prop :=
  small (reels_of t) /\ Forall reel_small (reels_of t) /\ small (msources_of t) /\
  Forall layout_fits (layouts_of t).

Lemma toc_valid_iff t : toc_small t -> toc_is_valid t = true <-> toc_ok t.
Proof.
  intros (H1 & H2 & H3 & H4). unfold toc_is_valid, toc_ok.
  rewrite <- !null_or_empty_iff.
  rewrite <- (forallb_Forall reel_is_valid) by (rewrite Forall_forall in H2; intros; apply reel_valid_iff, H2; assumption).
  rewrite <- (forallb_Forall msource_is_valid) by (intros; apply msource_valid_iff).
  rewrite <- (forallb_Forall layout_def_is_valid) by (rewrite Forall_forall in H4; intros; apply layout_valid_iff, H4; assumption).
  destruct (null_or_empty (t_version t)); [split; [discriminate|intros (H & _); discriminate]|].
  destruct (null_or_empty (t_job_id t)); [split; [discriminate|intros (_ & H & _); discriminate]|].
  destruct (null_or_empty (t_reel_id t)); [split; [discriminate|intros (_ & _ & H & _); discriminate]|].
  assert (Hi : negb (str_eqb (or_empty (t_index_type t)) INDEX_JOB) && negb (str_eqb (or_empty (t_index_type t)) INDEX_REEL) = false
     <-> t_index_type t = Some (s2z "job") \/ t_index_type t = Some (s2z "reel")).
  { unfold INDEX_JOB, INDEX_REEL. rewrite andb_false_iff, !negb_false_iff, !str_eqb_eq.
    destruct (t_index_type t) as [s|]; cbn [or_empty]; split; intros [H|H]; subst; auto;
      try (discriminate H); injection H as ->; auto. }
  destruct (negb _ && _) eqn:E.
  { split; [discriminate|]. intros (_ & _ & _ & H & _). apply Hi in H. discriminate. }
  assert (Hi' := proj1 Hi eq_refl). clear Hi E.
  assert (Hr : negb (reels_is_valid (t_reels t)) && (match t_reels t with None => false | _ => true end) = negb (forallb reel_is_valid (reels_of t))).
  { unfold reels_is_valid, reels_of, reels_count, vec_size in *. unfold small in *. destruct (t_reels t) as [[l|]|]; cbn [vec_list]; [|reflexivity|reflexivity].
    rewrite andb_true_r, u32_small by lia. destruct l; [reflexivity|].
    cbn [List.length]. replace (Z.of_nat _ =? 0) with false by lia. reflexivity. }
  assert (Hl : negb (layout_defs_is_valid (t_layouts t)) && (match t_layouts t with None => false | _ => true end) = negb (forallb layout_def_is_valid (layouts_of t))).
  { unfold layout_defs_is_valid, layouts_of. destruct (t_layouts t) as [[l|]|]; cbn [vec_list]; rewrite ?andb_true_r; reflexivity. }
  assert (Hm : negb (metadata_count (t_metadata t) =? 0) && negb (metadata_is_valid (t_metadata t)) = negb (forallb msource_is_valid (msources_of t))).
  { unfold metadata_count, metadata_is_valid, msources_of, vec_size, small in *. destruct (t_metadata t) as [[l|]|]; cbn [vec_list]; [|reflexivity|reflexivity].
    rewrite u32_small by lia. destruct l; [reflexivity|]. cbn [List.length].
    replace (Z.of_nat _ =? 0) with false by lia. reflexivity. }
  rewrite Hr, Hl, Hm.
  destruct (forallb reel_is_valid (reels_of t)), (forallb layout_def_is_valid (layouts_of t)), (forallb msource_is_valid (msources_of t));
    cbn [negb]; split; intro H; try discriminate; try tauto;
    destruct H as (? & ? & ? & ? & ? & ? & ?); discriminate.
Qed.
