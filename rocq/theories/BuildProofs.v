(** Histories of calls on a table of contents. *)
From Verif Require Import CBase CBaseProofs TocModel SpecToc ValidProofs PreviewProofs EqualProofs TocProofs2 TocProofs4 BuildModel SpecBuild.
From Coq Require Import ZifyBool.

Lemma vec_get_nth {A} (v : option (vec A)) i : 0 <= i -> vec_get v i = nth_error (match v with Some (Some l) => l | _ => [] end) (Z.to_nat i).
Proof.
  intro H. unfold vec_get. destruct v as [[l|]|]; try (now destruct (Z.to_nat i)).
  destruct (i <? _) eqn:E; [reflexivity|]. symmetry. apply nth_error_None. lia.
Qed.
Lemma Forall2_length {A B} (R : A -> B -> Prop) l k : Forall2 R l k -> List.length l = List.length k.
Proof. induction 1; cbn; congruence. Qed.
Definition reel_fits (total : Z) (r : reel) : Prop := few (files_of r) /\ Forall (fun f => few (fsources_of f) /\ offset_fits total f) (files_of r).
Record inv (total : Z) (n : nat) (t : toc_data) (b : book) : Prop := {
  i_version : t_version t = b_version b; i_index : t_index_type t = b_index_type b; i_job : t_job_id t = b_job_id b; i_reel : t_reel_id t = b_reel_id b;
  i_reels : reels_of t = b_reels b; i_sources : msources_of t = b_sources b; i_layouts : layouts_of t = b_layouts b;
  i_reels_ok : Forall reel_ok (b_reels b); i_sources_ok : Forall msource_ok (b_sources b); i_layouts_ok : good_defs (b_layouts b);
  i_reels_fit : Forall (reel_fits total) (b_reels b); i_layouts_fit : Forall layout_fits (b_layouts b);
  i_few_reels : Z.of_nat (List.length (b_reels b) + n) < 2^32; i_few_sources : Z.of_nat (List.length (b_sources b) + n) < 2^32;
  i_few_layouts : Z.of_nat (List.length (b_layouts b) + n) < 2^32 }.

Lemma inv_small total n t b : inv total n t b -> toc_small t.
Proof.
  intro V. destruct V. unfold toc_small, small. rewrite i_reels0, i_sources0, i_layouts0. split; [lia|]. split; [|split; [lia|exact i_layouts_fit0]].
  eapply Forall_impl; [|exact i_reels_fit0]. intros r (F & H). split; [exact F|]. eapply Forall_impl; [|exact H]. intros f (G & _). exact G.
Qed.
Lemma inv_shows total n t b : inv total n t b -> shows t b /\ (toc_is_valid t = true <-> named b).
Proof.
  intro V. pose proof (inv_small _ _ _ _ V) as S0. destruct V. split.
  - unfold shows. rewrite <- i_reels0, <- i_sources0, <- i_layouts0. rewrite <- i_reels0 in i_few_reels0. rewrite <- i_sources0 in i_few_sources0. rewrite <- i_layouts0 in i_few_layouts0.
    repeat match goal with |- _ /\ _ => split end; try assumption.
    + unfold toc_reel_count, reels_count, vec_size. unfold reels_of in *. destruct (t_reels t) as [[l|]|]; cbn [vec_list]; [apply u32_small; lia|reflexivity|reflexivity].
    + intros i Hi. unfold toc_reel_by_index, reels_get. now apply vec_get_nth.
    + unfold toc_metadata_source_count, metadata_count, vec_size. unfold msources_of in *. destruct (t_metadata t) as [[l|]|]; cbn [vec_list]; [apply u32_small; lia|reflexivity|reflexivity].
    + intros i Hi. unfold toc_metadata_source, metadata_get. now apply vec_get_nth.
    + unfold toc_layout_count, layout_defs_count, vec_size. unfold layouts_of in *. destruct (t_layouts t) as [[l|]|]; cbn [vec_list]; [apply u32_small; lia|reflexivity|reflexivity].
    + intros i Hi. unfold toc_layout_definition, layout_defs_get. now apply vec_get_nth.
  - rewrite (toc_valid_iff t S0). unfold toc_ok, named. rewrite i_version0, i_index0, i_job0, i_reel0, i_reels0, i_sources0, i_layouts0.
    destruct i_layouts_ok0 as (L & _). intuition.
Qed.
Lemma offset_fits_less a b f : 0 <= a <= b -> offset_fits b f -> offset_fits a f.
Proof.
  intros H (A1 & A2 & A3 & A4 & A5). unfold offset_fits. repeat (split; [assumption || lia|]). intros pv E. eapply Forall_impl; [|exact (A5 pv E)]. cbn. intros g ?. lia.
Qed.
Lemma reel_fits_less a b r : 0 <= a <= b -> reel_fits b r -> reel_fits a r.
Proof. intros H (F & G). split; [exact F|]. eapply Forall_impl; [|exact G]. cbn. intros f (G1 & G2). split; [exact G1|]. eapply offset_fits_less; eauto. Qed.
Lemma shifted_fits m o rest a b : 0 <= o -> 0 <= rest -> file_shifted m o a b -> offset_fits (o + rest) a -> offset_fits rest b.
Proof.
  intros Ho Hr (S1 & S2 & S3 & _) (A1 & A2 & A3 & A4 & A5). unfold shifted in *. unfold is_i32 in *. unfold offset_fits, is_i32.
  split; [destruct (Z.testbit m 0); cbn [andb] in S1; destruct (0 <=? f_start_frame a) eqn:?; lia|].
  split; [destruct (Z.testbit m 0); cbn [andb] in S2; destruct (0 <=? f_end_frame a) eqn:?; lia|].
  split; [destruct (Z.testbit m 0); cbn [andb] in S1; destruct (0 <=? f_start_frame a) eqn:?; lia|].
  split; [destruct (Z.testbit m 0); cbn [andb] in S2; destruct (0 <=? f_end_frame a) eqn:?; lia|].
  intros q Eq. rewrite Eq in S3. destruct (f_preview a) as [p|]; [|destruct S3]. destruct S3 as (_ & S3). specialize (A5 p eq_refl).
  unfold pages_of in *. destruct (pv_pages p) as [l|], (pv_pages q) as [k|]; try (destruct S3; fail); [|constructor].
  induction S3 as [|x y l k (E & _) _ IH]; constructor; inversion A5; subst; [destruct (Z.testbit m 1); lia|auto].
Qed.
Lemma shifted_reel_fits m o rest a b : 0 <= o -> 0 <= rest -> reel_shifted m o a b -> reel_fits (o + rest) a -> reel_fits rest b.
Proof.
  intros Ho Hr (_ & S0 & _) (F & G). unfold reel_fits, few in *. split.
  - now rewrite <- (Forall2_length _ _ _ S0).
  - clear F. revert G S0. generalize (files_of a) (files_of b). intros fa fb G S0. induction S0 as [|x y l k E _ IH]; constructor; inversion G as [|? ? (G1 & G2) G3]; subst; [|auto].
    split; [|eapply shifted_fits; [exact Ho|exact Hr|exact E|exact G2]]. destruct E as (_ & _ & _ & _ & _ & _ & _ & _ & _ & _ & _ & _ & _ & _ & E). unfold fsources_of in *. now rewrite E.
Qed.
Lemma shifted_reel_ok m o a b : 0 <= o -> reel_shifted m o a b -> reel_ok a -> reel_ok b.
Proof.
  intros Ho (I0 & S0 & _) (N & G). split; [now rewrite I0|]. clear N. revert G S0. generalize (files_of a) (files_of b). intros fa fb G S0. induction S0 as [|x y l k E _ IH]; constructor; inversion G; subst; [eapply file_shifted_ok; eauto|auto].
Qed.
Lemma leading_adds total : forall ds t b n, inv total (List.length ds + n) t b -> Forall layout_ok ds -> Forall layout_fits ds ->
  exists t' ok fin, toc_add_layouts_loop t ds = Ok (t', ok) /\ leading (b_layouts b) ds ok fin /\
    inv total n t' (mkBook (b_version b) (b_index_type b) (b_job_id b) (b_reel_id b) (b_reels b) (b_sources b) fin).
Proof.
  induction ds as [|d ds IH]; intros t b n V K F.
  - exists t, true, (b_layouts b). split; [reflexivity|]. split; [constructor|]. destruct V, b. constructor; cbn in *; assumption.
  - inversion K as [|? ? Kd K']; subst. inversion F as [|? ? Fd F']; subst. cbn [toc_add_layouts_loop]. rewrite layout_def_clone_id. unfold toc_add_layout.
    set (v := match t_layouts t with Some v => v | None => None end).
    assert (Ev : vec_list v = b_layouts b) by (rewrite <- (i_layouts _ _ _ _ V); unfold v, layouts_of; destruct (t_layouts t) as [[l|]|]; reflexivity).
    destruct (layout_defs_add_spec v d Fd) as [(_ & N & E)|(N & E)]; [rewrite Ev; exact (i_layouts_ok _ _ _ _ V)| |]; rewrite E; cbn [obind fst snd]; rewrite Ev in *.
    + destruct (IH (mkToc (t_version t) (t_index_type t) (t_job_id t) (t_reel_id t) (t_reels t) (t_metadata t) (Some (Some (b_layouts b ++ [d]))))
        (mkBook (b_version b) (b_index_type b) (b_job_id b) (b_reel_id b) (b_reels b) (b_sources b) (b_layouts b ++ [d])) n) as (t' & ok & fin & E' & L & V'); try assumption.
      { destruct V. constructor; cbn in *; try assumption; try (rewrite ?app_length; cbn; lia); [reflexivity|now apply good_defs_snoc|apply Forall_app; split; [assumption|constructor; [assumption|constructor]]]. }
      exists t', ok, fin. split; [exact E'|]. split; [|exact V']. constructor; assumption.
    + exists (mkToc (t_version t) (t_index_type t) (t_job_id t) (t_reel_id t) (t_reels t) (t_metadata t) (Some v)), false, (b_layouts b).
      split; [reflexivity|]. split.
      * apply lead_stop. destruct (in_dec cstr_opt_dec (ld_id d) (map ld_id (b_layouts b))) as [H|H]; [exact H|]. exfalso. apply N. split; assumption.
      * destruct V. constructor; cbn in *; try assumption; try lia.
Qed.
Lemma call_does o rest n t b : 0 <= rest -> op_fits (moved_by o + rest) o -> inv (moved_by o + rest) (offered o + n) t b ->
  exists t' ok b', call t o = Ok (t', ok) /\ does b o ok b' /\ inv rest n t' b'.
Proof.
  intros Hr F V. destruct o as [s|s|s|s|r|s|d|v|offset mask]; cbn [op_fits moved_by offered call] in *.
  1-4: (do 3 eexists; split; [reflexivity|]; split; [constructor|]; destruct V; constructor; cbn in *; (assumption || reflexivity)).
  - destruct F as (F1 & F2). assert (Sm : reel_small r) by (split; [exact F1|]; eapply Forall_impl; [|exact F2]; cbn; intros f (G & _); exact G).
    unfold toc_add_reel, reels_add_reel. set (v := match t_reels t with Some v => v | None => None end).
    assert (Ev : vec_list v = b_reels b) by (rewrite <- (i_reels _ _ _ _ V); unfold v, reels_of; destruct (t_reels t) as [[l|]|]; reflexivity).
    pose proof (reel_valid_iff r Sm) as K. destruct (reel_is_valid r); cbn [negb].
    + do 3 eexists. split; [reflexivity|]. split; [apply d_reel, K; reflexivity|]. unfold vec_append. rewrite Ev. destruct V. constructor; cbn in *; try assumption; try (rewrite ?app_length; cbn; lia).
      * reflexivity.
      * apply Forall_app; split; [assumption|]. constructor; [apply K; reflexivity|constructor].
      * apply Forall_app; split; [assumption|]. constructor; [split; assumption|constructor].
    + do 3 eexists. split; [reflexivity|]. split; [apply d_no_reel; intro H; apply K in H; discriminate|]. destruct V. constructor; cbn in *; try assumption; try lia.
  - unfold toc_add_metadata_source, metadata_add_source. set (v := match t_metadata t with Some v => v | None => None end).
    assert (Ev : vec_list v = b_sources b) by (rewrite <- (i_sources _ _ _ _ V); unfold v, msources_of; destruct (t_metadata t) as [[l|]|]; reflexivity).
    pose proof (msource_valid_iff s) as K. destruct (msource_is_valid s); cbn [negb].
    + do 3 eexists. split; [reflexivity|]. split; [apply d_source, K; reflexivity|]. unfold vec_append. rewrite Ev. destruct V. constructor; cbn in *; try assumption; try (rewrite ?app_length; cbn; lia).
      * reflexivity.
      * apply Forall_app; split; [assumption|]. constructor; [apply K; reflexivity|constructor].
    + do 3 eexists. split; [reflexivity|]. split; [apply d_no_source; intro H; apply K in H; discriminate|]. destruct V. constructor; cbn in *; try assumption; try lia.
  - unfold toc_add_layout. set (v := match t_layouts t with Some v => v | None => None end).
    assert (Ev : vec_list v = b_layouts b) by (rewrite <- (i_layouts _ _ _ _ V); unfold v, layouts_of; destruct (t_layouts t) as [[l|]|]; reflexivity).
    destruct (layout_defs_add_spec v d F) as [(K & N & E)|(N & E)]; [rewrite Ev; exact (i_layouts_ok _ _ _ _ V)| |]; rewrite E; cbn [obind]; rewrite Ev in *.
    + do 3 eexists. split; [reflexivity|]. split; [apply d_layout; assumption|]. destruct V. constructor; cbn in *; try assumption; try (rewrite ?app_length; cbn; lia); [reflexivity|now apply good_defs_snoc|].
      apply Forall_app; split; [assumption|]. constructor; [exact F|constructor].
    + do 3 eexists. split; [reflexivity|]. split.
      * apply d_no_layout. destruct (layout_def_is_valid d) eqn:Q; [|left; rewrite <- (layout_valid_iff d F); congruence]. apply (layout_valid_iff d F) in Q.
        right. destruct (in_dec cstr_opt_dec (ld_id d) (map ld_id (b_layouts b))) as [H|H]; [exact H|]. exfalso. apply N. split; assumption.
      * destruct V. constructor; cbn in *; try assumption; try lia.
  - unfold toc_add_layouts, layout_defs_is_valid, layout_defs_count, vec_size. change (vec_list v) with (listed v).
    assert (K : forallb layout_def_is_valid (listed v) = true <-> Forall layout_ok (listed v)) by (apply forallb_Forall; rewrite Forall_forall in F; intros d Hd; apply layout_valid_iff, F, Hd).
    assert (Z0 : Z.of_nat (List.length (listed v)) < 2^32) by (destruct V; lia).
    destruct (forallb layout_def_is_valid (listed v)); cbn [negb].
    2:{ exists t, false, b. split; [reflexivity|]. split; [apply d_no_layouts; right; intro H; apply K in H; discriminate|]. destruct V. constructor; cbn in *; try assumption; lia. }
    rewrite u32_small by lia. destruct (Z.of_nat (List.length (listed v)) =? 0) eqn:Q.
    { exists t, false, b. split; [reflexivity|]. split; [apply d_no_layouts; left; destruct (listed v); [reflexivity|cbn in Q; lia]|]. destruct V. constructor; cbn in *; try assumption; lia. }
    destruct (leading_adds rest (listed v) (mkToc (t_version t) (t_index_type t) (t_job_id t) (t_reel_id t) (t_reels t) (t_metadata t) (Some (match t_layouts t with Some v => v | None => None end))) b n)
      as (t' & ok & fin & E & L & V'); [|now apply K|exact F|].
    { destruct V. constructor; cbn in *; try assumption. rewrite <- i_layouts0. unfold layouts_of; cbn. destruct (t_layouts t) as [[l|]|]; reflexivity. }
    do 3 eexists. split; [exact E|]. split; [|exact V']. apply d_layouts; [intro H; rewrite H in Q; discriminate|now apply K|exact L].
  - destruct (toc_offset_shifted mask offset t F) as (E1 & E2 & E3 & E4 & E5 & E6 & S0).
    { rewrite (i_reels _ _ _ _ V). eapply Forall_impl; [|exact (i_reels_fit _ _ _ _ V)]. intros r (_ & G). eapply Forall_impl; [|exact G]. cbn. intros f (_ & G'). eapply offset_fits_less; [|exact G']. lia. }
    rewrite (i_reels _ _ _ _ V) in S0. exists (toc_add_frame_offset t offset mask), true. eexists. split; [reflexivity|]. split; [apply d_offset; exact S0|].
    destruct V. constructor; cbn [b_version b_index_type b_job_id b_reel_id b_reels b_sources b_layouts]; try congruence; try assumption; try lia.
    + clear - S0 i_reels_ok0 F. revert S0 i_reels_ok0. generalize (b_reels b) (reels_of (toc_add_frame_offset t offset mask)). intros ra rb S0 i_reels_ok0. induction S0 as [|x y l k E _ IH]; constructor; inversion i_reels_ok0; subst; [eapply shifted_reel_ok; eauto|auto].
    + clear - S0 i_reels_fit0 F Hr. revert S0 i_reels_fit0. generalize (b_reels b) (reels_of (toc_add_frame_offset t offset mask)). intros ra rb S0 i_reels_fit0. induction S0 as [|x y l k E _ IH]; constructor; inversion i_reels_fit0; subst; [eapply shifted_reel_fits; eauto|auto].
    + rewrite <- (Forall2_length _ _ _ S0). lia.
Qed.
Lemma op_fits_less o a b : 0 <= a <= b -> op_fits b o -> op_fits a o.
Proof.
  intros H. destruct o; cbn; auto. intros (F & G). split; [exact F|]. eapply Forall_impl; [|exact G]. cbn. intros f (G1 & G2). split; [exact G1|]. eapply offset_fits_less; eauto.
Qed.
Lemma calls_history : forall l t b, Forall (op_fits (total_offset l)) l -> inv (total_offset l) (all_offered l) t b ->
  exists t' answers b', calls t l = Ok (t', answers) /\ history b l answers b' /\ inv 0 0 t' b'.
Proof.
  induction l as [|o l IH]; intros t b F V.
  - exists t, [], b. split; [reflexivity|]. split; [constructor|exact V].
  - inversion F as [|? ? Fo Fl]; subst. cbn [calls]. change (total_offset (o :: l)) with (moved_by o + total_offset l) in *. change (all_offered (o :: l)) with (offered o + all_offered l)%nat in *.
    assert (M : forall x T, op_fits T x -> 0 <= moved_by x) by (intros x T Hx; destruct x; cbn in *; lia).
    assert (R : 0 <= total_offset l).
    { clear - Fl M. revert Fl. generalize (moved_by o + total_offset l). intros T Fl. induction Fl as [|x l Fx _ IH]; [reflexivity|]. change (total_offset (x :: l)) with (moved_by x + total_offset l). specialize (M x T Fx). lia. }
    pose proof (M o _ Fo) as Mo. destruct (call_does o (total_offset l) (all_offered l) t b R Fo V) as (t1 & ok & b1 & E1 & D1 & V1). rewrite E1. cbn [obind fst snd].
    destruct (IH t1 b1) as (t2 & answers & b2 & E2 & H2 & V2); [|exact V1|].
    { eapply Forall_impl; [|exact Fl]. intros x. apply op_fits_less. lia. }
    rewrite E2. cbn [obind fst snd]. exists t2, (ok :: answers), b2. split; [reflexivity|]. split; [|exact V2]. econstructor; eassumption.
Qed.
