(** Proofs about the queries and updates on files, reels and tables of contents. *)
From Verif Require Import CBase CBaseProofs TocModel SpecToc SortProofs ValidProofs PreviewProofs EqualProofs.
From Coq Require Import ZifyBool Sorting.Sorted Sorting.Permutation.

(** * C12 *)
Lemma file_parent_iff f : file_is_parent f = true <-> f_parent_id f = -1.
Proof. unfold file_is_parent, FILE_PARENT. apply Z.eqb_eq. Qed.

Definition fits_ok (l : list layout_def) : Prop := good_defs l /\ Forall layout_fits l.

Lemma used_step l used f :
  fits_ok l -> fits_ok (vec_list used) -> incl (vec_list used) l ->
  exists used', used_layout_step (Some (Some l)) used f = Ok (Some used') /\
    fits_ok (vec_list used') /\ incl (vec_list used') l /\
    (forall d, In d (vec_list used') <->
       In d (vec_list used) \/ (In d l /\ exists id, ld_id d = Some id /\ file_uses_layout f id)).
Proof.
  intros [Gl Fl] [Gu Fu] Hincl.
  assert (Hsame : (forall id d, In d l -> ld_id d = Some id -> file_uses_layout f id -> In d (vec_list used)) ->
     exists used', Ok (Some used) = Ok (Some used') /\ fits_ok (vec_list used') /\ incl (vec_list used') l /\
    (forall d, In d (vec_list used') <->
       In d (vec_list used) \/ (In d l /\ exists id, ld_id d = Some id /\ file_uses_layout f id))).
  { intro H. exists used. repeat split; auto; try apply Gu.
    intros [Hd|(Hd & id & Ed & Hf)]; [exact Hd|]. exact (H id d Hd Ed Hf). }
  unfold used_layout_step. destruct (file_is_preview f && negb (file_is_parent f)) eqn:E.
  2:{ apply Hsame. intros id d _ _ (Hp & Hn & _). apply file_preview_iff in Hp. rewrite Hp in E.
      cbn in E. apply negb_false_iff, file_parent_iff in E. congruence. }
  apply andb_true_iff in E as [E1 E2]. apply negb_true_iff in E2.
  assert (Hpv : previewed f) by (apply file_preview_iff; exact E1).
  assert (Hnp : f_parent_id f <> -1) by (rewrite <- file_parent_iff; congruence).
  destruct (f_preview f) as [pv|] eqn:Epv.
  2:{ apply Hsame. intros id d _ _ (_ & _ & pv & g & r & E & _). rewrite Epv in E. discriminate. }
  destruct (pv_pages pv) as [[|g r]|] eqn:Epg.
  1,3: apply Hsame; intros id d _ _ (_ & _ & pv' & g & r & E & E' & _); rewrite Epv in E; injection E as <-; congruence.
  assert (Huse : forall id, file_uses_layout f id <-> pg_layout_id g = Some id).
  { intro id. split.
    - intros (_ & _ & pv' & g' & r' & E & E' & E''). rewrite Epv in E; injection E as <-. congruence.
    - intro H. repeat split; auto. exists pv, g, r. auto. }
  destruct (pg_layout_id g) as [[|c s]|] eqn:Eid.
  1,3: cbn [layout_defs_has layout_defs_by_id obind]; apply Hsame; intros id d Hd Ed; rewrite Huse; intro H.
  { injection H as <-; destruct Gl as [Gl _]; rewrite Forall_forall in Gl; destruct (Gl d Hd) as ((? & ? & E) & _); congruence. }
  { discriminate. }
  unfold layout_defs_has.
  destruct (layout_defs_by_id_spec used c s (proj1 Gu)) as (ru & Eu & Hu). rewrite Eu. cbn [obind].
  destruct ru as [x|].
  { apply Hsame. intros id d Hd Ed Hf. apply Huse in Hf. injection Hf as <-.
    destruct Hu as (l1 & l2 & El & Ex & _).
    assert (Hx : In x (vec_list used)) by (rewrite El; apply in_or_app; right; left; reflexivity).
    assert (d = x) as ->; [|exact Hx]. eapply (lookup_unique l x); eauto. apply Gl. }
  destruct (layout_defs_by_id_spec (Some l) c s (proj1 Gl)) as (rl & Erl & Hrl). rewrite Erl. cbn [obind].
  destruct rl as [d0|].
  2:{ apply Hsame. intros id d Hd Ed Hf. apply Huse in Hf. injection Hf as <-.
      rewrite Forall_forall in Hrl. exfalso. exact (Hrl d Hd Ed). }
  destruct Hrl as (l1 & l2 & El & Ex & _). cbn [vec_list] in El.
  assert (Hd0 : In d0 l) by (rewrite El; apply in_or_app; right; left; reflexivity).
  assert (Fd0 : layout_fits d0) by (rewrite Forall_forall in Fl; auto).
  assert (Od0 : layout_ok d0) by (destruct Gl as [Gl _]; rewrite Forall_forall in Gl; auto).
  rewrite layout_def_clone_id.
  assert (Nd0 : ~ In (ld_id d0) (map ld_id (vec_list used))).
  { rewrite Ex. intro H. apply in_map_iff in H as (y & Ey & Hy). rewrite Forall_forall in Hu. exact (Hu y Hy Ey). }
  destruct (layout_defs_add_spec used d0 Fd0 Gu) as [(_ & _ & Ea)|[H _]].
  2:{ exfalso. apply H. split; assumption. }
  rewrite Ea. cbn [obind snd fst]. exists (Some (vec_list used ++ [d0])). split; [reflexivity|].
  cbn [vec_list]. split; [split|split].
  - apply good_defs_snoc; assumption.
  - apply Forall_app. split; [assumption|]. constructor; [assumption|constructor].
  - intros x Hx. apply in_app_or in Hx as [Hx|[<-|[]]]; auto.
  - intro d. rewrite in_app_iff. cbn. split.
    + intros [H|[<-|[]]]; [left; exact H|]. right. split; [exact Hd0|]. exists (c :: s). split; [exact Ex|]. apply Huse; reflexivity.
    + intros [H|(Hd & id & Ed & Hf)]; [left; exact H|]. right. left. apply Huse in Hf. injection Hf as <-.
      symmetry. eapply (lookup_unique l d0); eauto. apply Gl.
Qed.

Lemma used_loop l fs : forall used,
  fits_ok l -> fits_ok (vec_list used) -> incl (vec_list used) l ->
  exists used', used_layout_loop (Some (Some l)) used fs = Ok (Some used') /\
    fits_ok (vec_list used') /\ incl (vec_list used') l /\
    (forall d, In d (vec_list used') <->
       In d (vec_list used) \/ (In d l /\ exists f id, In f fs /\ ld_id d = Some id /\ file_uses_layout f id)).
Proof.
  induction fs as [|f fs IH]; intros used Gl Gu Hi.
  - exists used. split; [reflexivity|]. split; [exact Gu|]. split; [exact Hi|].
    intro d. split; [auto|]. intros [H|(_ & ? & ? & [] & _)]; exact H.
  - destruct (used_step l used f Gl Gu Hi) as (u1 & E1 & G1 & I1 & M1).
    destruct (IH u1 Gl G1 I1) as (u2 & E2 & G2 & I2 & M2).
    exists u2. cbn [used_layout_loop]. rewrite E1. cbn [obind]. split; [exact E2|]. split; [exact G2|]. split; [exact I2|].
    intro d. rewrite M2, M1. split.
    + intros [[H|(H1 & id & H2 & H3)]|(H1 & f' & id & H2 & H3 & H4)]; [auto|right; split; [exact H1|exists f, id; cbn; auto]|].
      right. split; [exact H1|]. exists f', id. cbn; auto.
    + intros [H|(H1 & f' & id & [<-|H2] & H3 & H4)]; [auto|left; right; eauto|right; eauto 6].
Qed.

Lemma toc_reels_of t : toc_reels t = reels_of t.
Proof. unfold toc_reels, reels_of. destruct (t_reels t) as [[l|]|]; reflexivity. Qed.

Lemma used_layouts_spec t :
  layouts_of t <> [] -> reels_of t <> [] -> small (layouts_of t) -> small (reels_of t) ->
  good_defs (layouts_of t) -> Forall layout_fits (layouts_of t) ->
  exists v, toc_used_layouts t = Ok (Some v) /\
    StronglySorted id_before (vec_list v) /\ NoDup (vec_list v) /\
    (forall d, In d (vec_list v) <-> In d (layouts_of t) /\ exists id, ld_id d = Some id /\ toc_uses_layout t id).
Proof.
  intros Hl Hr Sl Sr G F. unfold toc_used_layouts.
  assert (El : t_layouts t = Some (Some (layouts_of t))).
  { unfold layouts_of in *. destruct (t_layouts t) as [[l|]|]; try contradiction; reflexivity. }
  rewrite El. set (l := layouts_of t) in *.
  unfold layout_defs_count, vec_size. cbn [vec_list]. unfold small in *. rewrite u32_small by lia.
  destruct (Z.eqb_spec (Z.of_nat (List.length l)) 0) as [H|_]; [destruct l; [contradiction|cbn [List.length] in H; lia]|].
  assert (Er : toc_reel_count t =? 0 = false).
  { unfold toc_reel_count, reels_count, reels_of, vec_size in *. destruct (t_reels t) as [[r|]|]; try contradiction.
    cbn [vec_list]. rewrite u32_small by lia. destruct r; [contradiction|]. cbn [List.length]. lia. }
  rewrite Er.
  destruct (used_loop l (flat_map reel_files (toc_reels t)) None) as (v & Ev & (Gv & Fv) & Iv & Mv).
  { split; assumption. } { repeat split; constructor. } { intros x []. }
  rewrite Ev. cbn [obind]. exists (option_map (insertion_sort layout_id_gt) v). split; [reflexivity|].
  assert (Evl : vec_list (option_map (insertion_sort layout_id_gt) v) = insertion_sort layout_id_gt (vec_list v)).
  { destruct v; reflexivity. }
  rewrite Evl. pose proof (insertion_sort_perm layout_id_gt (vec_list v)) as Hperm.
  assert (Hnd : NoDup (map ld_id (insertion_sort layout_id_gt (vec_list v)))).
  { eapply Permutation_NoDup; [apply Permutation_map, Permutation_sym, Hperm|apply Gv]. }
  split; [|split].
  - assert (Hok : Forall layout_ok (insertion_sort layout_id_gt (vec_list v))).
    { eapply Permutation_Forall; [apply Permutation_sym, Hperm|apply Gv]. }
    assert (Hs := insertion_sort_sorted layout_id_gt
       ltac:(intros a b; unfold layout_id_gt; rewrite (strcmp_antisym (or_empty (ld_id b))); lia)
       ltac:(intros a b c; unfold layout_id_gt; rewrite !Z.ltb_ge; intros; eapply strcmp_le_trans; eassumption) (vec_list v)).
    revert Hnd Hok Hs. generalize (insertion_sort layout_id_gt (vec_list v)) as s. clear.
    induction s as [|x s IH]; intros Hnd Hok Hs; [constructor|].
    cbn in Hnd. inversion Hnd; inversion Hok as [|? ? Ox Os]; inversion Hs as [|? ? Hs' Hx]; subst. constructor; [auto|].
    rewrite Forall_forall in *. intros y Hy. specialize (Hx y Hy). unfold layout_id_gt in Hx.
    destruct Ox as ((? & ? & Ex) & _). destruct (Os y Hy) as ((? & ? & Ey) & _). unfold id_before. rewrite Ex, Ey in *.
    cbn [or_empty] in Hx. apply Z.ltb_ge in Hx. 
    assert (strcmp (x0 :: x1) (x2 :: x3) <> 0); [|lia].
    rewrite strcmp_eq. intro E. rewrite E in *. apply H1. rewrite <- Ey. apply in_map, Hy.
  - apply NoDup_map_inv in Hnd. exact Hnd.
  - intro d. split.
    + intro Hd. apply (Permutation_in _ Hperm) in Hd. apply Mv in Hd as [[]|(Hd & f & id & Hf & Ed & Hu)].
      split; [exact Hd|]. exists id. split; [exact Ed|]. apply in_flat_map in Hf as (r & Hr1 & Hr2).
      rewrite toc_reels_of in Hr1. rewrite reel_files_of in Hr2. exists r, f. auto.
    + intros (Hd & id & Ed & r & f & Hr1 & Hf & Hu). apply (Permutation_in _ (Permutation_sym Hperm)).
      apply Mv. right. split; [exact Hd|]. exists f, id. split; [|auto]. apply in_flat_map. exists r.
      rewrite toc_reels_of, reel_files_of. auto.
Qed.
