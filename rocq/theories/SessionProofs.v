(** Sessions. *)
From Verif Require Import CBase CBaseProofs TocModel SpecToc ValidProofs PreviewProofs EqualProofs TocProofs2 TocProofs4
  XmlModel SpecXml TocXmlModel SpecTocXml TocXmlProofs TocXmlProofs2 TocXmlProofs3 TocXmlProofs4 TocXmlProofs5 TagsModel PropTocXml FileModel SpecFile PropFile WriterModel SpecWriter PropWriter BuildModel SpecBuild BuildProofs SessionModel SpecSession.
From Coq Require Import ZifyBool.

Lemma back_opt_list {A} (f : A -> A) l : match back_opt f l with Some (Some x) => x | _ => [] end = map f l.
Proof. destruct l; reflexivity. Qed.
Lemma back_list_list {A} (f : A -> A) l : match back_list f l with Some x => x | _ => [] end = map f l.
Proof. destruct l; reflexivity. Qed.
Lemma files_back r : files_of (reel_back r) = map file_back (files_of r).
Proof. unfold reel_back, files_of at 1. cbn [r_files]. destruct (r_files r) as [v|] eqn:E; [|unfold files_of; rewrite E; reflexivity]. destruct (files_of r); reflexivity. Qed.
Lemma fsources_back f : fsources_of (file_back f) = map fsource_back (fsources_of f).
Proof. unfold fsources_of at 1, file_back. cbn [f_metadata]. destruct (fsources_of f); reflexivity. Qed.
Lemma pages_back p : pages_of (preview_back p) = map page_back (pages_of p).
Proof. unfold pages_of at 1, preview_back. cbn [pv_pages]. destruct (pages_of p); reflexivity. Qed.
Lemma file_back_fits total f : 0 <= total < 2^31 -> offset_fits total f -> offset_fits total (file_back f).
Proof.
  intros T (A1 & A2 & A3 & A4 & A5). unfold offset_fits, file_back, is_i32 in *. cbn [f_start_frame f_end_frame f_preview].
  destruct (digitalb f); (repeat (split; [lia|])); intros pv E; destruct (previewedb f); try discriminate; destruct (f_preview f) as [p|]; try discriminate; injection E as <-;
    rewrite pages_back; apply Forall_map; (eapply Forall_impl; [|exact (A5 p eq_refl)]); intros g H; exact H.
Qed.
Lemma reel_back_fits total r : 0 <= total < 2^31 -> reel_fits total r -> reel_fits total (reel_back r).
Proof.
  intros T (F & G). unfold reel_fits, few in *. rewrite files_back, map_length. split; [exact F|]. apply Forall_map. eapply Forall_impl; [|exact G]. cbv beta. intros f (G1 & G2).
  rewrite fsources_back, map_length. split; [exact G1|now apply file_back_fits].
Qed.
Lemma reel_fits_small total r : reel_fits total r -> reel_small r.
Proof. intros (F & G). split; [exact F|]. eapply Forall_impl; [|exact G]. intros f (G1 & _). exact G1. Qed.
Lemma reel_back_ok total r : 0 <= total < 2^31 -> reel_fits total r -> reel_ok r -> reel_carried r -> solid (r_id r) -> reel_ok (reel_back r).
Proof.
  intros T F K C So. apply (reel_valid_iff _ (reel_fits_small _ _ (reel_back_fits _ _ T F))). apply reel_back_valid; auto. now apply (reel_valid_iff _ (reel_fits_small _ _ F)).
Qed.
Lemma msource_back_ok split s : msource_ok s -> msource_ok (msource_back split s).
Proof. exact (fun H => H). Qed.
Lemma layout_back_ok d : layout_fits d -> layout_ok d -> solid (ld_id d) -> solid (ld_name d) -> layout_ok (layout_back d).
Proof.
  intros F K S1 S2. assert (F' : layout_fits (layout_back d)) by exact F. apply (layout_valid_iff _ F'). apply layout_back_valid; auto. now apply (layout_valid_iff _ F).
Qed.
Lemma inv_less a b n m t k : 0 <= a <= b -> (n <= m)%nat -> inv b m t k -> inv a n t k.
Proof.
  intros H L V. destruct V as [v1 v2 v3 v4 v5 v6 v7 v8 v9 v10 v11 v12 v13 v14 v15]. constructor; try assumption; try lia. eapply Forall_impl; [|exact v11]. intros r. now apply reel_fits_less.
Qed.
(** The object that comes back has the book that comes back. *)
Lemma inv_back split total n t b : 0 <= total < 2^31 -> inv total n t b -> book_carried b -> inv total n (toc_back split t) (book_back split b).
Proof.
  intros T V (C1 & C2 & C3 & C4 & (C5 & C6 & C7) & (C8 & C9)). destruct V.
  constructor; unfold toc_back, book_back, reels_of, msources_of, layouts_of; cbn [t_version t_index_type t_job_id t_reel_id t_reels t_metadata t_layouts b_version b_index_type b_job_id b_reel_id b_reels b_sources b_layouts];
    rewrite ?back_opt_list, ?map_length; try congruence; try assumption; try (f_equal; assumption).
  - apply Forall_map. apply Forall_forall. intros r I. rewrite Forall_forall in *. eapply reel_back_ok; eauto.
  - apply Forall_map. exact i_sources_ok.
  - destruct i_layouts_ok as (K1 & K2). split.
    + apply Forall_map. apply Forall_forall. intros d I. rewrite Forall_forall in *. destruct (C6 d I). apply layout_back_ok; auto.
    + rewrite map_map. exact C7.
  - apply Forall_map. eapply Forall_impl; [|exact i_reels_fit]. intros r. now apply reel_back_fits.
  - apply Forall_map. exact i_layouts_fit.
Qed.
Lemma inv_carried total n t b : inv total n t b -> book_carried b -> toc_carried t.
Proof.
  intros V (C1 & C2 & C3 & C4 & C5 & C6). destruct V. unfold toc_carried. rewrite i_version, i_job, i_reel, i_reels, i_sources, i_layouts. unfold short.
  repeat (split; [assumption || lia|]). lia.
Qed.

(** The state of a session: the object, the disk, and what the files hold. *)
Definition sound split (d0 : disk) (total : Z) (n : nat) (p : toc_data * disk) (q : book * shelf) : Prop :=
  inv total n (fst p) (fst q) /\
  forall name, match snd q name with
    | Some b => exists t, inv total n t b /\ snd p name <> None /\ forall t0, fetch (load_toc split t0) true (snd p) name = Ok (Some t)
    | None => snd p name = d0 name end.
Lemma shelf_less split (d0 : disk) a b n m (d : disk) (s : shelf) : 0 <= a <= b -> (n <= m)%nat ->
  (forall name, match s name with Some k => exists t, inv b m t k /\ d name <> None /\ forall t0, fetch (load_toc split t0) true d name = Ok (Some t) | None => d name = d0 name end) ->
  forall name, match s name with Some k => exists t, inv a n t k /\ d name <> None /\ forall t0, fetch (load_toc split t0) true d name = Ok (Some t) | None => d name = d0 name end.
Proof. intros H L S0 name. specialize (S0 name). destruct (s name); [|exact S0]. destruct S0 as (t & V & N & F). exists t. split; [eapply inv_less; eauto|auto]. Qed.
Lemma fetch_same {A} (load : node -> option A) d d' name : d name = d' name -> fetch load true d name = fetch load true d' name.
Proof. unfold fetch. now intros ->. Qed.
Definition moved (a : act) : Z := match a with Edit o => moved_by o | _ => 0 end.
Definition offers (a : act) : nat := match a with Edit o => offered o | _ => 0 end.
Definition act_fits (total : Z) (a : act) : Prop := match a with Edit o => op_fits total o | _ => True end.
#[local] Opaque load_toc toc_to_string toc_to_file fetch load_object toc_back.
Lemma named_dec b : named b \/ ~ named b.
Proof.
  assert (N : forall s, nonempty s \/ ~ nonempty s) by (intros [[|c l]|]; [right|left|right]; unfold nonempty; [intros (? & ? & ?); discriminate|eauto|intros (? & ? & ?); discriminate]).
  unfold named. destruct (N (b_version b)), (N (b_job_id b)), (N (b_reel_id b)); try (right; tauto).
  assert (I : forall s : option cstr, s = b_index_type b -> (s = Some (s2z "job") \/ s = Some (s2z "reel")) \/ ~ (s = Some (s2z "job") \/ s = Some (s2z "reel"))).
  { intros s _. destruct (cstr_opt_dec s (Some (s2z "job"))), (cstr_opt_dec s (Some (s2z "reel"))); tauto. }
  destruct (I _ eq_refl); tauto.
Qed.
Lemma step_went split d0 a rest n p q : 0 <= rest -> moved a + rest < 2^31 -> 0 <= moved a -> act_fits (moved a + rest) a ->
  (forall name, a = LoadFrom name -> d0 name = None) -> (saves a -> named (fst q) -> book_carried (fst q)) ->
  sound split d0 (moved a + rest) (offers a + n) p q ->
  exists p' ok q', step split p a = Ok (p', ok) /\ went split q a ok q' /\ sound split d0 rest n p' q' /\
    (forall name, (forall c nl, a <> SaveAs c nl name) -> snd p' name = snd p name).
Proof.
  intros R B M F L C (V & Sh). destruct p as (t, d), q as (b, s). cbn [fst snd] in *. destruct a as [o|compact|compact nl name|name]; cbn [moved offers act_fits step] in *.
  - destruct (call_does o rest n t b R F V) as (t' & ok & b' & E & D' & V'). rewrite E. cbn [obind fst snd]. exists (t', d), ok, (b', s). split; [reflexivity|]. split; [now constructor|].
    split; [|reflexivity]. split; [exact V'|]. cbn [fst snd]. eapply shelf_less; [| |exact Sh]; lia.
  - cbn in V, Sh. destruct (inv_shows _ _ _ _ V) as (_ & K). destruct (named_dec b) as [N|N].
    + destruct (proj2 (proj2 (proj2 (proj2 (proj2 (proj2 (proj2 (proj2 (proj2 (proj2 (proj2 (proj2 (C67_toc_strings split)))))))))))) t t (proj2 K N) (inv_carried _ _ _ _ V (C Logic.I N)) compact) as (x & E & Ld & _).
      rewrite E. cbn [obind]. unfold loaded. rewrite Ld. cbn [obind]. exists (toc_back split t, d), true, (book_back split b, s). split; [reflexivity|]. split; [now constructor|].
      split; [|reflexivity]. split; [|exact Sh]. cbn [fst]. apply inv_back; [lia|exact V|exact (C Logic.I N)].
    + assert (I0 : toc_is_valid t = false) by (destruct (toc_is_valid t); [exfalso; apply N, K; reflexivity|reflexivity]).
      rewrite (proj2 (proj2 (proj2 (proj2 (proj2 (proj2 (proj2 (proj2 (proj2 (proj2 (proj2 (proj2 (proj2 (C67_refused compact))))))))))))) t I0). cbn [obind].
      exists (t, d), false, (b, s). split; [reflexivity|]. split; [now constructor|]. split; [|reflexivity]. split; assumption.
  - cbn in V, Sh. destruct (inv_shows _ _ _ _ V) as (_ & K). destruct (named_dec b) as [N|N].
    + assert (Rt : forall t0, file_round_trips (toc_to_file t) (load_toc split t0) (toc_back split t)) by (intro t0; exact (proj2 (proj2 (proj2 (proj2 (proj2 (proj2 (proj2 (proj2 (proj2 (proj2 (proj2 (proj2 (C52_toc_files split)))))))))))) t0 t (proj2 K N) (inv_carried _ _ _ _ V (C Logic.I N)))).
      destruct (Rt t compact nl d name) as (d' & E & O & _). rewrite E. cbn [obind fst snd]. exists (t, d'), true, (b, put s name (book_back split b)). split; [reflexivity|]. split; [now constructor|].
      split.
      * split; [exact V|]. cbn [fst snd]. intro m. unfold put. destruct (str_eqb m name) eqn:Q.
        -- apply str_eqb_eq in Q. subst m. exists (toc_back split t). split; [apply inv_back; [lia|exact V|exact (C Logic.I N)]|].
           assert (Ft : forall t0, fetch (load_toc split t0) true d' name = Ok (Some (toc_back split t))).
           { intro t0. destruct (Rt t0 compact nl d name) as (d'' & E' & _ & Fe). rewrite E in E'. injection E' as <-. exact Fe. }
           split; [|exact Ft]. intro H. specialize (Ft t). rewrite (proj1 (C52_missing_file _ _ _) H) in Ft. discriminate.
        -- assert (Nm : m <> name) by (intros ->; rewrite str_eqb_refl in Q; discriminate). specialize (Sh m). specialize (O m Nm). destruct (s m).
           ++ destruct Sh as (u & Vu & Nu & Fu). exists u. split; [exact Vu|]. split; [congruence|]. intro t0. now rewrite (fetch_same _ _ d _ O).
           ++ congruence.
      * cbn [snd]. intros m Hm. apply O. intros ->. now apply (Hm compact nl).
    + assert (I0 : toc_is_valid t = false) by (destruct (toc_is_valid t); [exfalso; apply N, K; reflexivity|reflexivity]).
      assert (E : toc_to_file t compact nl true d name = Ok (d, false)).
      { Transparent toc_to_file. unfold toc_to_file, store. rewrite I0. reflexivity. }
      rewrite E. cbn [obind fst snd]. exists (t, d), false, (b, s). split; [reflexivity|]. split; [now constructor|]. split; [|reflexivity]. split; assumption.
  - cbn in V, Sh. pose proof (Sh name) as Sn. destruct (s name) as [b'|] eqn:Es.
    + destruct Sn as (u & Vu & Nu & Fu). destruct (d name); [|congruence]. unfold loaded. rewrite Fu. cbn [obind]. exists (u, d), true, (b', s). split; [reflexivity|]. split; [now constructor|].
      split; [|reflexivity]. split; assumption.
    + rewrite Sn, (L name eq_refl). exists (t, d), false, (b, s). split; [reflexivity|]. split; [now constructor|]. split; [|reflexivity]. split; assumption.
Qed.
Lemma steps_session split d0 : forall l p q, Forall (act_fits (total_offset (edits l))) l -> total_offset (edits l) < 2^31 ->
  (forall name, In (LoadFrom name) l -> d0 name = None) -> all_carried split q l -> sound split d0 (total_offset (edits l)) (all_offered (edits l)) p q ->
  exists p' answers q', steps split p l = Ok (p', answers) /\ session split q l answers q' /\ sound split d0 0 0 p' q' /\
    (forall name, not_saved_to l name -> snd p' name = snd p name).
Proof.
  induction l as [|a l IH]; intros p q F B L C S0.
  - exists p, [], q. split; [reflexivity|]. split; [constructor|]. split; [exact S0|auto].
  - inversion F as [|? ? Fa Fl]; subst.
    assert (E1 : total_offset (edits (a :: l)) = moved a + total_offset (edits l)) by (destruct a; reflexivity).
    assert (E2 : all_offered (edits (a :: l)) = (offers a + all_offered (edits l))%nat) by (destruct a; reflexivity).
    rewrite E1, E2 in *.
    assert (M : forall x T, act_fits T x -> 0 <= moved x) by (intros [[]| | |] T Hx; cbn in *; lia).
    assert (R : 0 <= total_offset (edits l)).
    { clear - Fl M. revert Fl. generalize (moved a + total_offset (edits l)). intros T Fl. induction Fl as [|x l Fx _ IH]; [reflexivity|].
      replace (total_offset (edits (x :: l))) with (moved x + total_offset (edits l)) by (destruct x; reflexivity). specialize (M x T Fx). lia. }
    pose proof (M a _ Fa) as Ma.
    destruct (step_went split d0 a (total_offset (edits l)) (all_offered (edits l)) p q) as (p1 & ok & q1 & St & W & S1 & O1); auto.
    { intros name ->. apply L. now left. }
    { intros Sa N. destruct q as (b, s). refine (C [] a l [] b s eq_refl Sa _ N). constructor. }
    cbn [steps]. rewrite St. cbn [obind fst snd].
    destruct (IH p1 q1) as (p2 & answers & q2 & St2 & Se & S2 & O2); auto; [|lia| | |].
    { eapply Forall_impl; [|exact Fl]. intros x. destruct x; cbn; auto. apply op_fits_less. lia. }
    { intros name I0. apply L. now right. }
    { intros l1 x l2 ans b s E Sx Se N. apply (C (a :: l1) x l2 (ok :: ans) b s); [now rewrite E|exact Sx| |exact N]. econstructor; eassumption. }
    rewrite St2. cbn [obind fst snd]. exists p2, (ok :: answers), q2. split; [reflexivity|]. split; [econstructor; eassumption|]. split; [exact S2|].
    intros name N. rewrite O2, O1; [reflexivity| |].
    + intros c nl E. apply (N c nl). now left.
    + intros c nl I0. apply (N c nl). now right.
Qed.
