(** Objects in normal form come back equal; the loads of documents. *)
From Verif Require Import CBase CBaseProofs XmlEntity XmlModel SpecXml EntityProofs Utf8Proofs TrimProofs XmlProofs XmlRound SimProofs
  TocModel SpecToc ValidProofs EqualProofs TocXmlModel TocXmlBase SpecTocXml TocXmlProofs TocXmlProofs2 TocXmlProofs3 TocXmlProofs4 TocXmlProofs5.
From Coq Require Import ZifyBool.

(** * Normal forms *)
Lemma clean_back s : clean s -> nstr (read_back s) = nstr s.
Proof. intro C. destruct s as [[|c l]|]; [reflexivity| |reflexivity]. cbn [read_back]. now rewrite (C _ eq_refl). Qed.
Lemma clean_back_eq s : clean s -> nonempty s -> read_back s = s.
Proof. intros C (c & l & ->). cbn [read_back]. now rewrite (C _ eq_refl). Qed.
Lemma pair_back_id x y : (x = 0 <-> y = 0) -> pair_back x y = (x, y).
Proof. intro H. unfold pair_back. destruct (x =? 0) eqn:A, (y =? 0) eqn:B; cbn; f_equal; lia. Qed.
Lemma page_back_id p : page_clean p -> page_back p = p.
Proof. intros (A & B). unfold page_back. rewrite (pair_back_id _ _ A), (pair_back_id _ _ B). now destruct p. Qed.
Lemma back_list_ok {A} (f : A -> A) l : l <> [] -> back_list f l = Some (map f l).
Proof. now destruct l. Qed.
Lemma map_same {A B} (f g : A -> B) l : Forall (fun x => f x = g x) l -> map f l = map g l.
Proof. induction 1; cbn; congruence. Qed.
Lemma preview_back_id p : preview_is_valid (Some p) = true -> preview_clean p -> preview_back p = p.
Proof.
  intros V (C & D). destruct (preview_pages p V) as (E & N & _). unfold preview_back. rewrite back_list_ok by exact N.
  rewrite (map_same page_back (fun x => x)), map_id by (eapply Forall_impl; [|exact C]; apply page_back_id).
  destruct p as [pg d]. cbn [pv_pages pv_dpi] in *. rewrite E. f_equal. destruct (d <? 0) eqn:Q; lia.
Qed.
Lemma fsource_back_norm s : fsource_clean s -> norm_fsource (fsource_back s) = norm_fsource s.
Proof.
  unfold fsource_clean, norm_fsource, fsource_back. destruct s as [[d|] g i j]; [reflexivity|]. cbn [fs_data fs_format_id fs_file_id fs_source_id].
  intro H. destruct (H eq_refl) as [-> | ->]; reflexivity.
Qed.
Lemma msource_back_id split s : splits split -> msource_clean s -> msource_back split s = s.
Proof.
  intros Sp C. unfold msource_back. destruct s as [f i j d t]. cbn [ms_tags ms_format ms_id ms_file_id ms_data]. f_equal.
  unfold msource_clean in C. cbn [ms_tags] in C. destruct t as [l|]; [|reflexivity]. destruct (C l eq_refl) as (N & F & E). cbn [tags_back]. rewrite E.
  destruct (tags_string l) as [|c k] eqn:T.
  - destruct l as [|x [|y m]]; [congruence| |].
    + cbn [tags_string] in T. subst. inversion F as [|? ? (Hx & _) ?]. congruence.
    + cbn [tags_string] in T. apply (f_equal (@List.length Z)) in T. rewrite !app_length in T. cbn in T. lia.
  - f_equal. rewrite <- T. apply Sp; auto.
Qed.
Lemma digital_dec f : digitalb f = true \/ ~ digital f.
Proof. unfold digitalb, digital. destruct (Z.testbit (f_types f) 0); auto. Qed.
Lemma types_bits z : 0 <= z <= 3 -> (if Z.testbit z 0 then 1 else 0) + (if Z.testbit z 1 then 2 else 0) = z.
Proof. intro H. assert (z = 0 \/ z = 1 \/ z = 2 \/ z = 3) as [-> | [-> | [-> | ->]]] by lia; reflexivity. Qed.
Lemma nstr_text_back s : clean s -> nstr (Some (text_back s)) = nstr s.
Proof. intro C. unfold text_back. pose proof (clean_back s C) as E. destruct (read_back s); exact E. Qed.
Lemma file_back_norm_gen f c : file_is_valid f = true -> file_carried f -> file_clean f -> blank_text f = false ->
  (digitalb f = true -> nstr (Some c) = nstr (f_checksum f)) ->
  norm_file (built f (if digitalb f then data_of f c else mkData (Some []) 0 (-1) (-1) (-1) (-1))
    ((if digitalb f then 1 else 0) + (if previewedb f then 2 else 0))) = norm_file f.
Proof.
  intros V K C NB Hc. assert (Sh : short (fsources_of f)) by apply K. pose proof (proj1 (file_valid_iff f Sh) V) as (_ & _ & _ & _ & Pv & _).
  destruct C as (C1 & C2 & C3 & C4 & C5 & C6 & C7 & C8 & C9 & C10 & C11).
  unfold norm_file, built. cbn [f_name f_date f_checksum f_size f_id f_start_frame f_start_byte f_end_frame f_end_byte f_unique_id f_parent_id f_types f_preview f_file_format f_metadata].
  rewrite (clean_back _ C1), (clean_back _ C2), (clean_back _ C4). unfold digitalb, previewedb in *. rewrite (types_bits _ C6).
  assert (Ep : option_map norm_preview (if Z.testbit (f_types f) 1 then option_map preview_back (f_preview f) else None) = option_map norm_preview (f_preview f)).
  { destruct (Z.testbit (f_types f) 1) eqn:B.
    - destruct (Pv B) as (p & E & Pk). rewrite E. cbn [option_map]. rewrite preview_back_id; auto. apply preview_valid_iff. eauto.
    - rewrite C8; [reflexivity|]. unfold previewed. rewrite B. discriminate. }
  rewrite Ep.
  assert (Ef : nstr (Some (match f_file_format f with Some x => x | None => s2z "undefined" end)) = nstr (f_file_format f)) by (destruct (f_file_format f); [reflexivity|congruence]).
  rewrite Ef.
  assert (Em : option_map (option_map (map norm_fsource)) (match fsources_of f with [] => None | l => Some (Some (map fsource_back l)) end) =
               option_map (option_map (map norm_fsource)) (f_metadata f)).
  { destruct C11 as [E|N].
    - unfold fsources_of. now rewrite E.
    - unfold fsources_of in *. destruct (f_metadata f) as [[l|]|]; try congruence. destruct l as [|x l]; [congruence|]. cbn [option_map].
      rewrite map_map. do 2 f_equal. apply map_same. eapply Forall_impl; [|exact C10]. apply fsource_back_norm. }
  rewrite Em.
  destruct (Z.testbit (f_types f) 0) eqn:D.
  - cbn [data_of fd_checksum fd_size fd_sf fd_sb fd_ef fd_eb]. now rewrite (Hc eq_refl).
  - destruct C7 as (E1 & -> & -> & -> & -> & ->); [unfold digital; rewrite D; discriminate|]. cbn [fd_checksum fd_size fd_sf fd_sb fd_ef fd_eb].
    destruct E1 as [-> | ->]; reflexivity.
Qed.
Lemma clean_solid s : clean s -> solid s \/ s = Some [].
Proof. intro C. destruct s as [[|c l]|]; [now right| |]; left; intros x E; [|discriminate]. rewrite (C _ E). injection E as <-. discriminate. Qed.
Lemma file_clean_solid f : file_ok f -> file_clean f -> file_solid f.
Proof.
  intros (_ & (c1 & l1 & E1) & (c2 & l2 & E2) & _) (C1 & C2 & _). split.
  - destruct (clean_solid _ C1) as [S|S]; [exact S|congruence].
  - destruct (clean_solid _ C2) as [S|S]; [exact S|congruence].
Qed.
Lemma file_back_norm f : file_is_valid f = true -> file_carried f -> file_clean f -> norm_file (file_back f) = norm_file f.
Proof.
  intros V K C. assert (Sh : short (fsources_of f)) by apply K. pose proof (proj1 (file_valid_iff f Sh) V) as Ok.
  pose proof (file_not_blank f Ok (file_clean_solid f Ok C)) as NB. rewrite file_back_built, NB, andb_false_r. apply file_back_norm_gen; auto.
  intro. apply nstr_text_back. apply C.
Qed.
Lemma file_back_v1_norm f : file_is_valid f = true -> file_carried f -> file_clean f -> (digital f -> f_checksum f = Some []) ->
  norm_file (file_back_v1 f) = norm_file f.
Proof.
  intros V K C E. assert (Sh : short (fsources_of f)) by apply K. pose proof (proj1 (file_valid_iff f Sh) V) as Ok.
  pose proof (file_not_blank f Ok (file_clean_solid f Ok C)) as NB.
  assert (H : file_back_v1 f = built f (if digitalb f then data_of f [] else mkData (Some []) 0 (-1) (-1) (-1) (-1)) ((if digitalb f then 1 else 0) + (if previewedb f then 2 else 0))).
  { unfold file_back_v1. fold (blank_text f). rewrite NB. rewrite file_back_built. unfold built. destruct (digitalb f); reflexivity. }
  rewrite H. apply file_back_norm_gen; auto. intro D. now rewrite E.
Qed.
Lemma files_back_norm l : Forall (fun f => file_is_valid f = true) l -> Forall file_carried l -> Forall file_clean l ->
  map norm_file (map file_back l) = map norm_file l.
Proof.
  intros V K C. rewrite map_map. apply map_same. apply Forall_forall. intros f I. rewrite Forall_forall in V, K, C. apply file_back_norm; auto.
Qed.
Lemma reel_back_norm r : reel_is_valid r = true -> reel_carried r -> reel_clean r -> norm_reel (reel_back r) = norm_reel r.
Proof.
  intros V K (C1 & C2 & C3). pose proof (reel_files_valid r K V) as Vf. destruct K as (_ & (Kf & _) & _). pose proof (files_back_norm _ Vf Kf C2) as E.
  unfold norm_reel, reel_back. cbn [r_id r_files]. rewrite (clean_back _ C1). f_equal. unfold files_of in *. destruct (r_files r) as [[[|x l]|]|]; try reflexivity; [congruence|].
  cbn [back_list option_map]. now rewrite E.
Qed.
Lemma layout_back_norm d : layout_clean d -> norm_def (layout_back d) = norm_def d.
Proof. intros (A & B). unfold norm_def, layout_back. cbn [ld_id ld_name ld_sections]. now rewrite !clean_back. Qed.
Lemma toc_back_norm split t : splits split -> toc_is_valid t = true -> toc_carried t -> toc_clean t -> norm_toc (toc_back split t) = norm_toc t.
Proof.
  intros Sp V K (C1 & C2 & C3 & C4 & C5). destruct (toc_parts_of t K V) as ((_ & _ & P3) & _).
  destruct K as (_ & _ & _ & _ & _ & (Kr & _) & _ & _ & Sh). unfold norm_toc. change (t_job_id (toc_back split t)) with (read_back (t_job_id t)). change (t_reel_id (toc_back split t)) with (read_back (t_reel_id t)).
  change (t_version (toc_back split t)) with (t_version t). change (t_index_type (toc_back split t)) with (t_index_type t).
  rewrite (clean_back _ C1), (clean_back _ C2).
  change (reels_of (toc_back split t)) with (match back_opt reel_back (reels_of t) with Some (Some x) => x | _ => [] end).
  change (msources_of (toc_back split t)) with (match back_opt (msource_back split) (msources_of t) with Some (Some x) => x | _ => [] end).
  change (layouts_of (toc_back split t)) with (match back_opt layout_back (layouts_of t) with Some (Some x) => x | _ => [] end).
  assert (B : forall A (f : A -> A) l, match back_opt f l with Some (Some x) => x | _ => [] end = map f l) by (intros A f l; destruct l; reflexivity).
  rewrite (B reel), (B msource), (B layout_def), !map_map.
  assert (E1 : map (fun x => norm_reel (reel_back x)) (reels_of t) = map norm_reel (reels_of t)).
  { destruct (reels_of t) as [|r l] eqn:E; [reflexivity|]. rewrite <- E in *. destruct P3 as (V3 & _); [congruence|]. pose proof (reels_each_valid _ V3 Sh) as Ve. cbn [vlist] in Ve.
    apply map_same, Forall_forall. intros x I. rewrite Forall_forall in Ve, Kr, C5. apply reel_back_norm; auto. }
  assert (E2 : map (fun x => norm_msource (msource_back split x)) (msources_of t) = map norm_msource (msources_of t)).
  { apply map_same. eapply Forall_impl; [|exact C3]. intros x H. cbv beta. now rewrite (msource_back_id split x Sp H). }
  assert (E3 : map (fun x => norm_def (layout_back x)) (layouts_of t) = map norm_def (layouts_of t)).
  { apply map_same. eapply Forall_impl; [|exact C4]. exact layout_back_norm. }
  now rewrite E1, E2, E3.
Qed.

(** * Loading the saved text *)
Section Round.
Variable ws : ws_cb.
Variable nl : bool.
Hypothesis I : indenting ws.
Variable decl : bool.
Lemma round_by {A} (load : node -> option A) (saved : list node * bool) n a ks x :
  saved = ([Elem n a ks], true) -> is_special n = false -> wf (Elem n a ks) ->
  (forall d t, at_or_below n d = Some t -> at_or_below n t = Some t -> load d = load t) ->
  (forall t, sim (Elem n a ks) t -> load t = Some x) ->
  exists s, save_object decl saved ws nl = Some s /\ load_object load s = Ok (Some x) /\ is_text s.
Proof.
  intros E B W L H. subst saved. unfold save_object. cbn [fst snd].
  exists (save_text ws nl (if decl then new_xml [Elem n a ks] else Elem n a ks)).
  split; [destruct decl; reflexivity|]. apply object_round; auto.
  intros d S. destruct decl.
  - destruct (sim_doc _ _ _ _ S B) as (t & At & St). rewrite (L d t At (sim_self _ _ _ _ St)). auto.
  - auto.
Qed.
End Round.
Lemma at_self_load {A} (load : node -> option A) n (body : node -> option A) :
  (forall d, load d = match at_or_below n d with None => None | Some t => body t end) ->
  forall d t, at_or_below n d = Some t -> at_or_below n t = Some t -> load d = load t.
Proof. intros H d t E F. now rewrite !H, E, F. Qed.
