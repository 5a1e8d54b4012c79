(** What has been loaded once comes back unchanged from then on. *)
From Verif Require Import CBase CBaseProofs XmlEntity XmlModel SpecXml EntityProofs Utf8Proofs TrimProofs TocModel SpecToc ValidProofs EqualProofs TocXmlModel TocXmlBase SpecTocXml
  TocXmlProofs TocXmlProofs2 TocXmlProofs3 TocXmlProofs4 TocXmlProofs5 TocXmlNorm TocXmlRound TagsModel PropTocXml.
From Coq Require Import ZifyBool.

Lemma strip_strip s : strip (strip s) = strip s.
Proof. rewrite <- !strip_trim. apply trim_trim. Qed.
(** * Stripped text is text *)
Lemma rfc_head c : good_cp c -> exists h l, rfc_utf8 c = h :: l /\ (h = 10 \/ h = 13 \/ h = 32 -> c = h /\ l = []).
Proof.
  intro G. unfold good_cp in G. unfold rfc_utf8. destruct (c <? 128) eqn:E1; [eauto|]. destruct (c <? 2048) eqn:E2; [do 2 eexists; split; [reflexivity|]; intros; exfalso; assert (0 <= c / 64) by (apply Z.div_pos; lia); lia|].
  destruct (c <? 65536) eqn:E3; [do 2 eexists; split; [reflexivity|]; intros; exfalso; assert (0 <= c / 4096) by (apply Z.div_pos; lia); lia|].
  do 2 eexists; split; [reflexivity|]; intros; exfalso; assert (0 <= c / 262144) by (apply Z.div_pos; lia); lia.
Qed.
Lemma rfc_last c : good_cp c -> exists h l, rev (rfc_utf8 c) = h :: l /\ (h = 10 \/ h = 13 \/ h = 32 -> c = h /\ l = []).
Proof.
  intro G. unfold good_cp in G. unfold rfc_utf8. destruct (c <? 128) eqn:E1; [cbn; eauto|].
  assert (0 <= c mod 64 < 64) by (apply Z.mod_pos_bound; lia).
  destruct (c <? 2048) eqn:E2; [cbn [rev app]; do 2 eexists; split; [reflexivity|]; intros; exfalso; lia|].
  destruct (c <? 65536) eqn:E3; cbn [rev app]; do 2 eexists; (split; [reflexivity|]); intros; exfalso; lia.
Qed.
Lemma drop_blank_text cps : Forall good_cp cps -> exists k, Forall good_cp k /\ drop_blank (flat_map rfc_utf8 cps) = flat_map rfc_utf8 k.
Proof.
  induction cps as [|c cps IH]; intro F; [exists []; auto|]. inversion F as [|? ? G F']; subst. destruct (rfc_head c G) as (h & l & E & B). cbn [flat_map]. rewrite E. cbn [app drop_blank].
  destruct ((h =? 10) || (h =? 13) || (h =? 32)) eqn:Q.
  - destruct B as (-> & ->); [lia|]. apply IH, F'.
  - exists (c :: cps). split; [exact F|]. cbn [flat_map]. now rewrite E.
Qed.
Lemma drop_end_text cps : Forall good_cp cps -> exists k, Forall good_cp k /\ rev (drop_blank (rev (flat_map rfc_utf8 cps))) = flat_map rfc_utf8 k.
Proof.
  induction cps as [|c cps IH] using rev_ind; intro F; [exists []; auto|]. apply Forall_app in F as (F' & G). inversion G as [|? ? Gc _]; subst.
  rewrite flat_map_app, rev_app_distr. cbn [flat_map]. rewrite app_nil_r. destruct (rfc_last c Gc) as (h & l & E & B). rewrite E. cbn [app drop_blank].
  destruct ((h =? 10) || (h =? 13) || (h =? 32)) eqn:Q.
  - destruct B as (-> & ->); [lia|]. cbn [app]. apply IH, F'.
  - exists (cps ++ [c]). split; [apply Forall_app; auto|]. rewrite flat_map_app. cbn [flat_map]. rewrite app_nil_r. change (h :: l ++ rev (flat_map rfc_utf8 cps)) with ((h :: l) ++ rev (flat_map rfc_utf8 cps)).
    rewrite <- E, <- rev_app_distr. apply rev_involutive.
Qed.
Lemma strip_text s : is_text s -> is_text (strip s).
Proof.
  intros (cps & F & ->). unfold strip. destruct (drop_blank_text cps F) as (k & Fk & ->). destruct (drop_end_text k Fk) as (j & Fj & ->). exists j. auto.
Qed.
(** * Parts *)
Lemma back_carried s : carried s -> carried (read_back s).
Proof. intros C x. destruct s as [[|c l]|]; cbn [read_back]; try discriminate. intro E. injection E as <-. apply strip_text. now apply C. Qed.
Lemma back_clean s : clean (read_back s).
Proof. intros x. destruct s as [[|c l]|]; cbn [read_back]; try discriminate. intro E. injection E as <-. apply strip_strip. Qed.
Lemma back_solid s : solid s -> solid (read_back s).
Proof. intros C x. destruct s as [[|c l]|]; cbn [read_back]; try discriminate. intro E. injection E as <-. rewrite strip_strip. now apply C. Qed.
Lemma back_back s : solid s -> read_back (read_back s) = read_back s.
Proof.
  intro S0. destruct s as [[|c l]|]; try reflexivity. cbn [read_back]. specialize (S0 _ eq_refl). destruct (strip (c :: l)) as [|d m] eqn:E; [congruence|]. cbn [read_back]. now rewrite <- E, strip_strip.
Qed.
Lemma pair_range x y : is_u32 x -> is_u32 y -> is_u32 (fst (pair_back x y)) /\ is_u32 (snd (pair_back x y)).
Proof. intros A1 A2. unfold pair_back. destruct (_ || _); cbn; unfold is_u32 in *; lia. Qed.
Lemma pair_zero x y : fst (pair_back x y) = 0 <-> snd (pair_back x y) = 0.
Proof. unfold pair_back. destruct (_ || _) eqn:E; cbn; lia. Qed.
Lemma page_carried_back p : page_carried p -> page_carried (page_back p) /\ page_clean (page_back p).
Proof.
  intros (C1 & C2 & C3 & C4 & C5 & C6 & C7 & C8). destruct (pair_range _ _ C5 C6), (pair_range _ _ C7 C8). split; [repeat (split; [assumption|]); assumption|].
  split; apply pair_zero.
Qed.
Lemma pages_of_back p : pages_of (preview_back p) = map page_back (pages_of p).
Proof. unfold pages_of at 1, preview_back. cbn [pv_pages]. destruct (pages_of p); reflexivity. Qed.
Lemma preview_carried_back p : preview_carried p -> preview_carried (preview_back p) /\ preview_clean (preview_back p).
Proof.
  intros (C & D). unfold preview_carried, preview_clean. rewrite pages_of_back. split; split.
  - apply Forall_map. eapply Forall_impl; [|exact C]. intros g H. now apply page_carried_back.
  - cbn. unfold is_i32 in *. destruct (_ <? _); lia.
  - apply Forall_map. eapply Forall_impl; [|exact C]. intros g H. now apply page_carried_back.
  - cbn. destruct (_ <? _) eqn:E; lia.
Qed.
Lemma fsource_carried_back s : fsource_carried s -> fsource_carried (fsource_back s) /\ fsource_clean (fsource_back s).
Proof.
  intros (C1 & C2 & C3 & C4). split; [repeat (split; [cbn; assumption || (destruct (fs_data s); [assumption|intros x E; discriminate])|]); assumption|].
  intro E. cbn in *. rewrite E. now left.
Qed.
Lemma fsources_of_back f : fsources_of (file_back f) = map fsource_back (fsources_of f).
Proof. unfold fsources_of at 1, file_back. cbn [f_metadata]. destruct (fsources_of f); reflexivity. Qed.
Lemma undefined_text : is_text (s2z "undefined").
Proof. now apply ascii_by. Qed.
Lemma file_carried_back f : file_carried f -> blank_text f = false -> file_carried (file_back f) /\ file_clean (file_back f).
Proof.
  intros (C1 & C2 & C3 & C4 & C5 & C6 & C7 & C8 & C9 & C10 & C11 & C12 & C13 & C14 & C15) NB.
  assert (Ck : is_text (match read_back (f_checksum f) with Some x => x | None => [] end) /\ strip (match read_back (f_checksum f) with Some x => x | None => [] end) = match read_back (f_checksum f) with Some x => x | None => [] end).
  { pose proof (back_carried _ C3) as H1. pose proof (back_clean (f_checksum f)) as H2. destruct (read_back (f_checksum f)) as [x|]; [split; [now apply H1|now apply H2]|]. split; [exists []; split; [constructor|reflexivity]|reflexivity]. }
  assert (Pv : forall p, f_preview (file_back f) = Some p -> preview_carried p /\ preview_clean p).
  { intros p E. cbn [file_back f_preview] in E. destruct (previewedb f); [|discriminate]. destruct (f_preview f) as [q|] eqn:Eq; [|discriminate]. injection E as <-. apply preview_carried_back. now apply C13. }
  assert (Fs : Forall fsource_carried (fsources_of (file_back f)) /\ Forall fsource_clean (fsources_of (file_back f))).
  { rewrite fsources_of_back. split; apply Forall_map; (eapply Forall_impl; [|exact C14]); intros s Hs; now apply fsource_carried_back. }
  assert (Ty : f_types (file_back f) = (if digitalb f then 1 else 0) + (if previewedb f then 2 else 0)).
  { cbn [file_back f_types]. fold (blank_text f). now rewrite NB, andb_false_r. }
  assert (Td : digital (file_back f) <-> digitalb f = true) by (unfold digital; rewrite Ty; destruct (digitalb f), (previewedb f); cbn; tauto).
  assert (Tp : previewed (file_back f) <-> previewedb f = true) by (unfold previewed; rewrite Ty; destruct (digitalb f), (previewedb f); cbn; tauto).
  assert (N0 : is_text []) by (exists []; split; [constructor|reflexivity]).
  split.
  - unfold file_carried. split; [now apply back_carried|]. split; [now apply back_carried|].
    split. { intros x E. cbn [file_back f_checksum] in E. destruct (digitalb f); injection E as <-; [apply Ck|exact N0]. }
    split; [now apply back_carried|]. split. { intros x E. cbn [file_back f_file_format] in E. injection E as <-. destruct (f_file_format f) as [y|] eqn:Ey; [now apply C5|exact undefined_text]. }
    split; [exact C6|]. split; [exact C7|]. cbn [file_back f_size f_start_frame f_start_byte f_end_frame f_end_byte].
    unfold is_i32, is_i64 in *. destruct (digitalb f); (repeat (split; [lia|])); (split; [intros p E; now apply Pv|]); (split; [apply Fs|]); unfold short; rewrite fsources_of_back, map_length; exact C15.
  - unfold file_clean. split; [apply back_clean|]. split; [apply back_clean|].
    split. { intros x E. cbn [file_back f_checksum] in E. destruct (digitalb f); injection E as <-; [apply Ck|reflexivity]. }
    split; [apply back_clean|]. split; [discriminate|]. split; [rewrite Ty; destruct (digitalb f), (previewedb f); lia|].
    split. { rewrite Td. intro N. cbn [file_back f_checksum f_size f_start_frame f_start_byte f_end_frame f_end_byte]. destruct (digitalb f); [congruence|]. auto 10. }
    split. { rewrite Tp. intro N. cbn [file_back f_preview]. destruct (previewedb f); [congruence|reflexivity]. }
    split; [intros p E; now apply Pv|]. split; [apply Fs|].
    destruct (fsources_of f) as [|x l] eqn:E; [left; cbn [file_back f_metadata]; now rewrite E|right; rewrite fsources_of_back, E; discriminate].
Qed.
Lemma files_of_back r : files_of (reel_back r) = map file_back (files_of r).
Proof. unfold reel_back, files_of at 1. cbn [r_files]. destruct (r_files r) as [v|] eqn:E; [|unfold files_of; rewrite E; reflexivity]. destruct (files_of r); reflexivity. Qed.
Lemma reel_carried_back r : reel_carried r -> reel_is_valid r = true -> reel_carried (reel_back r) /\ reel_clean (reel_back r).
Proof.
  intros (C1 & (C2 & C3) & C4) V. pose proof (reel_files_valid r (conj C1 (conj (conj C2 C3) C4)) V) as Vf.
  assert (G : forall f, In f (files_of r) -> file_carried (file_back f) /\ file_clean (file_back f)).
  { intros f I. rewrite Forall_forall in C2, C3, Vf. apply file_carried_back; [now apply C2|]. apply file_not_blank; [|now apply C3]. apply file_valid_iff; [apply (C2 f I)|now apply Vf]. }
  split.
  - split; [now apply back_carried|]. unfold files_carried, short. rewrite files_of_back, map_length. split; [|exact C4]. split; apply Forall_map; apply Forall_forall; intros f I; [now apply G|].
    rewrite Forall_forall in C3. destruct (C3 f I) as (S1 & S2). split; now apply back_solid.
  - split; [apply back_clean|]. split.
    + rewrite files_of_back. apply Forall_map. apply Forall_forall. intros f I. now apply G.
    + cbn [reel_back r_files]. destruct (r_files r); [|discriminate]. destruct (files_of r); discriminate.
Qed.
Lemma msource_carried_back split s : splits split -> msource_carried s -> msource_clean s -> msource_back split s = s /\ msource_carried (msource_back split s) /\ msource_clean (msource_back split s).
Proof.
  intros Sp C K. assert (E : msource_back split s = s).
  { destruct s as [f i j d v]. unfold msource_back. cbn in *. f_equal. unfold tags_back. destruct v as [l|]; [|reflexivity]. destruct (K l eq_refl) as (N & W & T). rewrite T. specialize (Sp l N W).
    destruct (tags_string l) eqn:Q; [|now rewrite Sp]. exfalso. destruct l as [|x l]; [congruence|]. inversion W as [|? ? (Nx & _) _]; subst. destruct x; [congruence|]. cbn in Q. destruct l; discriminate. }
  rewrite E. auto.
Qed.
Lemma layouts_carried_back l : layouts_carried l -> layouts_carried (map layout_back l) /\ Forall layout_clean (map layout_back l).
Proof.
  intros (C1 & C2 & C3). split; [split; [|split]|].
  - apply Forall_map. eapply Forall_impl; [|exact C1]. intros d (H1 & H2 & H3). split; [now apply back_carried|]. split; [now apply back_carried|exact H3].
  - apply Forall_map. eapply Forall_impl; [|exact C2]. intros d (H1 & H2). split; now apply back_solid.
  - rewrite map_map. replace (map (fun d => read_back (ld_id (layout_back d))) l) with (map (fun d => read_back (ld_id d)) l); [exact C3|].
    apply map_ext_in. intros d I. rewrite Forall_forall in C2. cbn [layout_back ld_id]. symmetry. apply back_back. now apply C2.
  - apply Forall_map. apply Forall_forall. intros d _. split; apply back_clean.
Qed.
Lemma back_opt_map {A} (f : A -> A) l : match back_opt f l with Some (Some x) => x | _ => [] end = map f l.
Proof. destruct l; reflexivity. Qed.
Lemma toc_carried_back split t : splits split -> toc_is_valid t = true -> toc_carried t -> Forall msource_clean (msources_of t) ->
  toc_carried (toc_back split t) /\ toc_clean (toc_back split t).
Proof.
  intros Sp V C K. pose proof C as (C1 & C2 & C3 & C4 & C5 & (C6 & C7) & C8 & C9 & C10). destruct (toc_parts_of t C V) as ((_ & _ & P) & _).
  assert (Vr : Forall (fun r => reel_is_valid r = true) (reels_of t)).
  { destruct (reels_of t) as [|r l] eqn:E; [constructor|]. destruct P as (P & _); [discriminate|]. exact (reels_each_valid (Some (r :: l)) P C10). }
  assert (G : forall r, In r (reels_of t) -> reel_carried (reel_back r) /\ reel_clean (reel_back r)) by (intros r I; rewrite Forall_forall in C6, Vr; now apply reel_carried_back; [apply C6|apply Vr]).
  assert (M : forall s, In s (msources_of t) -> msource_carried (msource_back split s) /\ msource_clean (msource_back split s)) by (intros s I; rewrite Forall_forall in C4, K; apply (msource_carried_back split s Sp (C4 s I) (K s I))).
  destruct (layouts_carried_back _ C5) as (L1 & L2).
  assert (E1 : reels_of (toc_back split t) = map reel_back (reels_of t)) by apply back_opt_map.
  assert (E2 : msources_of (toc_back split t) = map (msource_back split) (msources_of t)) by apply back_opt_map.
  assert (E3 : layouts_of (toc_back split t) = map layout_back (layouts_of t)) by apply back_opt_map.
  split.
  - unfold toc_carried, short. rewrite E1, E2, E3, !map_length. split; [exact C1|]. split; [now apply back_carried|]. split; [now apply back_carried|].
    split; [apply Forall_map, Forall_forall; intros s I; now apply M|]. split; [exact L1|]. split; [|auto].
    split; apply Forall_map, Forall_forall; intros r I; [now apply G|]. rewrite Forall_forall in C7. now apply back_solid, C7.
  - unfold toc_clean. rewrite E1, E2, E3. split; [apply back_clean|]. split; [apply back_clean|]. split; [apply Forall_map, Forall_forall; intros s I; now apply M|]. split; [exact L2|].
    apply Forall_map, Forall_forall. intros r I. now apply G.
Qed.
Lemma forallb_map_true {A B} (f : A -> B) (p : A -> bool) (q : B -> bool) l : (forall x, In x l -> p x = true -> q (f x) = true) -> forallb p l = true -> forallb q (map f l) = true.
Proof. intros H F. rewrite forallb_forall in *. intros y I. apply in_map_iff in I as (x & <- & I). auto. Qed.
(** What comes back is valid unless an id is blank. *)
Lemma toc_back_valid split t : toc_is_valid t = true -> toc_carried t -> toc_is_valid (toc_back split t) = true <-> solid (t_job_id t) /\ solid (t_reel_id t).
Proof.
  intros V C. destruct (toc_parts_of t C V) as ((P1 & P2 & P3) & N1 & N2 & N3 & Ix). destruct C as (_ & _ & _ & C4 & (_ & C5 & _) & (C6 & C7) & C8 & C9 & C10).
  assert (S1 : forall s, nonempty s -> null_or_empty (read_back s) = false <-> solid s).
  { intros s N. split.
    - intros H x E. destruct N as (c & l & ->). injection E as <-. cbn [read_back] in H. intro Q. rewrite Q in H. discriminate.
    - intro S0. apply nonempty_iff. now apply read_back_some. }
  unfold toc_is_valid, toc_back. cbn [t_version t_index_type t_job_id t_reel_id t_reels t_metadata t_layouts].
  assert (E1 : null_or_empty (t_version t) = false) by now apply nonempty_iff. rewrite E1.
  assert (E4 : negb (str_eqb (or_empty (t_index_type t)) INDEX_JOB) && negb (str_eqb (or_empty (t_index_type t)) INDEX_REEL) = false) by (destruct Ix as [-> | ->]; reflexivity). rewrite E4.
  assert (E5 : negb (reels_is_valid (back_opt reel_back (reels_of t))) && (match back_opt reel_back (reels_of t) with None => false | _ => true end) = false).
  { destruct (reels_of t) as [|r l] eqn:E; [reflexivity|]. destruct P3 as (P3 & _); [discriminate|]. pose proof (reels_each_valid (Some (r :: l)) P3 C10) as Vr. cbn [vlist] in Vr.
    unfold back_opt. rewrite andb_true_r, negb_false_iff. unfold reels_is_valid. destruct (_ =? 0); [reflexivity|]. cbn [vec_list].
    apply (forallb_map_true reel_back reel_is_valid); [|now apply forallb_forall, Forall_forall].
    intros x I Vx. rewrite Forall_forall in C6, C7. apply reel_back_valid; [exact Vx|now apply C6|now apply C7]. }
  rewrite E5.
  assert (E6 : negb (layout_defs_is_valid (back_opt layout_back (layouts_of t))) && (match back_opt layout_back (layouts_of t) with None => false | _ => true end) = false).
  { destruct (layouts_of t) as [|d l] eqn:E; [reflexivity|]. destruct P2 as (P2 & _); [discriminate|]. unfold back_opt. rewrite andb_true_r, negb_false_iff. unfold layout_defs_is_valid in *. cbn [vec_list] in *.
    apply (forallb_map_true layout_back layout_def_is_valid); [|exact P2]. intros x I Vx. rewrite Forall_forall in C5. destruct (C5 x I). now apply layout_back_valid. }
  rewrite E6.
  assert (E7 : negb (metadata_count (back_opt (msource_back split) (msources_of t)) =? 0) && negb (metadata_is_valid (back_opt (msource_back split) (msources_of t))) = false).
  { destruct (msources_of t) as [|s l] eqn:E; [reflexivity|]. destruct P1 as (P1 & _); [discriminate|]. apply andb_false_iff. right. rewrite negb_false_iff. unfold back_opt.
    change (forallb msource_is_valid (map (msource_back split) (s :: l)) = true). apply (forallb_map_true (msource_back split) msource_is_valid); [|exact P1]. intros x _ Vx. exact Vx. }
  rewrite E7, <- (S1 _ N2), <- (S1 _ N3). destruct (null_or_empty (read_back (t_job_id t))), (null_or_empty (read_back (t_reel_id t))); intuition discriminate.
Qed.
