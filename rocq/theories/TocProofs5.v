(** Exact results of the look-ups, totals and frame bounds, and the extent of a preview. *)
From Verif Require Import CBase CBaseProofs TocModel BoxModel SpecToc SpecToc2 ValidProofs PreviewProofs EqualProofs TocProofs TocProofs2 TocProofs3.
From Coq Require Import ZifyBool.

(** * C06 *)
Lemma data_frames_exact size cap :
  0 <= size -> 0 < cap < 2^32 ->
  get_data_frames cap size = (size mod 2^32) / cap + (if size mod cap =? 0 then 0 else 1).
Proof.
  intros Hs Hc. unfold get_data_frames, get_ceil. destruct (Z.eqb_spec cap 0); [lia|].
  change (u32 size) with (size mod 2^32). set (m := size mod 2^32).
  assert (Hm : 0 <= m < 2^32) by (apply Z.mod_pos_bound; lia).
  destruct (Z.eqb_spec (size mod cap) 0); cbn [negb]; [lia|].
  assert (cap <> 1) by (intros ->; rewrite Z.mod_1_r in *; lia).
  rewrite u32_small; [reflexivity|]. assert (0 <= m / cap) by (apply Z.div_pos; lia).
  assert (m / cap <= m / 2) by (apply Z.div_le_compat_l; lia).
  assert (m / 2 < 2^31) by (apply Z.div_lt_upper_bound; lia). lia.
Qed.

(** * C29 *)
Lemma first_with_cons {A} (P : A -> Prop) y l x : ~ P y -> first_with P l x -> first_with P (y :: l) x.
Proof. intros H (l1 & l2 & -> & H1 & H2). exists (y :: l1), l2. split; [reflexivity|]. split; [exact H1|constructor; assumption]. Qed.
Lemma first_with_here {A} (P : A -> Prop) l x : P x -> first_with P (x :: l) x.
Proof. intro H. exists [], l. split; [reflexivity|]. split; [exact H|constructor]. Qed.
Lemma find_uid id l : uid_result id l (find_by_str f_unique_id id l).
Proof.
  induction l as [|f l IH]; cbn [find_by_str]; [constructor|]. destruct (f_unique_id f) as [k|] eqn:E.
  - destruct (str_eqb k id) eqn:Ek.
    + apply str_eqb_eq in Ek. subst k. split; [|exact E]. apply first_with_here. left. exact E.
    + assert (~ ends_search id f).
      { intros [H|H]; rewrite E in H; [|discriminate]. injection H as ->. rewrite (proj2 (str_eqb_eq id id) eq_refl) in Ek. discriminate. }
      destruct (find_by_str f_unique_id id l) as [[x|]|]; cbn in *.
      * destruct IH as [H1 H2]. split; [apply first_with_cons; assumption|exact H2].
      * constructor; assumption.
      * destruct IH as (x & H1 & H2). exists x. split; [apply first_with_cons; assumption|exact H2].
  - exists f. split; [|exact E]. apply first_with_here. right. exact E.
Qed.
Lemma uid_app id l m r : uid_result id l (Ok None) -> uid_result id m r -> uid_result id (l ++ m) r.
Proof.
  cbn. intros H1. destruct r as [[x|]|]; cbn.
  - intros [H2 H3]. split; [apply first_with_app_r; assumption|exact H3].
  - intro H2. apply Forall_app. auto.
  - intros (x & H2 & H3). exists x. split; [apply first_with_app_r; assumption|exact H3].
Qed.
Lemma uid_scan id l : id <> [] ->
  uid_result id (flat_map files_of l) (scan_reels (fun r => reel_file_by_unique_id r (Some id)) l).
Proof.
  intro Hid. induction l as [|r l IH]; [constructor|]. cbn [scan_reels flat_map].
  destruct id as [|c s]; [contradiction|].
  replace (reel_file_by_unique_id r (Some (c :: s))) with (find_by_str f_unique_id (c :: s) (files_of r))
    by (unfold reel_file_by_unique_id; rewrite <- reel_files_of; reflexivity).
  pose proof (find_uid (c :: s) (files_of r)) as H. destruct (find_by_str f_unique_id (c :: s) (files_of r)) as [[x|]|]; cbn [obind].
  - cbn in H |- *. destruct H as [H1 H2]. split; [apply first_with_app_l; exact H1|exact H2].
  - apply uid_app; assumption.
  - cbn in H |- *. destruct H as (x & H1 & H2). exists x. split; [apply first_with_app_l; exact H1|exact H2].
Qed.

(** * C30 *)
Lemma size_loop_exact l : forall acc,
  Forall bytes_fit l -> 0 <= acc -> acc + Z.of_nat (List.length l) * 2^31 < 2^63 ->
  (Exists (fun f => f_end_byte f < f_start_byte f) l -> size_bytes_loop l acc = Ok 0) /\
  (Forall (fun f => f_start_byte f <= f_end_byte f) l -> size_bytes_loop l acc = Ok (acc + zsum (map last_frame_bytes l))).
Proof.
  unfold zsum. induction l as [|f l IH]; intros acc H Ha Hb; cbn [size_bytes_loop map fold_right List.length] in *.
  { split; [intro E; inversion E|intros _; f_equal; lia]. }
  inversion H as [|? ? (F1 & F2) Hl]; subst. unfold last_frame_bytes at 1.
  destruct (Z.ltb_spec (f_end_byte f) (f_start_byte f)) as [C|C].
  { split; [reflexivity|]. intro X. inversion X; subst. lia. }
  unfold chk32. replace (_ && _) with true by lia. cbn [obind]. replace (_ && _) with true by lia. cbn [obind].
  replace (_ <? 2^63) with true by lia.
  destruct (IH (acc + (f_end_byte f - f_start_byte f + 1)) Hl ltac:(lia) ltac:(lia)) as [I1 I2]. split; intro X; inversion X; subst.
  - lia.
  - apply I1. assumption.
  - rewrite I2 by assumption. f_equal. lia.
Qed.
Lemma reel_size_exact r :
  Forall bytes_fit (files_of r) -> Z.of_nat (List.length (files_of r)) < 2^32 ->
  (Exists (fun f => f_end_byte f < f_start_byte f) (files_of r) -> reel_size_bytes r = Ok 0) /\
  (Forall (fun f => f_start_byte f <= f_end_byte f) (files_of r) ->
     reel_size_bytes r = Ok (zsum (map last_frame_bytes (files_of r)))).
Proof.
  intros H1 H2. unfold reel_size_bytes. replace (reel_files r) with (files_of r) by (symmetry; apply reel_files_of). apply (size_loop_exact (files_of r) 0); [exact H1|lia|lia].
Qed.

(** * C27 *)
Lemma last_with_first {A} (P : A -> Prop) l x : last_with P l x <-> first_with P (rev l) x.
Proof.
  split; intros (l1 & l2 & E & H1 & H2).
  - exists (rev l2), (rev l1). subst l. rewrite rev_app_distr. cbn. rewrite <- app_assoc. split; [reflexivity|]. split; [exact H1|].
    apply Forall_rev. exact H2.
  - exists (rev l2), (rev l1). rewrite <- (rev_involutive l), E, rev_app_distr. cbn. rewrite <- app_assoc. split; [reflexivity|]. split; [exact H1|].
    apply Forall_rev. exact H2.
Qed.
Lemma first_with_filter {A} (p : A -> bool) (P : A -> Prop) l :
  (forall x, p x = true <-> P x) ->
  match filter p l with [] => Forall (fun y => ~ P y) l | x :: _ => first_with P l x end.
Proof.
  intro Hp. induction l as [|x l IH]; cbn; [constructor|]. destruct (p x) eqn:E.
  - apply first_with_here, Hp, E.
  - assert (~ P x) by (rewrite <- Hp; congruence). destruct (filter p l); [constructor; assumption|apply first_with_cons; assumption].
Qed.
Lemma first_with_unique {A} (P : A -> Prop) l x y : first_with P l x -> first_with P l y -> x = y.
Proof.
  intros (l1 & l2 & E1 & H1 & H2) (m1 & m2 & E2 & K1 & K2). subst l. revert m1 E2 K2.
  induction l1 as [|a l1 IH]; intros [|b m1] E2 K2; cbn in E2.
  - congruence.
  - injection E2 as -> E2. inversion K2; subst. contradiction.
  - injection E2 as -> E2. inversion H2; subst. contradiction.
  - injection E2 as -> E2. inversion H2; inversion K2; subst. eapply IH; eauto.
Qed.
Lemma first_with_none {A} (P : A -> Prop) l x : first_with P l x -> Forall (fun y => ~ P y) l -> False.
Proof. intros (l1 & l2 & -> & H1 & _) H. apply Forall_app in H as [_ H]. inversion H; subst. contradiction. Qed.

Lemma digital_first_exact l f : first_with digital l f -> files_first_frame (Some (Some l)) TYPE_DIGITAL = f_start_frame f.
Proof.
  intro H. pose proof (first_scan_digital l) as E. pose proof (first_with_filter file_is_digital digital l file_digital_iff) as F.
  destruct (filter file_is_digital l) as [|g r]; [destruct (first_with_none _ _ _ H F)|].
  rewrite (first_with_unique _ _ _ _ H F). destruct l as [|a l]; [destruct F as ([|? ?] & ? & ? & _); discriminate|]. exact E.
Qed.
Lemma digital_last_exact l defs f : last_with digital l f -> files_last_frame (Some (Some l)) TYPE_DIGITAL defs = Ok (f_end_frame f).
Proof.
  intro H. apply last_with_first in H. pose proof (last_scan_digital defs (rev l)) as E.
  pose proof (first_with_filter file_is_digital digital (rev l) file_digital_iff) as F.
  destruct (filter file_is_digital (rev l)) as [|g r]; [destruct (first_with_none _ _ _ H F)|].
  rewrite (first_with_unique _ _ _ _ H F). destruct l as [|a l]; [destruct F as ([|? ?] & ? & ? & _); discriminate|]. exact E.
Qed.
Lemma digital_none_exact l defs : ~ Exists digital l ->
  files_first_frame (Some (Some l)) TYPE_DIGITAL = -1 /\ files_last_frame (Some (Some l)) TYPE_DIGITAL defs = Ok (-1).
Proof.
  intro H. assert (E : filter file_is_digital l = []).
  { destruct (filter file_is_digital l) as [|g r] eqn:E; [reflexivity|]. exfalso. apply H. apply Exists_exists. exists g.
    assert (In g (filter file_is_digital l)) as X by (rewrite E; left; reflexivity). apply filter_In in X as [X Y]. split; [exact X|apply file_digital_iff, Y]. }
  pose proof (first_scan_digital l) as E1. rewrite E in E1. pose proof (last_scan_digital defs (rev l)) as E2. rewrite filter_rev, E in E2.
  destruct l as [|a l]; [split; reflexivity|]. split; [exact E1|exact E2].
Qed.

(** * Extent of a preview *)
Section Extent.
Variable defs : list layout_def.
Hypothesis ids : Forall (fun x => ld_id x <> None) defs.
Hypothesis nodup : NoDup (map ld_id defs).

Lemma in_layout_cap g c1 c2 : in_layout defs g c1 -> in_layout defs g c2 -> c1 = c2.
Proof.
  intros (d & s & D1 & D2 & D3 & D4 & D5) (d' & s' & E1 & E2 & E3 & E4 & E5).
  assert (s = s') as <- by congruence. assert (d = d') as <- by (eapply (lookup_unique defs d' s); eauto). congruence.
Qed.
(** One page: its frames are start .. start + n - 1. *)
Lemma page_extent g : placed defs g ->
  exists n, page_frames_count g (Some (Some defs)) = Ok (true, n) /\ 0 < n /\ pg_start_frame g + n - 1 < 2^31 - 1 /\
    on_reel_frame defs g (pg_start_frame g) /\ on_reel_frame defs g (pg_start_frame g + n - 1) /\
    (forall k, on_reel_frame defs g k -> pg_start_frame g <= k <= pg_start_frame g + n - 1).
Proof.
  intros (cap & L & P1 & P2 & P3 & P4 & P5 & P6). pose proof L as (d & s & D1 & D2 & D3 & D4 & D5).
  destruct (page_layout_over_frames defs d g s cap ids nodup D1 D2 D3 D4 D5 ltac:(lia) ltac:(lia) P3 P4) as (n & N1 & N2 & N3 & _ & _ & N6).
  exists (Z.of_nat n). split; [exact N1|].
  assert (Hpos : forall q, In q (positions (pg_start_section g) (Z.to_nat (pg_section_count g))) <->
                           pg_start_section g <= q < pg_start_section g + pg_section_count g)
    by (intro q; rewrite in_positions, Z2Nat.id by lia; reflexivity).
  assert (H0 : 0 <= 0 < Z.of_nat n).
  { apply N2. exists (pg_start_section g). split; [apply Hpos; lia|]. apply Z.div_small. lia. }
  destruct N3 as (q & Q1 & Q2). apply Hpos in Q1.
  assert (Z.of_nat n - 1 <= q) by (rewrite <- Q2; apply Z.div_le_upper_bound; nia).
  split; [lia|]. split; [lia|]. split; [|split].
  - exists cap, (pg_start_section g). split; [exact L|]. split; [lia|]. rewrite Z.div_small by lia. lia.
  - exists cap, q. split; [exact L|]. split; [lia|]. lia.
  - intros k (c & r & L' & R1 & ->). rewrite (in_layout_cap _ _ _ L' L). 
    assert (0 <= r / cap < Z.of_nat n) by (apply N2; exists r; split; [apply Hpos; lia|reflexivity]). lia.
Qed.
Lemma frames_loop_placed l : forall first last,
  Forall (placed defs) l -> 0 <= first < 2^31 -> 0 <= last < 2^31 ->
  exists f' l', preview_frames_loop (Some (Some defs)) l first last = Ok (Some (f', l')) /\
    f' <= first /\ last <= l' /\ 0 <= f' < 2^31 /\ 0 <= l' < 2^31 /\
    (f' = first \/ exists g, In g l /\ on_reel_frame defs g f') /\ (l' = last \/ exists g, In g l /\ on_reel_frame defs g l') /\
    (forall g k, In g l -> on_reel_frame defs g k -> f' <= k <= l') /\
    (forall g, In g l -> f' <= pg_start_frame g).
Proof.
  induction l as [|g l IH]; intros first last H Hf Hl.
  { exists first, last. cbn. repeat split; try lia; auto; intros ? ? []. }
  inversion H as [|? ? Hg Hr]; subst. destruct (page_extent g Hg) as (n & N1 & N2 & N3 & N4 & N5 & N6).
  assert (Hsf : 0 <= pg_start_frame g) by (destruct Hg as (? & ? & ? & ? & ? & ? & ? & ?); lia).
  cbn [preview_frames_loop]. rewrite N1. cbn [obind negb]. replace (0 <? n) with true by lia.
  rewrite u32_small by lia.
  destruct (IH (Z.min first (pg_start_frame g)) (Z.max last (pg_start_frame g + n - 1)) Hr ltac:(lia) ltac:(lia))
    as (f' & l' & E & A1 & A2 & A3 & A4 & A5 & A6 & A7 & A8).
  exists f', l'. split; [exact E|]. split; [lia|]. split; [lia|]. split; [lia|]. split; [lia|]. split; [|split; [|split]].
  - destruct A5 as [->|(h & H1 & H2)]; [|right; exists h; split; [right; exact H1|exact H2]].
    destruct (Z.min_spec first (pg_start_frame g)) as [[_ ->]|[_ ->]]; [left; reflexivity|].
    right. exists g. split; [left; reflexivity|exact N4].
  - destruct A6 as [->|(h & H1 & H2)]; [|right; exists h; split; [right; exact H1|exact H2]].
    destruct (Z.max_spec last (pg_start_frame g + n - 1)) as [[_ ->]|[_ ->]]; [|left; reflexivity].
    right. exists g. split; [left; reflexivity|exact N5].
  - intros h k [<-|Hh] Hk; [specialize (N6 k Hk); lia|eauto].
  - intros h [<-|Hh]; [lia|auto].
Qed.
Lemma preview_extent pv : pages_of pv <> [] -> Forall (placed defs) (pages_of pv) ->
  exists lo hi, extent defs (pages_of pv) lo hi /\ 0 <= lo <= hi /\ hi < 2^31 - 1 /\
    (forall g, In g (pages_of pv) -> lo <= pg_start_frame g) /\
    preview_frames_count (Some pv) (Some (Some defs)) = Ok (true, Some (hi - lo + 1)).
Proof.
  intros Hne H. unfold preview_frames_count, pages_of in *.
  destruct (pv_pages pv) as [[|g l]|]; try contradiction. cbn [vec_list].
  destruct (frames_loop_placed (g :: l) INT_MAX 0 H ltac:(unfold INT_MAX; lia) ltac:(lia)) as (lo & hi & E & A1 & A2 & A3 & A4 & A5 & A6 & A7 & A8).
  exists lo, hi. rewrite E. cbn [obind].
  inversion H as [|? ? Hg _]; subst. destruct (page_extent g Hg) as (n & N1 & N2 & N3 & N4 & N5 & N6).
  assert (Hlo : lo < INT_MAX). { unfold INT_MAX. specialize (A8 g (or_introl eq_refl)). lia. }
  destruct A5 as [->|A5]; [lia|].
  assert (A6' : exists h, In h (g :: l) /\ on_reel_frame defs h hi).
  { destruct A6 as [->|A6]; [|exact A6]. exists g. split; [left; reflexivity|].
    pose proof (A7 g _ (or_introl eq_refl) N5). pose proof (A7 g _ (or_introl eq_refl) N4).
    replace 0 with (pg_start_frame g + n - 1) by lia. exact N5. }
  assert (hi < 2^31 - 1).
  { destruct A6' as (h & Hh & Kh). rewrite Forall_forall in H. destruct (page_extent h (H h Hh)) as (m & _ & _ & M3 & _ & _ & M6).
    specialize (M6 hi Kh). lia. }
  assert (lo <= hi). { destruct A5 as (h & Hh & Kh). specialize (A7 h lo Hh Kh). lia. }
  split; [split; [exact A5|split; [exact A6'|exact A7]]|]. split; [lia|]. split; [lia|]. split; [exact A8|].
  replace (lo =? INT_MAX) with false by lia. rewrite u32_small by lia. reflexivity.
Qed.
End Extent.

Lemma preview_first_exact l f : first_with previewed l f -> files_first_frame (Some (Some l)) TYPE_PREVIEW = preview_start_frame (f_preview f).
Proof.
  intro H. pose proof (first_scan_preview l) as E. pose proof (first_with_filter file_is_preview previewed l file_preview_iff) as F.
  destruct (filter file_is_preview l) as [|g r]; [destruct (first_with_none _ _ _ H F)|].
  rewrite (first_with_unique _ _ _ _ H F). destruct l as [|a l]; [destruct F as ([|? ?] & ? & ? & _); discriminate|]. exact E.
Qed.
Lemma last_scan_preview defs l :
  last_frame_scan TYPE_PREVIEW defs l =
  match filter file_is_preview l with
  | [] => Ok (-1)
  | f :: _ => obind (preview_frames_count (f_preview f) defs) (fun r =>
        match snd r with None => UB | Some n => Ok (i32 (preview_start_frame (f_preview f) + n - 1)) end)
  end.
Proof.
  induction l as [|f l IH]; cbn [filter last_frame_scan]; [reflexivity|].
  change (set_bit TYPE_DIGITAL TYPE_PREVIEW) with false. change (set_bit TYPE_PREVIEW TYPE_PREVIEW) with true.
  cbn [andb]. destruct (file_is_preview f); [reflexivity|exact IH].
Qed.
Lemma preview_last_exact defs l f pv :
  Forall (fun x => ld_id x <> None) defs -> NoDup (map ld_id defs) ->
  last_with previewed l f -> f_preview f = Some pv -> pages_of pv <> [] -> Forall (placed defs) (pages_of pv) ->
  exists lo hi, extent defs (pages_of pv) lo hi /\
    (preview_first f = lo -> files_last_frame (Some (Some l)) TYPE_PREVIEW (Some (Some defs)) = Ok hi).
Proof.
  intros I N H Ef Hne Hp. destruct (preview_extent defs I N pv Hne Hp) as (lo & hi & X & B1 & B2 & B3 & B4).
  exists lo, hi. split; [exact X|]. intro Hlo. apply last_with_first in H.
  pose proof (first_with_filter file_is_preview previewed (rev l) file_preview_iff) as F.
  pose proof (last_scan_preview (Some (Some defs)) (rev l)) as E.
  destruct (filter file_is_preview (rev l)) as [|g r]; [destruct (first_with_none _ _ _ H F)|].
  rewrite <- (first_with_unique _ _ _ _ H F) in E. rewrite Ef, B4 in E. cbn [obind snd] in E.
  assert (Es : preview_start_frame (Some pv) = lo).
  { unfold preview_first, preview_start_frame in *. rewrite Ef in Hlo. unfold pages_of in *. destruct (pv_pages pv) as [[|p ps]|]; try contradiction.
    rewrite i32_small; [exact Hlo|]. unfold is_i32. lia. }
  rewrite Es, i32_small in E by (unfold is_i32; lia). replace (lo + (hi - lo + 1) - 1) with hi in E by lia.
  destruct l as [|a l]; [destruct F as ([|? ?] & ? & ? & _); discriminate|]. exact E.
Qed.

(** Both kinds at once. *)
Lemma both_first l :
  files_first_frame (Some (Some l)) TYPE_ALL =
  let d := files_first_frame (Some (Some l)) TYPE_DIGITAL in let p := files_first_frame (Some (Some l)) TYPE_PREVIEW in
  if d =? -1 then p else if p =? -1 then d else Z.min d p.
Proof.
  destruct l as [|a l]; [reflexivity|]. cbv zeta.
  change (files_first_frame (Some (Some (a :: l))) TYPE_DIGITAL) with (first_frame_scan TYPE_DIGITAL (a :: l)).
  change (files_first_frame (Some (Some (a :: l))) TYPE_PREVIEW) with (first_frame_scan TYPE_PREVIEW (a :: l)).
  unfold files_first_frame. change (TYPE_ALL =? TYPE_UNDEFINED) with false. change (TYPE_ALL =? TYPE_ALL) with true. cbv iota zeta.
  generalize (first_frame_scan TYPE_DIGITAL (a :: l)), (first_frame_scan TYPE_PREVIEW (a :: l)). intros d p.
  destruct (Z.eqb_spec d (-1)), (Z.eqb_spec p (-1)); cbn [negb andb]; lia.
Qed.
Lemma both_last l defs d p :
  files_last_frame (Some (Some l)) TYPE_DIGITAL None = Ok d -> files_last_frame (Some (Some l)) TYPE_PREVIEW defs = Ok p ->
  files_last_frame (Some (Some l)) TYPE_ALL defs = Ok (Z.max d p).
Proof.
  destruct l as [|a l]; [cbn; intros [= <-] [= <-]; reflexivity|].
  intros H1 H2. change (files_last_frame (Some (Some (a :: l))) TYPE_DIGITAL None) with (last_frame_one (a :: l) TYPE_DIGITAL None) in H1.
  change (files_last_frame (Some (Some (a :: l))) TYPE_PREVIEW defs) with (last_frame_one (a :: l) TYPE_PREVIEW defs) in H2.
  unfold files_last_frame. change (TYPE_ALL =? TYPE_ALL) with true. cbv iota. rewrite H1. cbn [obind]. rewrite H2. reflexivity.
Qed.

Lemma page_unplaced defs g : Forall (fun x => ld_id x <> None) defs -> (forall cap, in_layout defs g cap -> cap = 0) ->
  page_frames_count g (Some (Some defs)) = Ok (false, 0).
Proof.
  intros I H. unfold page_frames_count. destruct (pg_layout_id g) as [s|] eqn:E; [|reflexivity].
  destruct s as [|c s]; [reflexivity|]. unfold layout_defs_by_id. cbn [vec_list].
  destruct (find_by_str_spec ld_id (c :: s) defs I) as (o & Eo & Ho). rewrite Eo. cbn [obind]. destruct o as [d|]; [|reflexivity].
  destruct Ho as (l1 & l2 & H1 & H2 & _).
  assert (Z0 : Z.of_nat (List.length (def_sections d)) = 0).
  { apply H. exists d, (c :: s). split; [rewrite H1; apply in_or_app; right; left; reflexivity|]. split; [exact H2|]. split; [exact E|]. split; [discriminate|reflexivity]. }
  assert (layout_def_section_count d = 0) as ->.
  { unfold layout_def_section_count, vec_size. unfold def_sections in Z0. destruct (ld_sections d) as [[l|]|]; try reflexivity. cbn [vec_list]. rewrite Z0. reflexivity. }
  reflexivity.
Qed.
Lemma page_frames_total defs g : Forall (fun x => ld_id x <> None) defs -> exists r, page_frames_count g (Some (Some defs)) = Ok r.
Proof.
  intro I. unfold page_frames_count. destruct (pg_layout_id g) as [[|c s]|]; try (eexists; reflexivity).
  unfold layout_defs_by_id. cbn [vec_list]. destruct (find_by_str_spec ld_id (c :: s) defs I) as (o & Eo & _). rewrite Eo. cbn [obind].
  destruct o as [d|]; [|eexists; reflexivity]. destruct (_ =? 0); [eexists; reflexivity|]. destruct (_ =? 0); eexists; reflexivity.
Qed.
Lemma preview_unplaced defs pv : Forall (fun x => ld_id x <> None) defs ->
  Exists (fun g => forall cap, in_layout defs g cap -> cap = 0) (pages_of pv) ->
  preview_frames_count (Some pv) (Some (Some defs)) = Ok (false, Some 0).
Proof.
  intros I H. unfold preview_frames_count.
  assert (E : forall l a b, Exists (fun g => forall cap, in_layout defs g cap -> cap = 0) l -> preview_frames_loop (Some (Some defs)) l a b = Ok None).
  { induction l as [|g l IH]; intros a b X; [inversion X|]. cbn [preview_frames_loop]. inversion X as [? ? Y|? ? Y]; subst.
    - rewrite (page_unplaced _ _ I Y). reflexivity.
    - destruct (page_frames_total defs g I) as ((ok & n) & Er). rewrite Er. cbn [obind]. destruct ok; [|reflexivity]. cbn [negb].
      destruct (0 <? n); apply IH; exact Y. }
  replace (vec_list (pv_pages pv)) with (pages_of pv) by (unfold pages_of, vec_list; reflexivity). rewrite (E _ _ _ H). reflexivity.
Qed.
