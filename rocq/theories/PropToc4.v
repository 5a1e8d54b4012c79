(** C49 and C27, whatever the start sections of the pages are: the frames that are counted. *)
From Verif Require Import CBase CBaseProofs TocModel BoxModel SpecToc SpecToc2 ValidProofs PreviewProofs TocProofs5 PropToc3.
From Coq Require Import ZifyBool.

(** The frames that the library counts for a page: from its start frame to the frame of its last
    section, also when its first section lies on a later frame. *)
Definition counted (defs : list layout_def) (g : page) (k : Z) : Prop :=
  0 < pg_section_count g /\
  exists cap, in_layout defs g cap /\
    pg_start_frame g <= k <= pg_start_frame g + (pg_start_section g + pg_section_count g - 1) / cap.
(** A page with a layout that has sections, and numbers that fit an int. *)
Definition usable (defs : list layout_def) (g : page) : Prop :=
  exists cap, in_layout defs g cap /\ 0 < cap < 2^31 /\ 0 <= pg_start_section g /\ 0 <= pg_section_count g /\
    pg_start_section g + pg_section_count g < 2^31 /\ 0 <= pg_start_frame g /\
    pg_start_frame g + (pg_start_section g + pg_section_count g) < 2^31.
(** The least interval of the counted frames. *)
Definition counted_extent (defs : list layout_def) (l : list page) (lo hi : Z) : Prop :=
  (exists g, In g l /\ counted defs g lo) /\ (exists g, In g l /\ counted defs g hi) /\
  (forall g k, In g l -> counted defs g k -> lo <= k <= hi).

Lemma usable_count defs g : Forall (fun x => ld_id x <> None) defs -> NoDup (map ld_id defs) -> usable defs g ->
  exists n, page_frames_count g (Some (Some defs)) = Ok (true, n) /\ 0 <= n /\ pg_start_frame g + n < 2^31 /\
    (forall k, counted defs g k <-> pg_start_frame g <= k <= pg_start_frame g + n - 1).
Proof.
  intros I N (cap & L & P1 & P2 & P3 & P4 & P5 & P6). pose proof L as (d & s & D1 & D2 & D3 & D4 & D5).
  destruct (Z.eq_dec (pg_section_count g) 0) as [Z0|Z0].
  - exists 0. split; [|split; [lia|split; [lia|]]].
    + unfold page_frames_count. rewrite D3, (by_id_found defs d s I N D1 D2 D4). cbn [obind].
      assert (Hcnt : layout_def_section_count d = cap).
      { unfold layout_def_section_count, def_sections, vec_size in *. destruct (ld_sections d) as [[l|]|]; cbn [vec_list List.length] in *; try lia. rewrite u32_small; lia. }
      rewrite Hcnt, i32_small by (unfold is_i32; lia). destruct (Z.eqb_spec cap 0); [lia|]. now rewrite Z0.
    + intro k. split; [intros (H & _); lia|lia].
  - destruct (page_layout_over_frames defs d g s cap I N D1 D2 D3 D4 D5 ltac:(lia) ltac:(lia) ltac:(lia) P4) as (n & N1 & N2 & N3 & _).
    assert (Hpos : forall q, In q (positions (pg_start_section g) (Z.to_nat (pg_section_count g))) <->
                             pg_start_section g <= q < pg_start_section g + pg_section_count g)
      by (intro q; rewrite in_positions, Z2Nat.id by lia; reflexivity).
    assert (Hn : Z.of_nat n = (pg_start_section g + pg_section_count g - 1) / cap + 1).
    { destruct N3 as (q & Q1 & Q2). apply Hpos in Q1.
      assert (q / cap <= (pg_start_section g + pg_section_count g - 1) / cap) by (apply Z.div_le_mono; lia).
      assert (0 <= (pg_start_section g + pg_section_count g - 1) / cap < Z.of_nat n); [|lia].
      apply N2. eexists. split; [apply Hpos|reflexivity]. lia. }
    exists (Z.of_nat n). split; [exact N1|]. split; [lia|].
    assert ((pg_start_section g + pg_section_count g - 1) / cap <= pg_start_section g + pg_section_count g - 1) by (apply Z.div_le_upper_bound; nia).
    split; [lia|]. intro k. split.
    + intros (_ & c & L' & B). rewrite (in_layout_cap _ N _ _ _ L' L) in B. lia.
    + intro B. split; [lia|]. exists cap. split; [exact L|lia].
Qed.
Lemma loop_usable defs : Forall (fun x => ld_id x <> None) defs -> NoDup (map ld_id defs) -> forall l first last,
  Forall (usable defs) l -> 0 <= first < 2^31 -> 0 <= last < 2^31 - 1 ->
  exists f' l', preview_frames_loop (Some (Some defs)) l first last = Ok (Some (f', l')) /\
    f' <= first /\ last <= l' /\ 0 <= f' /\ l' < 2^31 - 1 /\
    (f' = first \/ exists g, In g l /\ counted defs g f') /\ (l' = last \/ exists g, In g l /\ counted defs g l') /\
    (forall g k, In g l -> counted defs g k -> f' <= k <= l').
Proof.
  intros I N. induction l as [|g l IH]; intros first last H Hf Hl.
  { exists first, last. cbn. repeat split; try lia; auto; intros ? ? []. }
  inversion H as [|? ? Hg Hr]; subst. destruct (usable_count defs g I N Hg) as (n & N1 & N2 & N3 & N4).
  assert (Hsf : 0 <= pg_start_frame g) by (destruct Hg as (? & ? & ? & ? & ? & ? & ? & ?); lia).
  cbn [preview_frames_loop]. rewrite N1. cbn [obind negb]. destruct (Z.ltb_spec 0 n).
  - rewrite u32_small by lia.
    destruct (IH (Z.min first (pg_start_frame g)) (Z.max last (pg_start_frame g + n - 1)) Hr ltac:(lia) ltac:(lia)) as (f' & l' & E & A1 & A2 & A3 & A4 & A5 & A6 & A7).
    exists f', l'. split; [exact E|]. split; [lia|]. split; [lia|]. split; [lia|]. split; [lia|]. split; [|split].
    + destruct A5 as [->|(h & H1 & H2)]; [|right; exists h; split; [right; exact H1|exact H2]].
      destruct (Z.min_spec first (pg_start_frame g)) as [[_ ->]|[_ ->]]; [left; reflexivity|].
      right. exists g. split; [left; reflexivity|apply N4; lia].
    + destruct A6 as [->|(h & H1 & H2)]; [|right; exists h; split; [right; exact H1|exact H2]].
      destruct (Z.max_spec last (pg_start_frame g + n - 1)) as [[_ ->]|[_ ->]]; [|left; reflexivity].
      right. exists g. split; [left; reflexivity|apply N4; lia].
    + intros h k [<-|Hh] Hk; [apply N4 in Hk; lia|eauto].
  - destruct (IH first last Hr ltac:(lia) ltac:(lia)) as (f' & l' & E & A1 & A2 & A3 & A4 & A5 & A6 & A7).
    exists f', l'. split; [exact E|]. split; [lia|]. split; [lia|]. split; [lia|]. split; [lia|]. split; [|split].
    + destruct A5 as [->|(h & H1 & H2)]; [now left|right; exists h; split; [right; exact H1|exact H2]].
    + destruct A6 as [->|(h & H1 & H2)]; [now left|right; exists h; split; [right; exact H1|exact H2]].
    + intros h k [<-|Hh] Hk; [apply N4 in Hk; lia|eauto].
Qed.
Lemma counted_dec defs g : Forall (fun x => ld_id x <> None) defs -> NoDup (map ld_id defs) -> usable defs g ->
  counted defs g (pg_start_frame g) \/ forall k, ~ counted defs g k.
Proof.
  intros I N H. destruct (usable_count defs g I N H) as (n & N1 & N2 & N3 & N4).
  destruct (Z.eq_dec n 0) as [->|]; [right; intros k C; apply N4 in C; lia|left; apply N4; lia].
Qed.

(** C49 for every start section: the number of frames of the least interval that holds the counted
    frames of all pages, 0 when no page has a section. *)
Theorem C49_exact defs pv :
  Forall (fun x => ld_id x <> None) defs -> NoDup (map ld_id defs) -> Forall (usable defs) (pages_of pv) ->
  (exists lo hi, counted_extent defs (pages_of pv) lo hi /\ preview_frames_count (Some pv) (Some (Some defs)) = Ok (true, Some (hi - lo + 1))) \/
  (forall g k, In g (pages_of pv) -> ~ counted defs g k) /\ preview_frames_count (Some pv) (Some (Some defs)) = Ok (true, Some 0).
Proof.
  intros I N H. unfold preview_frames_count. replace (vec_list (pv_pages pv)) with (pages_of pv) by (unfold pages_of, vec_list; reflexivity).
  destruct (loop_usable defs I N (pages_of pv) INT_MAX 0 H ltac:(unfold INT_MAX; lia) ltac:(lia)) as (lo & hi & E & A1 & A2 & A3 & A4 & A5 & A6 & A7).
  rewrite E. cbn [obind]. unfold INT_MAX in *.
  destruct A5 as [->|A5].
  - right. assert (Q : forall g k, In g (pages_of pv) -> ~ counted defs g k) by (intros g k Hg C; specialize (A7 g k Hg C); lia).
    split; [exact Q|]. reflexivity.
  - left. exists lo, hi. destruct A5 as (g & Hg & Cg). pose proof (A7 g lo Hg Cg) as B.
    assert (A6' : exists h, In h (pages_of pv) /\ counted defs h hi).
    { destruct A6 as [->|A6]; [|exact A6]. exists g. split; [exact Hg|]. now replace 0 with lo by lia. }
    split; [split; [exists g; auto|split; [exact A6'|exact A7]]|].
    destruct (Z.eqb_spec lo 2147483647); [lia|]. rewrite u32_small by lia. reflexivity.
Qed.
Print Assumptions C49_exact.
(** The frames with a section are among the counted ones, and are all of them when every page begins on
    its start frame. *)
Theorem C49_counted defs g k : NoDup (map ld_id defs) -> usable defs g -> on_reel_frame defs g k -> counted defs g k.
Proof.
  intros N (cap & L & P1 & P2 & P3 & P4 & P5 & P6) (c & q & L' & Q & ->). rewrite (in_layout_cap _ N _ _ _ L' L) in *.
  split; [lia|]. exists cap. split; [exact L|]. assert (0 <= q / cap) by (apply Z.div_pos; lia).
  assert (q / cap <= (pg_start_section g + pg_section_count g - 1) / cap) by (apply Z.div_le_mono; lia). lia.
Qed.
Theorem C49_counted_placed defs g k : NoDup (map ld_id defs) -> placed defs g -> counted defs g k -> on_reel_frame defs g k.
Proof.
  intros N (cap & L & P1 & P2 & P3 & P4 & P5 & P6) (_ & c & L' & B). rewrite (in_layout_cap _ N _ _ _ L' L) in *. clear c L'.
  set (m := pg_start_section g + pg_section_count g - 1) in *. assert (0 < cap) by lia.
  destruct (Z.eq_dec k (pg_start_frame g)) as [->|Nk].
  - exists cap, (pg_start_section g). split; [exact L|]. split; [lia|]. rewrite Z.div_small by lia. lia.
  - exists cap, ((k - pg_start_frame g) * cap). split; [exact L|]. rewrite Z.div_mul by lia. split; [|lia].
    assert (cap * (m / cap) <= m) by (apply Z.mul_div_le; lia). nia.
Qed.
Print Assumptions C49_counted.
Print Assumptions C49_counted_placed.
(** A page whose first section lies two frames late, and a page without sections. *)
Example C49_exact_witness :
  let pv := mkPreview (Some [mkPage (Some [50]) 10 4 1 0 0 0 0; mkPage (Some [49]) 3 0 0 0 0 0 0]) (-1) in
  Forall (usable [ex_three; ex_two]) (pages_of pv) /\ preview_frames_count (Some pv) (Some (Some [ex_three; ex_two])) = Ok (true, Some 3) /\
  preview_frames_count (Some (mkPreview (Some [mkPage (Some [49]) 3 0 0 0 0 0 0]) (-1))) (Some (Some [ex_three; ex_two])) = Ok (true, Some 0).
Proof.
  cbv zeta. split; [|vm_compute; auto]. unfold pages_of. cbn [pv_pages]. constructor; [|constructor; [|constructor]].
  - exists 2. split; [exists ex_two, [50]; cbn; repeat split; auto; discriminate|cbn; lia].
  - exists 3. split; [exists ex_three, [49]; cbn; repeat split; auto; discriminate|cbn; lia].
Qed.

(** C27: the last preview frame with layout definitions, for pages in any order and any start sections:
    the start frame of the first page of the last previewed file plus the counted frames minus one;
    a page without a usable layout gives the frame before that start frame. *)
Theorem C27_preview_last_exact defs l f pv :
  Forall (fun x => ld_id x <> None) defs -> NoDup (map ld_id defs) ->
  last_with previewed l f -> f_preview f = Some pv -> pages_of pv <> [] ->
  0 <= preview_first f < 2^31 ->
  (Forall (usable defs) (pages_of pv) -> forall lo hi, counted_extent defs (pages_of pv) lo hi -> preview_first f + (hi - lo) < 2^31 ->
     files_last_frame (Some (Some l)) TYPE_PREVIEW (Some (Some defs)) = Ok (preview_first f + (hi - lo))) /\
  (Forall (usable defs) (pages_of pv) -> (forall g k, In g (pages_of pv) -> ~ counted defs g k) ->
     files_last_frame (Some (Some l)) TYPE_PREVIEW (Some (Some defs)) = Ok (preview_first f - 1)) /\
  (Exists (fun g => forall cap, in_layout defs g cap -> cap = 0) (pages_of pv) ->
     files_last_frame (Some (Some l)) TYPE_PREVIEW (Some (Some defs)) = Ok (preview_first f - 1)).
Proof.
  intros I N H Ef Hne Hr. apply last_with_first in H.
  pose proof (first_with_filter file_is_preview previewed (rev l) file_preview_iff) as F.
  pose proof (last_scan_preview (Some (Some defs)) (rev l)) as E.
  destruct (filter file_is_preview (rev l)) as [|g r]; [destruct (first_with_none _ _ _ H F)|].
  rewrite <- (first_with_unique _ _ _ _ H F) in E. rewrite Ef in E.
  assert (Es : preview_start_frame (Some pv) = preview_first f).
  { unfold preview_first, preview_start_frame in *. rewrite Ef in *. unfold pages_of in *. destruct (pv_pages pv) as [[|p ps]|]; try contradiction.
    rewrite i32_small; [reflexivity|]. unfold is_i32. lia. }
  rewrite Es in E. assert (E' : files_last_frame (Some (Some l)) TYPE_PREVIEW (Some (Some defs)) = last_frame_scan TYPE_PREVIEW (Some (Some defs)) (rev l)).
  { destruct l as [|a l]; [destruct F as ([|? ?] & ? & ? & _); discriminate|]. reflexivity. }
  rewrite E'. split; [|split].
  - intros U lo hi X B. destruct (C49_exact defs pv I N U) as [(lo' & hi' & X' & C)|(Q & C)].
    + rewrite C in E. cbn [obind snd] in E. destruct X as ((g1 & X1 & Y1) & (g2 & X2 & Y2) & X3). destruct X' as ((h1 & X1' & Y1') & (h2 & X2' & Y2') & X3').
      pose proof (X3 _ _ X1' Y1'). pose proof (X3 _ _ X2' Y2'). pose proof (X3' _ _ X1 Y1). pose proof (X3' _ _ X2 Y2).
      rewrite E, i32_small by (unfold is_i32; lia). f_equal. lia.
    + destruct X as ((g1 & X1 & Y1) & _). destruct (Q _ _ X1 Y1).
  - intros U Q. destruct (C49_exact defs pv I N U) as [(lo' & hi' & X' & C)|(_ & C)].
    + destruct X' as ((h1 & X1' & Y1') & _). destruct (Q _ _ X1' Y1').
    + rewrite C in E. cbn [obind snd] in E. rewrite E, i32_small by (unfold is_i32; lia). f_equal. lia.
  - intro X. rewrite (C49_unknown_layout defs pv I X) in E. cbn [obind snd] in E. rewrite E, i32_small by (unfold is_i32; lia). f_equal. lia.
Qed.
Print Assumptions C27_preview_last_exact.
(** The first page of the list lies after the second: the reported last frame is beyond every counted frame. *)
Example C27_preview_last_exact_witness :
  let pv := mkPreview (Some [mkPage (Some [50]) 10 0 1 0 0 0 0; mkPage (Some [49]) 3 0 3 0 0 0 0]) (-1) in
  let f := mkFile (Some [97]) (Some [98]) (Some [99]) 1000 1 0 500 1 510 None (-2) 2 (Some pv) None None in
  previewed f /\ counted_extent [ex_three; ex_two] (pages_of pv) 3 10 /\
  files_last_frame (Some (Some [f])) TYPE_PREVIEW (Some (Some [ex_three; ex_two])) = Ok 17.
Proof.
  cbv zeta. split; [apply file_preview_iff; vm_compute; reflexivity|]. split; [|vm_compute; reflexivity].
  assert (L2 : forall cap x y, in_layout [ex_three; ex_two] (mkPage (Some [50]) x y 1 0 0 0 0) cap -> cap = 2).
  { intros cap x y (d & s & [<-|[<-|[]]] & D2 & D3 & D4 & ->); cbn in D2, D3 |- *; congruence. }
  assert (L3 : forall cap x y, in_layout [ex_three; ex_two] (mkPage (Some [49]) x y 3 0 0 0 0) cap -> cap = 3).
  { intros cap x y (d & s & [<-|[<-|[]]] & D2 & D3 & D4 & ->); cbn in D2, D3 |- *; congruence. }
  assert (M2 : in_layout [ex_three; ex_two] (mkPage (Some [50]) 10 0 1 0 0 0 0) 2) by (exists ex_two, [50]; cbn; repeat split; auto; discriminate).
  assert (M3 : in_layout [ex_three; ex_two] (mkPage (Some [49]) 3 0 3 0 0 0 0) 3) by (exists ex_three, [49]; cbn; repeat split; auto; discriminate).
  unfold pages_of. cbn [pv_pages]. split; [|split].
  - exists (mkPage (Some [49]) 3 0 3 0 0 0 0). split; [right; left; reflexivity|]. split; [cbn; lia|]. exists 3. split; [exact M3|cbn; lia].
  - exists (mkPage (Some [50]) 10 0 1 0 0 0 0). split; [left; reflexivity|]. split; [cbn; lia|]. exists 2. split; [exact M2|cbn; lia].
  - intros g k [<-|[<-|[]]] (_ & cap & L & B); [apply L2 in L|apply L3 in L]; subst cap; cbn in B; lia.
Qed.
