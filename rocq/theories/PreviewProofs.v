(** Page arithmetic, section geometry, section and layout-definition lists. *)
From Verif Require Import CBase CBaseProofs TocModel SpecToc ValidProofs.
From Coq Require Import ZifyBool.

(** * C08: sections over frames *)
Definition clamp (cap z : Z) : Z := Z.max (Z.min z cap) 0.

Lemma positions_S ss n : positions ss (S n) = positions ss n ++ [ss + Z.of_nat n].
Proof. unfold positions. rewrite seq_S, map_app. reflexivity. Qed.

Lemma on_frame_app cap f a b : on_frame cap f (a ++ b) = on_frame cap f a + on_frame cap f b.
Proof. unfold on_frame. rewrite filter_app, app_length. lia. Qed.

Lemma div_eq_iff p cap f : 0 < cap -> (p / cap = f <-> cap * f <= p < cap * f + cap).
Proof.
  intro H. split; intro E.
  - subst f. pose proof (Z.mul_div_le p cap H). pose proof (Z.mul_succ_div_gt p cap H). lia.
  - symmetry. apply Z.div_unique with (p - cap * f); lia.
Qed.

Lemma on_frame_closed ss n cap f :
  0 < cap -> on_frame cap f (positions ss n) = clamp cap (ss + Z.of_nat n - cap * f) - clamp cap (ss - cap * f).
Proof.
  intro Hc. induction n as [|n IH].
  - unfold on_frame, positions, clamp; cbn. lia.
  - rewrite positions_S, on_frame_app, IH. unfold on_frame. cbn [filter].
    destruct (Z.eqb_spec ((ss + Z.of_nat n) / cap) f) as [E|E].
    + apply (div_eq_iff _ _ _ Hc) in E. cbn [List.length]. unfold clamp. lia.
    + rewrite (div_eq_iff _ _ _ Hc) in E. cbn [List.length]. unfold clamp. lia.
Qed.

Lemma sections_in_frame_closed ss sc cap f :
  0 <= ss -> 0 <= sc -> 0 < cap < 2^31 -> ss + sc < 2^31 -> 0 <= f -> cap * f < 2^31 -> is_i32 f ->
  sections_in_frame ss sc cap f = Ok (clamp cap (ss + sc - cap * f) - clamp cap (ss - cap * f)).
Proof.
  intros H1 H2 H3 H4 H5 H6 H7. unfold sections_in_frame.
  rewrite (i32_small sc), (i32_small ss), (i32_small cap), (i32_small f) by (unfold is_i32 in *; lia).
  rewrite Z.max_r by lia.
  unfold chk32. replace (_ && _) with true by lia. cbn [obind].
  replace (_ && _) with true by nia. cbn [obind].
  replace (_ && _) with true by nia. cbn [obind].
  replace (_ && _) with true by nia. cbn [obind]. f_equal.
  rewrite (Z.add_comm ss sc). fold (clamp cap (sc + ss - cap * f)) (clamp cap (ss - cap * f)).
  apply u32_small. unfold clamp. nia.
Qed.

Lemma frames_for_closed ss sc cap :
  0 <= ss -> 0 <= sc -> 0 < cap < 2^31 -> ss + sc < 2^31 ->
  let n := frames_for ss sc cap in
  0 <= n /\ ss + sc <= n * cap /\ (forall m, ss + sc <= m * cap -> 0 <= m -> n <= m).
Proof.
  intros H1 H2 H3 H4. unfold frames_for. rewrite (u32_small (ss + sc)), (u32_small cap) by lia.
  pose proof (Z.div_mod (ss + sc) cap ltac:(lia)) as Hd.
  pose proof (Z.mod_pos_bound (ss + sc) cap ltac:(lia)) as Hm.
  assert (0 <= (ss + sc) / cap) by (apply Z.div_pos; lia).
  assert ((ss + sc) / cap <= ss + sc) by (apply Z.div_le_upper_bound; nia).
  destruct (Z.eqb_spec ((ss + sc) mod cap) 0) as [E|E]; cbn [negb].
  - repeat split; try nia.
  - rewrite u32_small by lia. repeat split; nia.
Qed.

Lemma clamp_sum cap T n :
  0 < cap -> 0 <= T ->
  zsum (map (fun i => clamp cap (T - cap * Z.of_nat i)) (seq 0 n)) = Z.min T (cap * Z.of_nat n).
Proof.
  intros Hc HT. induction n as [|n IH]; [cbn; lia|].
  rewrite seq_S, map_app. unfold zsum in *. rewrite fold_right_app. cbn [map fold_right].
  assert (forall l a, fold_right Z.add a l = fold_right Z.add 0 l + a) as Hf.
  { induction l as [|x l IHl]; intro a; cbn; [lia|]. rewrite IHl. lia. }
  rewrite Hf, IH. unfold clamp. nia.
Qed.

Lemma zsum_sub {A} (f g : A -> Z) l : zsum (map (fun x => f x - g x) l) = zsum (map f l) - zsum (map g l).
Proof. unfold zsum. induction l as [|x l IH]; cbn; lia. Qed.

(** * C10: the section list *)
Lemma append_spec v s :
  Forall fits (vec_list v) -> fits s -> Forall section_ok (vec_list v) ->
  (acceptable (vec_list v) s /\ sections_append v s = (Some (vec_list v ++ [s]), true)) \/
  (~ acceptable (vec_list v) s /\ sections_append v s = (v, false)).
Proof.
  intros Fv Fs Vv. unfold sections_append.
  destruct (section_is_valid s) eqn:Vs; cbn [negb].
  2:{ right. split; [|reflexivity]. unfold acceptable. rewrite <- section_valid_iff, Vs. intros (H & _). discriminate. }
  apply section_valid_iff in Vs.
  destruct (existsb _ _) eqn:E.
  - right. split; [|reflexivity]. intros (_ & Hid & Hd). apply existsb_exists in E as (c & Hc & E).
    apply orb_true_iff in E as [E|E].
    + apply Z.eqb_eq in E. apply Hid. rewrite <- E. apply in_map, Hc.
    + rewrite Forall_forall in *. pose proof (Hd c Hc) as D.
      apply (overlap_false_iff c s) in D; auto. congruence.
  - left. split; [|reflexivity]. split; [exact Vs|].
    assert (Hall : forall c, In c (vec_list v) -> (s_id c =? s_id s) || section_is_overlap c s = false).
    { intros c Hc. destruct (_ || _) eqn:E2; [|reflexivity].
      assert (existsb (fun c => (s_id c =? s_id s) || section_is_overlap c s) (vec_list v) = true)
        by (apply existsb_exists; eauto). congruence. }
    rewrite Forall_forall in *. split.
    + intro Hin. apply in_map_iff in Hin as (c & E1 & Hc). specialize (Hall c Hc). lia.
    + intros c Hc. apply overlap_false_iff; auto. specialize (Hall c Hc).
      apply orb_false_iff in Hall as [_ Hall]. exact Hall.
Qed.

Lemma ForallOrdPairs_snoc {A} (R : A -> A -> Prop) l x :
  ForallOrdPairs R l -> Forall (fun y => R y x) l -> ForallOrdPairs R (l ++ [x]).
Proof.
  induction 1 as [|y l Hy Hl IH]; intro H; cbn; [repeat constructor|].
  inversion H; subst. constructor; [|apply IH; assumption].
  apply Forall_app. split; [assumption|]. repeat constructor. assumption.
Qed.

Lemma acceptable_good l s : good_sections l -> acceptable l s -> good_sections (l ++ [s]).
Proof.
  intros (G1 & G2 & G3) (A1 & A2 & A3). split; [|split].
  - apply Forall_app. split; [assumption|]. constructor; [exact A1|constructor].
  - rewrite map_app. cbn. apply NoDup_rev in G2. rewrite <- (rev_involutive (map s_id l ++ [s_id s])).
    apply NoDup_rev. rewrite rev_app_distr. cbn. constructor; [|exact G2]. rewrite <- in_rev. exact A2.
  - apply ForallOrdPairs_snoc; assumption.
Qed.

Lemma append_all_spec l : forall v,
  Forall fits l -> Forall fits (vec_list v) -> good_sections (vec_list v) ->
  accepted (vec_list v) l (snd (append_all v l)) (vec_list (fst (append_all v l))) /\
  good_sections (vec_list (fst (append_all v l))).
Proof.
  induction l as [|s l IH]; intros v Fl Fv Gv; [split; [constructor|exact Gv]|].
  inversion Fl as [|? ? Fs Fl']; subst. cbn [append_all].
  destruct (append_spec v s Fv Fs (proj1 Gv)) as [[Ha E]|[Ha E]]; rewrite E.
  - destruct (append_all (Some (vec_list v ++ [s])) l) as [v2 bs] eqn:E2. cbn [fst snd].
    destruct (IH (Some (vec_list v ++ [s]))) as [H1 H2].
    + exact Fl'.
    + cbn. apply Forall_app. split; [exact Fv|]. constructor; [exact Fs|constructor].
    + cbn. apply acceptable_good; assumption.
    + rewrite E2 in H1, H2. cbn [fst snd vec_list] in *. split; [|exact H2]. constructor; assumption.
  - destruct (append_all v l) as [v2 bs] eqn:E2. cbn [fst snd].
    destruct (IH v) as [H1 H2]; try assumption. rewrite E2 in H1, H2. cbn [fst snd] in *.
    split; [|exact H2]. constructor; assumption.
Qed.

(** * C11: layout definition lists *)
Lemma find_by_str_spec {A} (key : A -> option cstr) id l :
  Forall (fun x => key x <> None) l ->
  exists r, find_by_str key id l = Ok r /\
   match r with
   | Some x => exists l1 l2, l = l1 ++ x :: l2 /\ key x = Some id /\ Forall (fun y => key y <> Some id) l1
   | None => Forall (fun y => key y <> Some id) l
   end.
Proof.
  induction 1 as [|x l Hx Hl (r & E & IH)]; [exists None; split; [reflexivity|constructor]|].
  cbn [find_by_str]. destruct (key x) as [k|] eqn:Ek; [|contradiction].
  destruct (str_eqb k id) eqn:Eq.
  - apply str_eqb_eq in Eq as ->. exists (Some x). split; [reflexivity|]. exists [], l. repeat split; auto.
  - apply str_eqb_neq in Eq. exists r. split; [exact E|]. destruct r as [y|].
    + destruct IH as (l1 & l2 & -> & Ey & H1). exists (x :: l1), l2. repeat split; auto.
      constructor; [congruence|assumption].
    + constructor; [congruence|assumption].
Qed.

Lemma valid_ids_nonnull l : Forall layout_ok l -> Forall (fun d => ld_id d <> None) l.
Proof. apply Forall_impl. intros d ((c & s & ->) & _). discriminate. Qed.

Lemma layout_defs_by_id_spec v c s :
  Forall layout_ok (vec_list v) ->
  exists r, layout_defs_by_id (Some v) (Some (c :: s)) = Ok r /\
  match r with
   | Some x => exists l1 l2, vec_list v = l1 ++ x :: l2 /\ ld_id x = Some (c :: s) /\ Forall (fun y => ld_id y <> Some (c :: s)) l1
   | None => Forall (fun y => ld_id y <> Some (c :: s)) (vec_list v)
   end.
Proof. intro H. apply find_by_str_spec, valid_ids_nonnull, H. Qed.

Lemma layout_defs_add_spec v d :
  layout_fits d -> good_defs (vec_list v) ->
  (layout_ok d /\ ~ In (ld_id d) (map ld_id (vec_list v)) /\
     layout_defs_add v d = Ok (Some (vec_list v ++ [d]), true)) \/
  (~ (layout_ok d /\ ~ In (ld_id d) (map ld_id (vec_list v))) /\
     layout_defs_add v d = Ok (v, false)).
Proof.
  intros Fd [Hv Hn]. unfold layout_defs_add.
  destruct (layout_def_is_valid d) eqn:Vd; cbn [negb].
  2:{ right. split; [intros [H _]; apply layout_valid_iff in H; [congruence|exact Fd]|reflexivity]. }
  apply layout_valid_iff in Vd; [|exact Fd].
  destruct Vd as ((c & s & Ed) & Vd). assert (Vd' : layout_ok d) by (split; [exists c, s; exact Ed|exact Vd]). rewrite Ed.
  destruct (layout_defs_by_id_spec v c s Hv) as (r & Er & Hr).
  unfold layout_defs_has. rewrite Er. cbn [obind]. destruct r as [x|].
  - right. split; [|reflexivity]. intros [_ H]. apply H. destruct Hr as (l1 & l2 & -> & Ex & _).
    rewrite <- Ex. apply in_map. apply in_or_app. right. left. reflexivity.
  - left. split; [exact Vd'|]. split; [|reflexivity].
    intro H. apply in_map_iff in H as (y & Ey & Hy). rewrite Forall_forall in Hr. apply (Hr y Hy Ey).
Qed.

Lemma good_defs_snoc l d :
  good_defs l -> layout_ok d -> ~ In (ld_id d) (map ld_id l) -> good_defs (l ++ [d]).
Proof.
  intros [G1 G2] V N. split.
  - apply Forall_app. split; [assumption|]. constructor; [assumption|constructor].
  - rewrite map_app. cbn. rewrite <- (rev_involutive (map ld_id l ++ [ld_id d])).
    apply NoDup_rev. rewrite rev_app_distr. cbn. constructor; [|apply NoDup_rev; exact G2].
    rewrite <- in_rev. exact N.
Qed.

Lemma cstr_opt_dec (a b : option cstr) : {a = b} + {a <> b}.
Proof. repeat decide equality. Qed.

Lemma add_all_defs_spec l : forall v,
  Forall layout_fits l -> good_defs (vec_list v) ->
  exists v' bs, add_all_defs v l = Ok (v', bs) /\ defs_accepted (vec_list v) l bs (vec_list v') /\ good_defs (vec_list v').
Proof.
  induction l as [|d l IH]; intros v F G; [|inversion F as [|? ? Fd F']; subst].
  - exists v, []. repeat split; try apply G. constructor.
  - cbn [add_all_defs]. destruct (layout_defs_add_spec v d Fd G) as [(V & N & E)|[H E]]; rewrite E; cbn [obind fst snd].
    + destruct (IH (Some (vec_list v ++ [d]))) as (v' & bs & E2 & A & G2); [assumption|apply good_defs_snoc; assumption|].
      rewrite E2. cbn [obind fst snd]. exists v', (true :: bs). repeat split; try apply G2. constructor; assumption.
    + destruct (IH v F' G) as (v' & bs & E2 & A & G2). rewrite E2. cbn [obind fst snd].
      exists v', (false :: bs). repeat split; try apply G2. constructor; [|assumption].
      destruct (layout_def_is_valid d) eqn:Vd.
      2:{ left. rewrite <- layout_valid_iff by exact Fd. congruence. }
      apply layout_valid_iff in Vd; [|exact Fd]. right.
      destruct (in_dec cstr_opt_dec (ld_id d) (map ld_id (vec_list v))); [assumption|]. exfalso; apply H; auto.
Qed.

Lemma lookup_unique l x id :
  NoDup (map ld_id l) -> In x l -> ld_id x = Some id ->
  forall y, In y l -> ld_id y = Some id -> y = x.
Proof.
  induction l as [|a l IH]; intros Hn Hx Ex y Hy Ey; [destruct Hx|].
  cbn in Hn. inversion Hn as [|? ? Ha Hn']; subst.
  destruct Hx as [->|Hx], Hy as [->|Hy]; auto.
  - exfalso. apply Ha. rewrite Ex, <- Ey. apply in_map, Hy.
  - exfalso. apply Ha. rewrite Ey, <- Ex. apply in_map, Hx.
Qed.

(** * C08 at the level of the page calls *)
Lemma by_id_found defs d s :
  Forall (fun x => ld_id x <> None) defs -> NoDup (map ld_id defs) -> In d defs -> ld_id d = Some s -> s <> [] ->
  layout_defs_by_id (Some (Some defs)) (Some s) = Ok (Some d).
Proof.
  intros Hn Hd Hin Hid Hs. destruct s as [|c s]; [contradiction|].
  unfold layout_defs_by_id. cbn [vec_list].
  destruct (find_by_str_spec ld_id (c :: s) defs Hn) as (r & E & Hr). rewrite E.
  destruct r as [x|].
  - destruct Hr as (l1 & l2 & El & Ex & _). do 2 f_equal.
    apply (lookup_unique defs d (c :: s) Hd Hin Hid); [|exact Ex].
    rewrite El. apply in_or_app. right. left. reflexivity.
  - rewrite Forall_forall in Hr. exfalso. apply (Hr d Hin Hid).
Qed.

Lemma on_frame_pos cap f l : 0 < on_frame cap f l <-> exists p, In p l /\ p / cap = f.
Proof.
  unfold on_frame. split.
  - destruct (filter _ l) as [|p r] eqn:E; [cbn; lia|]. intros _. exists p.
    assert (In p (filter (fun p => p / cap =? f) l)) as H by (rewrite E; left; reflexivity).
    apply filter_In in H as [H1 H2]. split; [exact H1|lia].
  - intros (p & Hp & Ef).
    assert (In p (filter (fun p => p / cap =? f) l)) as H by (apply filter_In; split; [exact Hp|lia]).
    destruct (filter _ l); [destruct H|cbn; lia].
Qed.

Lemma in_positions ss n p : In p (positions ss n) <-> ss <= p < ss + Z.of_nat n.
Proof.
  unfold positions. rewrite in_map_iff. split.
  - intros (i & <- & Hi). apply in_seq in Hi. lia.
  - intro H. exists (Z.to_nat (p - ss)). split; [lia|]. apply in_seq. lia.
Qed.

Lemma page_layout_over_frames defs d p s cap :
  Forall (fun x => ld_id x <> None) defs -> NoDup (map ld_id defs) -> In d defs ->
  ld_id d = Some s -> pg_layout_id p = Some s -> s <> [] ->
  cap = Z.of_nat (List.length (def_sections d)) -> 0 < cap < 2^31 ->
  0 <= pg_start_section p -> 0 < pg_section_count p -> pg_start_section p + pg_section_count p < 2^31 ->
  let pos := positions (pg_start_section p) (Z.to_nat (pg_section_count p)) in
  exists n : nat,
    page_frames_count p (Some (Some defs)) = Ok (true, Z.of_nat n) /\
    (forall f, (exists q, In q pos /\ q / cap = f) -> 0 <= f < Z.of_nat n) /\
    (exists q, In q pos /\ q / cap = Z.of_nat n - 1) /\
    (forall f, 0 <= f < Z.of_nat n ->
       page_sections_on_frame p f (Some (Some defs)) = Ok (Some (on_frame cap f pos)) /\ on_frame cap f pos <= cap) /\
    zsum (map (fun i => on_frame cap (Z.of_nat i) pos) (seq 0 n)) = pg_section_count p /\
    (pg_start_section p < cap -> forall f, 0 <= f < Z.of_nat n -> 0 < on_frame cap f pos).
Proof.
  intros Hn Hd Hin Hid Hpid Hs Ecap Hcap H0 H1 H2 pos.
  set (ss := pg_start_section p) in *. set (sc := pg_section_count p) in *.
  destruct (frames_for_closed ss sc cap H0 ltac:(lia) Hcap H2) as (F1 & F2 & F3).
  set (n := frames_for ss sc cap) in *.
  assert (Hcnt : layout_def_section_count d = cap).
  { unfold layout_def_section_count, def_sections, vec_size in *.
    destruct (ld_sections d) as [[l|]|]; cbn [vec_list List.length] in *; try (cbn in Ecap; lia).
    rewrite u32_small; lia. }
  assert (Hlook := by_id_found defs d s Hn Hd Hin Hid Hs).
  assert (Hlast : (n - 1) * cap < ss + sc).
  { destruct (Z.lt_ge_cases ((n - 1) * cap) (ss + sc)); [assumption|].
    destruct (Z.le_gt_cases 1 n) as [Hn1|Hn1]; [|nia]. specialize (F3 (n - 1)). lia. }
  assert (Hn1 : 1 <= n) by nia.
  exists (Z.to_nat n). rewrite Z2Nat.id by lia.
  assert (Hpos : forall q, In q pos <-> ss <= q < ss + sc).
  { intro q. unfold pos. rewrite in_positions, Z2Nat.id by lia. reflexivity. }
  assert (Hof : forall f, on_frame cap f pos = clamp cap (ss + sc - cap * f) - clamp cap (ss - cap * f)).
  { intro f. unfold pos. rewrite on_frame_closed by lia. rewrite Z2Nat.id by lia. reflexivity. }
  split; [|split; [|split; [|split; [|split]]]].
  - unfold page_frames_count. rewrite Hpid, Hlook. cbn [obind]. rewrite Hcnt.
    rewrite i32_small by (unfold is_i32; lia).
    destruct (Z.eqb_spec cap 0); [lia|]. fold sc. destruct (Z.eqb_spec sc 0); [lia|]. reflexivity.
  - intros f (q & Hq & Ef). apply Hpos in Hq. apply (div_eq_iff q cap f) in Ef; [|lia]. nia.
  - exists (ss + sc - 1). split; [apply Hpos; lia|]. apply div_eq_iff; [lia|]. nia.
  - intros f Hf. split.
    + unfold page_sections_on_frame. rewrite Hpid, Hlook. cbn [obind]. rewrite Hcnt. fold ss sc.
      rewrite sections_in_frame_closed; try lia; [|nia|unfold is_i32; nia].
      cbn [obind]. do 2 f_equal. rewrite Hof. reflexivity.
    + rewrite Hof. unfold clamp. lia.
  - erewrite map_ext by (intro i; apply Hof). rewrite zsum_sub, !clamp_sum by lia. rewrite Z2Nat.id by lia. nia.
  - intros Hss f Hf. rewrite Hof. unfold clamp. nia.
Qed.

Lemma defs_history_lookup l :
  Forall layout_fits l ->
  exists v bs, add_all_defs None l = Ok (v, bs) /\ defs_accepted [] l bs (vec_list v) /\
    NoDup (map ld_id (vec_list v)) /\ Forall layout_ok (vec_list v) /\
    (forall id d, id <> [] -> layout_defs_by_id (Some v) (Some id) = Ok (Some d) <->
                  In d (vec_list v) /\ ld_id d = Some id) /\
    (forall id, id <> [] -> layout_defs_by_id (Some v) (Some id) = Ok None <->
                  forall d, In d (vec_list v) -> ld_id d <> Some id).
Proof.
  intro F. destruct (add_all_defs_spec l None F) as (v & bs & E & A & G1 & G2).
  { split; constructor. }
  exists v, bs. split; [exact E|]. split; [exact A|]. split; [exact G2|]. split; [exact G1|].
  assert (Hlook : forall id, id <> [] -> exists r, layout_defs_by_id (Some v) (Some id) = Ok r /\
     match r with
     | Some x => In x (vec_list v) /\ ld_id x = Some id
     | None => forall y, In y (vec_list v) -> ld_id y <> Some id end).
  { intros [|c s] Hid; [contradiction|]. destruct (layout_defs_by_id_spec v c s G1) as (r & Er & Hr).
    exists r. split; [exact Er|]. destruct r as [x|].
    - destruct Hr as (l1 & l2 & El & Ex & _). split; [|exact Ex]. rewrite El. apply in_or_app. right. left. reflexivity.
    - rewrite Forall_forall in Hr. exact Hr. }
  split.
  - intros id d Hid. destruct (Hlook id Hid) as (r & Er & Hr). rewrite Er. split.
    + intros [= ->]. exact Hr.
    + intros [Hd Ed]. destruct r as [x|].
      * destruct Hr as [Hx Ex]. do 2 f_equal. symmetry. eapply lookup_unique; eauto.
      * exfalso. apply (Hr d Hd Ed).
  - intros id Hid. destruct (Hlook id Hid) as (r & Er & Hr). rewrite Er. split.
    + intros [= ->]. exact Hr.
    + intro H. destruct r as [x|]; [|reflexivity]. destruct Hr as [Hx Ex]. exfalso. apply (H x Hx Ex).
Qed.

Lemma append_history l :
  Forall fits l ->
  let (v, bs) := append_all None l in accepted [] l bs (vec_list v) /\ good_sections (vec_list v).
Proof.
  intro F. pose proof (append_all_spec l None F) as H. destruct (append_all None l) as [v bs].
  apply H; [constructor|]. repeat split; constructor.
Qed.

Lemma overlap_wraps :
  exists a, section_ok a /\ is_u32 (s_x a) /\ is_u32 (s_y a) /\ is_u32 (s_width a) /\ is_u32 (s_height a) /\
    (exists px py, in_rect a px py) /\ section_is_overlap a a = false.
Proof.
  exists (mkSection 1 (2^32 - 1) 0 2 1 0). unfold section_ok, is_u32, in_rect; cbn.
  repeat split; try lia; auto. exists (2^32 - 1), 0. lia.
Qed.
