(** C27-C30. *)
From Verif Require Import CBase CBaseProofs TocModel SpecToc ValidProofs PreviewProofs EqualProofs TocProofs TocProofs2.
From Coq Require Import ZifyBool Sorting.Permutation.

(** * C27 *)
Lemma first_scan_digital l :
  match filter file_is_digital l with
  | [] => first_frame_scan TYPE_DIGITAL l = -1
  | f :: _ => first_frame_scan TYPE_DIGITAL l = f_start_frame f
  end.
Proof.
  induction l as [|f l IH]; cbn [filter first_frame_scan]; [reflexivity|].
  change (set_bit TYPE_DIGITAL TYPE_DIGITAL) with true. change (set_bit TYPE_PREVIEW TYPE_DIGITAL) with false.
  cbn [andb]. destruct (file_is_digital f); [reflexivity|exact IH].
Qed.
Lemma first_scan_preview l :
  match filter file_is_preview l with
  | [] => first_frame_scan TYPE_PREVIEW l = -1
  | f :: _ => first_frame_scan TYPE_PREVIEW l = preview_start_frame (f_preview f)
  end.
Proof.
  induction l as [|f l IH]; cbn [filter first_frame_scan]; [reflexivity|].
  change (set_bit TYPE_DIGITAL TYPE_PREVIEW) with false. change (set_bit TYPE_PREVIEW TYPE_PREVIEW) with true.
  cbn [andb]. destruct (file_is_preview f); [reflexivity|exact IH].
Qed.
Lemma last_scan_digital defs l :
  last_frame_scan TYPE_DIGITAL defs l =
  match filter file_is_digital l with [] => Ok (-1) | f :: _ => Ok (f_end_frame f) end.
Proof.
  induction l as [|f l IH]; cbn [filter last_frame_scan]; [reflexivity|].
  change (set_bit TYPE_DIGITAL TYPE_DIGITAL) with true. change (set_bit TYPE_PREVIEW TYPE_DIGITAL) with false.
  cbn [andb]. destruct (file_is_digital f); [reflexivity|exact IH].
Qed.
Lemma filter_rev {A} (p : A -> bool) l : filter p (rev l) = rev (filter p l).
Proof.
  induction l as [|x l IH]; cbn; [reflexivity|]. rewrite filter_app, IH. cbn. destruct (p x); cbn; [reflexivity|apply app_nil_r].
Qed.
Lemma FOP_filter {A} (R : A -> A -> Prop) p l : ForallOrdPairs R l -> ForallOrdPairs R (filter p l).
Proof.
  induction 1 as [|x l Hx Hl IH]; cbn; [constructor|]. destruct (p x); [|exact IH]. constructor; [|exact IH].
  rewrite Forall_forall in *. intros y Hy. apply filter_In in Hy as [Hy _]. auto.
Qed.
Lemma FOP_last {A} (R : A -> A -> Prop) l x : ForallOrdPairs R (l ++ [x]) -> Forall (fun y => R y x) l.
Proof.
  induction l as [|y l IH]; cbn; intro H; [constructor|]. inversion H; subst. constructor; [|auto].
  match goal with HF : Forall (R y) _ |- _ => rewrite Forall_forall in HF; apply HF end. apply in_or_app; right; left; reflexivity.
Qed.

Lemma digital_bounds l defs :
  Exists digital l -> in_frame_order (filter file_is_digital l) ->
  let first := files_first_frame (Some (Some l)) TYPE_DIGITAL in
  exists last, files_last_frame (Some (Some l)) TYPE_DIGITAL defs = Ok last /\
    (exists f, In f l /\ digital f /\ f_start_frame f = first) /\
    (exists f, In f l /\ digital f /\ f_end_frame f = last) /\
    (forall f, In f l -> digital f -> first <= f_start_frame f /\ f_end_frame f <= last) /\
    (0 <= first <= last -> last - first + 1 < 2^31 ->
       files_duration_frames (Some (Some l)) TYPE_DIGITAL defs = Ok (last - first + 1)).
Proof.
  intros Hex Hord first.
  assert (Hne : exists x, In x (filter file_is_digital l)).
  { apply Exists_exists in Hex as (x & Hx & Hd). exists x. apply filter_In. split; [exact Hx|apply file_digital_iff, Hd]. }
  destruct (filter file_is_digital l) as [|f0 r0] eqn:Ef; [destruct Hne as (? & [])|].
  destruct (rev (filter file_is_digital l)) as [|fl rl] eqn:Er.
  { apply (f_equal (@rev _)) in Er. rewrite rev_involutive, Ef in Er. discriminate. }
  assert (El : filter file_is_digital l = rev rl ++ [fl]).
  { rewrite <- (rev_involutive (filter _ l)), Er. reflexivity. }
  destruct l as [|a l']; [cbn in Ef; discriminate|]. set (l := a :: l') in *.
  assert (Efirst : first = f_start_frame f0).
  { pose proof (first_scan_digital l) as H. rewrite Ef in H. exact H. }
  assert (Elast : files_last_frame (Some (Some l)) TYPE_DIGITAL defs = Ok (f_end_frame fl)).
  { change (files_last_frame (Some (Some l)) TYPE_DIGITAL defs) with (last_frame_scan TYPE_DIGITAL defs (rev l)).
    rewrite last_scan_digital, filter_rev, Er. reflexivity. }
  exists (f_end_frame fl). split; [exact Elast|].
  assert (Hin : forall f, In f (filter file_is_digital l) -> In f l /\ digital f).
  { intros f Hf. apply filter_In in Hf as [H1 H2]. split; [exact H1|apply file_digital_iff, H2]. }
  split; [|split; [|split]].
  - exists f0. destruct (Hin f0) as [H1 H2]; [rewrite Ef; left; reflexivity|]. auto.
  - exists fl. destruct (Hin fl) as [H1 H2]; [rewrite El; apply in_or_app; right; left; reflexivity|]. auto.
  - intros f Hf Hd. assert (Hff : In f (filter file_is_digital l)) by (apply filter_In; split; [exact Hf|apply file_digital_iff, Hd]).
    unfold in_frame_order in Hord. split.
    + rewrite Efirst. rewrite Ef in Hff. destruct Hff as [<-|Hff]; [lia|]. inversion Hord as [|? ? HF _]; subst.
      rewrite Forall_forall in HF. apply HF, Hff.
    + rewrite <- Ef, El in Hord. apply FOP_last in Hord. rewrite El in Hff. apply in_app_or in Hff as [Hff|[<-|[]]]; [|lia].
      rewrite Forall_forall in Hord. apply Hord, Hff.
  - intros P1 P3. unfold files_duration_frames. fold first. rewrite Elast. cbn [obind].
    replace (_ || _) with false by lia. unfold chk32. replace (_ && _) with true by lia. cbn [obind].
    replace (_ && _) with true by lia. reflexivity.
Qed.

Lemma preview_first_bounds l :
  Exists previewed l ->
  ForallOrdPairs (fun a b => preview_first a <= preview_first b) (filter file_is_preview l) ->
  Forall (fun f => preview_first f < 2^31 /\ -1 <= preview_first f) l ->
  let first := files_first_frame (Some (Some l)) TYPE_PREVIEW in
  (exists f, In f l /\ previewed f /\ preview_first f = first) /\
  (forall f, In f l -> previewed f -> first <= preview_first f).
Proof.
  intros Hex Hord Hb first.
  assert (Hne : exists x, In x (filter file_is_preview l)).
  { apply Exists_exists in Hex as (x & Hx & Hd). exists x. apply filter_In. split; [exact Hx|apply file_preview_iff, Hd]. }
  destruct (filter file_is_preview l) as [|f0 r0] eqn:Ef; [destruct Hne as (? & [])|].
  destruct l as [|a l']; [cbn in Ef; discriminate|]. set (l := a :: l') in *.
  assert (H0 : In f0 l /\ file_is_preview f0 = true) by (apply filter_In; rewrite Ef; left; reflexivity).
  assert (Efirst : first = preview_first f0).
  { pose proof (first_scan_preview l) as H. rewrite Ef in H.
    change first with (first_frame_scan TYPE_PREVIEW l). rewrite H. rewrite Forall_forall in Hb. specialize (Hb f0 (proj1 H0)).
    unfold preview_start_frame, preview_first, pages_of in *. destruct (f_preview f0) as [p|]; [|reflexivity].
    destruct (pv_pages p) as [[|g r]|]; try reflexivity. apply i32_small. unfold is_i32. lia. }
  split.
  - exists f0. split; [tauto|]. split; [apply file_preview_iff; tauto|]. congruence.
  - intros f Hf Hp. assert (Hff : In f (filter file_is_preview l)) by (apply filter_In; split; [exact Hf|apply file_preview_iff, Hp]).
    rewrite Ef in Hff. rewrite Efirst. destruct Hff as [<-|Hff]; [lia|]. inversion Hord as [|? ? HF _]; subst.
    rewrite Forall_forall in HF. apply HF, Hff.
Qed.

(** * C28 *)
Lemma classification f :
  (file_is_parent f = true /\ file_has_parent f = false /\ file_is_standalone f = false /\ f_parent_id f = -1) \/
  (file_is_parent f = false /\ file_has_parent f = true /\ file_is_standalone f = false /\ f_parent_id f <> -1 /\ f_parent_id f <> -2) \/
  (file_is_parent f = false /\ file_has_parent f = false /\ file_is_standalone f = true /\ f_parent_id f = -2).
Proof.
  unfold file_is_standalone, file_has_parent, file_is_parent, FILE_PARENT, FILE_NO_PARENT.
  destruct (Z.eqb_spec (f_parent_id f) (-1)) as [E|E]; [left; rewrite E; auto|].
  destruct (Z.eqb_spec (f_parent_id f) (-2)) as [E2|E2]; cbn; auto 10.
Qed.
Lemma type_hits_iff mask f : type_hits mask f = true <-> kind_selected mask f.
Proof.
  unfold type_hits, kind_selected, digital, previewed.
  set (t := f_types f). unfold section_type. rewrite set_bit_testbit0, set_bit_testbit1.
  assert (H0 : set_bit 0 t = false) by (unfold set_bit; rewrite Z.land_0_r; reflexivity).
  assert (H3 : set_bit 3 t = true <-> Z.testbit t 0 = true \/ Z.testbit t 1 = true).
  { rewrite <- set_bit_testbit0, <- set_bit_testbit1. unfold set_bit. rewrite !negb_true_iff, !Z.eqb_neq.
    change 3 with (Z.lor 1 2). rewrite Z.land_lor_distr_r, Z.lor_eq_0_iff.
    destruct (Z.eq_dec (Z.land t 1) 0); tauto. }
  destruct (Z.testbit mask 0), (Z.testbit mask 1); cbn [Z.lor TYPE_DIGITAL TYPE_PREVIEW];
    unfold TYPE_DIGITAL, TYPE_PREVIEW; cbn [Z.lor Pos.lor]; rewrite ?H0, ?H3, ?set_bit_testbit0, ?set_bit_testbit1; intuition congruence.
Qed.
Lemma select_files_acc (sel : toc_file -> bool) fs : forall acc : option files,
  Forall (fun f => file_is_valid f = true) fs ->
  fold_left (fun acc f =>
    if sel f then Some (fst (files_add_toc (match acc with Some v => v | None => None end) (file_clone f)))
    else acc) fs acc
  = match filter sel fs with [] => acc | fl => Some (Some (match acc with Some v => vec_list v | None => [] end ++ fl)) end.
Proof.
  induction fs as [|f fs IH]; intros acc H; [reflexivity|]. inversion H as [|? ? Hf Hfs]; subst. cbn [fold_left filter].
  rewrite IH by assumption. destruct (sel f); [|reflexivity].
  unfold files_add_toc. rewrite file_clone_id, Hf. cbn [negb fst vec_append vec_list].
  destruct (filter sel fs) as [|g gs].
  - destruct acc as [v|]; reflexivity.
  - unfold vec_append; cbn [vec_list]. rewrite <- app_assoc. destruct acc as [v|]; reflexivity.
Qed.
Lemma select_files_spec sel r :
  Forall (fun f => file_is_valid f = true) (files_of r) ->
  select_files sel r = match filter sel (files_of r) with [] => None | l => Some (Some l) end.
Proof.
  intro H. unfold select_files. rewrite reel_files_of, select_files_acc by exact H. reflexivity.
Qed.
Lemma valid_files l : Forall file_small l -> Forall file_ok l -> Forall (fun f => file_is_valid f = true) l.
Proof. rewrite !Forall_forall. intros Hs H f Hf. apply file_valid_iff; [apply Hs, Hf|apply H, Hf]. Qed.

Definition selected (o : option files) : list toc_file := match o with Some (Some l) => l | _ => [] end.
Lemma selected_filter (l : list toc_file) : selected (match l with [] => None | x :: r => Some (Some (x :: r)) end) = l.
Proof. destruct l; reflexivity. Qed.

Lemma filter_partition {A} (p q : A -> bool) l :
  Permutation (filter (fun x => p x && q x) l ++ filter (fun x => negb (p x) && q x) l) (filter q l).
Proof.
  induction l as [|x l IH]; [reflexivity|]. cbn [filter]. destruct (p x), (q x); cbn [andb negb]; auto.
  - cbn. apply perm_skip, IH.
  - rewrite <- Permutation_middle. apply perm_skip, IH.
Qed.

Lemma reel_queries_partition r mask :
  Forall file_small (files_of r) -> Forall file_ok (files_of r) ->
  let parents := selected (reel_parent_files r mask) in
  let children := selected (reel_child_files r mask) in
  let alone := selected (reel_standalone_files r mask) in
  exists hits, Permutation (parents ++ children) hits /\
    (exists p, (forall f, In f (files_of r) -> p f = true <-> kind_selected mask f) /\ hits = filter p (files_of r)) /\
    (forall f, In f parents <-> In f (files_of r) /\ kind_selected mask f /\ f_parent_id f = -1) /\
    (forall f, In f children <-> In f (files_of r) /\ kind_selected mask f /\ f_parent_id f <> -1) /\
    (forall f, In f alone <-> In f (files_of r) /\ kind_selected mask f /\ f_parent_id f = -2).
Proof.
  intros Hs Hok. pose proof (valid_files _ Hs Hok) as Hv.
  unfold reel_parent_files, reel_child_files, reel_standalone_files.
  rewrite !select_files_spec by exact Hv. cbn zeta. rewrite !selected_filter.
  exists (filter (type_hits mask) (files_of r)). split; [apply filter_partition|]. split.
  - exists (type_hits mask). split; [intros; apply type_hits_iff|reflexivity].
  - assert (Hp : forall f, file_is_parent f = true <-> f_parent_id f = -1) by apply file_parent_iff.
    assert (Ha : forall f, file_is_standalone f = true <-> f_parent_id f = -2).
    { intro f. destruct (classification f) as [(?&?&H&?)|[(?&?&H&?&?)|(?&?&H&?)]]; rewrite H; split; intro; congruence. }
    split; [|split]; intro f; rewrite filter_In, andb_true_iff, type_hits_iff, ?negb_true_iff.
    + rewrite Hp. tauto.
    + rewrite <- not_true_iff_false, Hp. tauto.
    + rewrite Ha. tauto.
Qed.

(** * C29 *)
Lemma find_first {A} (p : A -> bool) (P : A -> Prop) l :
  (forall x, p x = true <-> P x) ->
  match find p l with Some x => first_with P l x | None => Forall (fun y => ~ P y) l end.
Proof.
  intro Hp. induction l as [|x l IH]; cbn; [constructor|]. destruct (p x) eqn:E.
  - exists [], l. split; [reflexivity|]. split; [apply Hp, E|constructor].
  - assert (~ P x) by (rewrite <- Hp; congruence). destruct (find p l) as [y|].
    + destruct IH as (l1 & l2 & -> & Hy & Hf). exists (x :: l1), l2. split; [reflexivity|]. split; [exact Hy|constructor; assumption].
    + constructor; assumption.
Qed.
Lemma first_with_app_l {A} (P : A -> Prop) l m x : first_with P l x -> first_with P (l ++ m) x.
Proof. intros (l1 & l2 & -> & H). exists l1, (l2 ++ m). rewrite <- app_assoc. auto. Qed.
Lemma first_with_app_r {A} (P : A -> Prop) l m x : Forall (fun y => ~ P y) l -> first_with P m x -> first_with P (l ++ m) x.
Proof. intros H (l1 & l2 & -> & H1 & H2). exists (l ++ l1), l2. rewrite <- app_assoc. split; [reflexivity|]. split; [exact H1|]. apply Forall_app; auto. Qed.

Lemma scan_reels_spec (look : reel -> outcome (option toc_file)) (P : toc_file -> Prop) l :
  (forall r, In r l -> exists o, look r = Ok o /\ match o with Some x => first_with P (files_of r) x | None => Forall (fun y => ~ P y) (files_of r) end) ->
  exists o, scan_reels look l = Ok o /\
    match o with Some x => first_with P (flat_map files_of l) x | None => Forall (fun y => ~ P y) (flat_map files_of l) end.
Proof.
  induction l as [|r l IH]; intro H; [exists None; split; [reflexivity|constructor]|].
  destruct (H r (or_introl eq_refl)) as (o & Eo & Ho). cbn [scan_reels flat_map]. rewrite Eo. cbn [obind].
  destruct o as [x|].
  - exists (Some x). split; [reflexivity|]. apply first_with_app_l, Ho.
  - destruct IH as (o & E2 & H2); [intros; apply H; right; assumption|]. exists o. split; [exact E2|].
    destruct o as [x|]; [apply first_with_app_r; assumption|apply Forall_app; auto].
Qed.
Lemma file_by_id_spec t id :
  exists o, toc_file_by_id t id = Ok o /\
    match o with Some x => first_with (fun f => f_id f = id) (all_files t) x | None => Forall (fun f => f_id f <> id) (all_files t) end.
Proof.
  unfold toc_file_by_id. rewrite toc_reels_of. apply scan_reels_spec. intros r _. exists (reel_file_by_id r id). split; [reflexivity|].
  unfold reel_file_by_id. rewrite reel_files_of. apply find_first. intro f. apply Z.eqb_eq.
Qed.
Lemma file_by_unique_id_spec t id :
  id <> [] -> Forall (fun f => f_unique_id f <> None) (all_files t) ->
  exists o, toc_file_by_unique_id t (Some id) = Ok o /\
    match o with Some x => first_with (fun f => f_unique_id f = Some id) (all_files t) x
               | None => Forall (fun f => f_unique_id f <> Some id) (all_files t) end.
Proof.
  intros Hid Hn. destruct id as [|c s]; [contradiction|]. unfold toc_file_by_unique_id. rewrite toc_reels_of.
  apply scan_reels_spec. intros r Hr. unfold reel_file_by_unique_id. rewrite reel_files_of.
  destruct (find_by_str_spec f_unique_id (c :: s) (files_of r)) as (o & E & H).
  { rewrite Forall_forall in *. intros f Hf. apply Hn. apply in_flat_map. eauto. }
  exists o. split; [exact E|]. destruct o as [x|]; [|exact H]. destruct H as (l1 & l2 & H1 & H2 & H3). exists l1, l2. auto.
Qed.
Lemma reel_by_id_spec t id :
  match toc_reel_by_id t id with
  | Some r => first_with (fun r => nstr (r_id r) = nstr id) (reels_of t) r
  | None => Forall (fun r => nstr (r_id r) <> nstr id) (reels_of t)
  end.
Proof. unfold toc_reel_by_id. rewrite toc_reels_of. apply find_first. intro r. apply str_decides. Qed.

(** * C30 *)
Lemma size_loop_one_frame l : forall acc,
  Forall one_frame l -> 0 <= acc -> acc + zsum (map f_size l) < 2^63 ->
  size_bytes_loop l acc = Ok (acc + zsum (map f_size l)).
Proof.
  unfold zsum. induction l as [|f l IH]; intros acc H Ha Hb; cbn [size_bytes_loop map fold_right] in *; [f_equal; lia|].
  inversion H as [|? ? (F1 & F2 & F3 & F4) Hl]; subst.
  assert (0 <= fold_right Z.add 0 (map f_size l)).
  { clear -Hl. induction Hl as [|f l (F1 & F2 & F3 & F4) _ IH]; cbn; lia. }
  replace (f_end_byte f <? f_start_byte f) with false by lia.
  unfold chk32. replace (_ && _) with true by lia. cbn [obind]. replace (_ && _) with true by lia. cbn [obind].
  replace (_ <? 2^63) with true by lia. rewrite IH by (auto; lia). f_equal. lia.
Qed.
Lemma reel_size_one_frame r :
  Forall one_frame (files_of r) -> zsum (map f_size (files_of r)) < 2^63 ->
  reel_size_bytes r = Ok (zsum (map f_size (files_of r))).
Proof. intros H1 H2. unfold reel_size_bytes. rewrite reel_files_of, size_loop_one_frame; [reflexivity|exact H1|lia|lia]. Qed.
