(** C36, continued: the metadata and layout tables. *)
From Verif Require Import CBase CBaseProofs TocModel TableModel SpecTable TableProofs PropTable.

(** * Metadata of all files *)
Definition meta_max (a : meta_lengths) (k : Z) (v : list (Z * fsource)) : meta_lengths :=
  mkMeta (maxz (me_file_id a) (map (fun q => digits_count (fst q)) v)) k (maxz (me_source_file a) (map (fun q => digits_count (fs_file_id (snd q))) v))
    (maxz (me_source a) (map (fun q => digits_count (fs_source_id (snd q))) v)) (maxz (me_format a) (map (fun q => len (text (fs_format_id (snd q)))) v))
    (maxz (me_data a) (map (fun q => len (text (fs_data (snd q)))) v)) (me_count a + Z.of_nat (List.length v)).
Lemma meta_max_app a k v1 k2 v2 : meta_max (meta_max a k v1) k2 v2 = meta_max a k2 (v1 ++ v2).
Proof. unfold meta_max. cbn [me_file_id me_id me_source_file me_source me_format me_data me_count]. rewrite !map_app, !maxz_app, app_length. f_equal. lia. Qed.
Lemma digits_range j : 1 <= digits_count (i32 j) <= 11.
Proof.
  pose proof (i32_range j) as H. rewrite digits_len by exact H. pose proof (dec_bound32 _ H). pose proof (print_dec_nonempty (i32 j)) as N. destruct (print_dec (i32 j)); [congruence|].
  rewrite len_cons in *. pose proof (len_nonneg l). lia.
Qed.
Definition source_ok (s : fsource) : Prop := fs_format_id s <> None /\ fs_data s <> None /\ len (text (fs_format_id s)) < 2^32 /\ len (text (fs_data s)) < 2^32.
Lemma meta_sources_fold id ss : forall j a, (forall s, In s ss -> source_ok s) -> 0 <= me_count a -> me_count a + Z.of_nat (List.length ss) < 2^32 ->
  exists j' k, ofold (meta_source id) (j, a) ss = Ok (j', meta_max a k (map (pair id) ss)) /\ me_id a <= k /\ (ss <> [] -> 1 <= k) /\ (me_id a <= 11 -> k <= 11).
Proof.
  induction ss as [|s ss IH]; intros j a H Z0 B.
  - exists j, (me_id a). split; [|split; [lia|split; [congruence|lia]]]. unfold meta_max. cbn. rewrite Z.add_0_r. now destruct a.
  - cbn [List.length] in B. destruct (H s (or_introl eq_refl)) as (N1 & N2 & L1 & L2). cbn [ofold]. unfold meta_source at 1. rewrite !deref_ok by assumption. cbn [obind]. rewrite !strlen_ok by assumption. rewrite u32_small by lia.
    pose proof (digits_range j) as D.
    edestruct (IH (j + 1)) as (j' & k & E & K1 & K2 & K3); [intros; apply H; now right| | |exists j', k; split; [rewrite E; f_equal; f_equal|]].
    + cbn [me_count]. lia.
    + cbn [me_count]. lia.
    + unfold meta_max, maxz. cbn [me_file_id me_id me_source_file me_source me_format me_data me_count map fold_left List.length fst snd]. f_equal. lia.
    + cbn [me_id] in *. rewrite set_max_max in *. split; [lia|]. split; [|intro; apply K3; lia]. intros _. lia.
Qed.
Lemma meta_fold l : forall a, (forall q, In q (all_sources l) -> source_ok (snd q)) -> 0 <= me_count a -> me_count a + Z.of_nat (List.length (all_sources l)) < 2^32 -> 0 <= me_id a <= 11 ->
  exists k, ofold meta_file a l = Ok (meta_max a k (all_sources l)) /\ (all_sources l <> [] -> 1 <= k) /\ (me_id a <= k) /\ k <= 11.
Proof.
  induction l as [|f l IH]; intros a H Z0 B M.
  - exists (me_id a). split; [|split; [cbn; congruence|lia]]. unfold meta_max. cbn. rewrite Z.add_0_r. now destruct a.
  - unfold all_sources in *. cbn [flat_map] in *. fold (all_sources l) in *. rewrite app_length, map_length in B. cbn [ofold]. unfold meta_file at 1. change (sources_of f) with (file_sources f).
    destruct (meta_sources_fold (f_id f) (file_sources f) 0 a) as (j' & k & E & K1 & K2 & K3); [intros s I; apply (H (f_id f, s)); apply in_or_app; left; now apply in_map|lia|lia|].
    rewrite E. cbn [obind snd].
    assert (Kr : 0 <= k <= 11) by (specialize (K3 ltac:(lia)); lia).
    destruct (IH (meta_max a k (map (pair (f_id f)) (file_sources f)))) as (k2 & E2 & J1 & J2 & J3); [intros; apply H; apply in_or_app; now right|unfold meta_max; cbn [me_count]; lia|unfold meta_max; cbn [me_count]; rewrite map_length; lia|exact Kr|].
    exists k2. rewrite E2, meta_max_app. split; [reflexivity|]. cbn [me_id meta_max] in J2. split; [|split; [|exact J3]].
    + intro N. destruct (file_sources f) as [|s ss]; [cbn [map app] in N; now apply J1|]. specialize (K2 ltac:(discriminate)). lia.
    + lia.
Qed.
Lemma meta_widths_ok l : (forall q, In q (all_sources l) -> source_in_table (snd q)) -> (forall q, In q (all_sources l) -> is_i32 (fst q)) ->
  all_sources l <> [] -> small (List.length (all_sources l)) (meta_width (meta_columns (all_sources l))) ->
  exists k, 1 <= k <= 11 /\ meta_lengths_of l = Ok (let w := meta_columns (all_sources l) in
    mkMeta (Z.of_nat (mw_file w)) k (Z.of_nat (mw_source_file w)) (Z.of_nat (mw_source w)) (Z.of_nat (mw_format w)) (Z.of_nat (mw_data w)) (Z.of_nat (List.length (all_sources l)))).
Proof.
  intros P Id N S. assert (W := small_width _ _ S ltac:(destruct (all_sources l); [congruence|cbn; lia])). unfold meta_width in W.
  destruct (meta_fold l (mkMeta 0 0 0 0 0 0 0)) as (k & E & K1 & K2 & K3).
  - intros q I. destruct (P q I) as (N1 & N2 & _). unfold meta_columns in W. cbn [mw_file mw_source_file mw_source mw_format mw_data] in W.
    pose proof (widest_map 0 (fun q => text (fs_format_id (snd q))) _ q I). pose proof (widest_map 0 (fun q => text (fs_data (snd q))) _ q I). cbv beta in *. unfold source_ok. repeat split; try assumption; lia.
  - cbn. lia.
  - cbn [me_count]. unfold small, meta_width in S. nia.
  - cbn. lia.
  - exists k. specialize (K1 N). split; [lia|]. unfold meta_lengths_of. rewrite E. f_equal. unfold meta_max, meta_columns. cbn [me_file_id me_id me_source_file me_source me_format me_data me_count mw_file mw_source_file mw_source mw_format mw_data].
    rewrite <- (maxz_widest' (fun q : Z * fsource => len (text (fs_data (snd q)))) (fun q => text (fs_data (snd q)))) by reflexivity.
    rewrite <- (maxz_widest' (fun q : Z * fsource => len (text (fs_format_id (snd q)))) (fun q => text (fs_format_id (snd q)))) by reflexivity.
    rewrite <- (maxz_widest' (fun q : Z * fsource => digits_count (fs_source_id (snd q))) (fun q => print_dec (fs_source_id (snd q)))) by (intros q I; apply digits_len; apply (P q I)).
    rewrite <- (maxz_widest' (fun q : Z * fsource => digits_count (fs_file_id (snd q))) (fun q => print_dec (fs_file_id (snd q)))) by (intros q I; apply digits_len; apply (P q I)).
    rewrite <- (maxz_widest' (fun q : Z * fsource => digits_count (fst q)) (fun q => print_dec (fst q))) by (intros q I; apply digits_len; now apply Id).
    reflexivity.
Qed.
Lemma strip_copy_ok s : forall n, strip_copy n s = firstn n (stripped s).
Proof.
  induction s as [|c s IH]; intros n; [now rewrite firstn_nil|]. cbn [strip_copy]. unfold stripped. cbn [filter]. fold (stripped s). destruct n as [|n]; [reflexivity|].
  destruct ((c =? 10) || (c =? 13) || (c =? 9)); cbn [negb]; [apply IH|]. cbn [firstn]. now rewrite IH.
Qed.
Lemma stripped_len d : (List.length (stripped d) <= List.length d)%nat.
Proof. apply filter_len. Qed.
Lemma data_text_len d : len (data_text d) <= len d /\ len (data_text d) <= 54.
Proof.
  unfold data_text, len. pose proof (stripped_len d). destruct ((55 <=? List.length d)%nat && (51 <=? List.length (stripped d))%nat) eqn:E.
  - apply andb_prop in E. destruct E as (E1 & E2). apply Nat.leb_le in E1, E2. rewrite app_length, firstn_length. change (List.length (s2z "...")) with 3%nat. lia.
  - apply andb_false_iff in E. destruct E as [E|E]; apply Nat.leb_gt in E; lia.
Qed.
Lemma data_cell_ok d : len d < 2^32 -> data_cell d = Ok (data_text d).
Proof.
  intro L. pose proof (data_text_len d) as T. pose proof (stripped_len d) as T2. unfold data_cell. rewrite strlen_ok by exact L. rewrite !strip_copy_ok. unfold data_text in *.
  assert (Q : (55 <=? len d) = (55 <=? List.length d)%nat). { unfold len. destruct (Nat.leb_spec 55 (List.length d)); lia. }
  rewrite Q. destruct (55 <=? List.length d)%nat eqn:E1.
  - apply Nat.leb_le in E1. cbv zeta. assert (Q2 : (51 <=? len (firstn 54 (stripped d))) = (51 <=? List.length (stripped d))%nat).
    { unfold len. rewrite firstn_length. destruct (Nat.leb_spec 51 (List.length (stripped d))); lia. }
    rewrite Q2. cbn [andb] in *. destruct (51 <=? List.length (stripped d))%nat eqn:E2.
    + rewrite firstn_firstn. change (Nat.min 51 54) with 51%nat. unfold local_text. replace (len (firstn 51 (stripped d) ++ s2z "...") + 1 <=? 55) with true by lia. reflexivity.
    + apply Nat.leb_gt in E2. rewrite firstn_all2 by lia. unfold local_text. replace (len (stripped d) + 1 <=? 55) with true by lia. reflexivity.
  - cbn [andb] in *. unfold len. rewrite Nat2Z.id. rewrite firstn_all2 by exact T2. unfold local_text. replace (len (stripped d) + 1 <=? 55) with true by lia. reflexivity.
Qed.
Lemma number_zero w : (1 <= w)%nat -> number w 0 = repeat 48 w.
Proof.
  intro H. unfold number, print_dec_pad, pad_zero. change (0 <? 0) with false. cbv iota. change (print_nonneg 0) with [48]. cbn [List.length]. destruct w as [|w]; [lia|].
  replace (S w - 1)%nat with w by lia. symmetry. apply (repeat_cons w 48).
Qed.
Lemma source_cell_ok w id : Z.of_nat w <= 11 -> len (print_dec id) <= Z.of_nat w -> source_cell (Z.of_nat w) id = Ok (source_id_cell w id).
Proof.
  intros W L. unfold source_cell, source_id_cell. destruct (id =? -1) eqn:E; cbn [negb].
  - assert (id = -1) by lia. subst id. change (len (print_dec (-1))) with 2 in L. replace (1 <? Z.of_nat w) with true by lia. rewrite fmt_d_ok by lia. cbn [obind]. rewrite number_zero by lia.
    unfold local_text. rewrite len_app. change (len (s2z "N")) with 1. unfold len. rewrite repeat_length. replace (Z.of_nat w + 1 + 1 <=? 32) with true by lia. unfold pad_zero. change (List.length (s2z "N")) with 1%nat. replace (w + 1 - 1)%nat with w by lia. reflexivity.
  - rewrite fmt_d_ok by lia. cbn [obind]. unfold local_text. rewrite number_len. replace (Z.max (Z.of_nat w) (len (print_dec id)) + 1 <=? 32) with true by lia. reflexivity.
Qed.
Lemma source_id_cell_len w id : len (source_id_cell w id) <= Z.max (Z.of_nat w) (len (print_dec id)) + 1.
Proof. unfold source_id_cell. destruct (id =? -1); [rewrite pad_zero_len; change (len (s2z "N")) with 1; lia|rewrite number_len; lia]. Qed.
Lemma meta_line_len v q : In q v -> let w := meta_columns v in len (meta_line w q) <= Z.of_nat (mw_file w) + Z.of_nat (mw_source_file w) + Z.of_nat (mw_source w) + Z.of_nat (mw_format w) + Z.of_nat (mw_data w) + 6.
Proof.
  intro I. cbv zeta. unfold meta_line. rewrite line_len by discriminate. cbn [fold_right List.length]. rewrite !number_len, left_len. pose proof (source_id_cell_len (mw_source (meta_columns v)) (fs_source_id (snd q))).
  pose proof (data_text_len (text (fs_data (snd q)))). unfold meta_columns in *. cbn [mw_file mw_source_file mw_source mw_format mw_data] in *.
  pose proof (widest_map 0 (fun q => print_dec (fst q)) v q I). pose proof (widest_map 0 (fun q => print_dec (fs_file_id (snd q))) v q I). pose proof (widest_map 0 (fun q => print_dec (fs_source_id (snd q))) v q I).
  pose proof (widest_map 0 (fun q => text (fs_format_id (snd q))) v q I). pose proof (widest_map 0 (fun q => text (fs_data (snd q))) v q I). cbv beta in *. lia.
Qed.
Lemma headed2_ok {A} (step : option (block * bool) -> A -> outcome (option (block * bool))) (r : A -> cstr) (h1 h2 : cstr) n l : n < 2^31 ->
  (forall x b d, In x l -> step (Some (b, d)) x = obind (if d then Ok b else obind (put_asserted b h1) (fun b => put_asserted b h2)) (fun b => obind (put_asserted b (r x)) (fun b => Ok (Some (b, true))))) ->
  len h1 + len h2 + len (flat_map r l) + 1 <= n ->
  ofold step (Some (mkBlock n (Some []), false)) l =
    Ok (Some (match l with [] => (mkBlock n (Some []), false) | _ => (mkBlock n (Some (h1 ++ h2 ++ flat_map r l)), true) end)).
Proof.
  intros Hn S.
  assert (G : forall t, len t + len (flat_map r l) + 1 <= n -> ofold step (Some (mkBlock n (Some t), true)) l = Ok (Some (mkBlock n (Some (t ++ flat_map r l)), true))).
  { revert S. induction l as [|x l IH]; intros S t H; [cbn; now rewrite app_nil_r|]. cbn [ofold flat_map] in *. rewrite len_app in H. pose proof (len_nonneg (flat_map r l)).
    rewrite S by now left. cbn [obind]. rewrite put_asserted_ok by (cbn [or_empty]; lia). cbn [obind or_empty].
    rewrite IH; [now rewrite app_assoc|intros; apply S; now right|rewrite len_app; lia]. }
  destruct l as [|x l]; intros H; [reflexivity|]. cbn [ofold flat_map] in *. rewrite len_app in H. pose proof (len_nonneg (flat_map r l)). pose proof (len_nonneg (r x)). pose proof (len_nonneg h1). pose proof (len_nonneg h2).
  rewrite S by now left. cbn [obind]. rewrite put_asserted_ok by (cbn [or_empty]; change (len []) with 0; lia). cbn [obind or_empty app]. rewrite put_asserted_ok by (cbn [or_empty]; lia). cbn [obind or_empty].
  specialize (G (h1 ++ h2)). rewrite S in G by now left. cbn [obind] in G. rewrite put_asserted_ok in G by (cbn [or_empty]; rewrite ?len_app; lia). cbn [obind or_empty] in G.
  rewrite put_asserted_ok by (cbn [or_empty]; rewrite ?len_app; lia). cbn [obind or_empty].
  rewrite G by (rewrite !len_app; lia). now rewrite <- !app_assoc.
Qed.
(** The metadata table of all files. *)
Theorem C36_metadata_table l : (forall f, In f l -> is_i32 (f_id f)) -> (forall q, In q (all_sources l) -> source_in_table (snd q)) ->
  small (List.length (all_sources l)) (meta_width (meta_columns (all_sources l))) ->
  metadata_table_save (Some (Some l)) = Ok (Some (Some (metadata_table l))).
Proof.
  intros Fi P S. assert (Id : forall q, In q (all_sources l) -> is_i32 (fst q)).
  { intros q I. unfold all_sources in I. apply in_flat_map in I. destruct I as (f & If & I). apply in_map_iff in I. destruct I as (p & <- & _). now apply Fi. }
  assert (R : forall a s, ofold (meta_rows a) s l = ofold (fun s q => meta_row a (fst q) s (snd q)) s (all_sources l)).
  { intros a s. unfold all_sources. rewrite <- ofold_flat. apply ofold_ext. intros s' f _. unfold meta_rows. now rewrite ofold_map. }
  unfold metadata_table_save, metadata_table. change (len META_HEADER) with 51. change (len META_COLUMNS) with 53. unfold EPSILON.
  destruct (all_sources l) as [|q0 v0] eqn:V.
  - destruct (meta_fold l (mkMeta 0 0 0 0 0 0 0)) as (k & E & _ & K2 & K3); [rewrite V; easy|cbn; lia|rewrite V; cbn; lia|cbn; lia|]. rewrite V in E. unfold meta_lengths_of. rewrite E. cbn [obind].
    rewrite R. reflexivity.
  - rewrite <- V in *. assert (N : all_sources l <> []) by (rewrite V; discriminate). destruct (meta_widths_ok l P Id N S) as (k & K & E). rewrite E. cbn [obind]. rewrite R.
    cbv zeta. cbn [me_file_id me_id me_source_file me_source me_format me_data me_count]. set (v := all_sources l) in *. set (w := meta_columns v) in *. unfold small, meta_width in S.
    assert (L : (0 < List.length v)%nat) by (destruct v; [congruence|cbn; lia]).
    change (u32 (51 + 53)) with 104. set (mw := Z.of_nat (mw_file w) + k + Z.of_nat (mw_source_file w) + Z.of_nat (mw_source w) + Z.of_nat (mw_format w) + Z.of_nat (mw_data w) + 5 + 1).
    assert (M : 0 <= mw * Z.of_nat (List.length v) < 2^30) by (unfold mw; nia). assert (M' : 0 <= mw < 2^30) by (unfold mw in *; nia).
    rewrite (u32_small mw) by lia. rewrite (u32_small (104 + _ + 1)) by lia. rewrite u32_small by lia. rewrite u64_small by lia. match goal with |- context [mkBlock ?k _] => set (n := k) end.
    assert (T : len (flat_map (meta_line w) v) <= mw * Z.of_nat (List.length v)).
    { rewrite Z.mul_comm. apply flat_map_len. intros q I. pose proof (meta_line_len v q I) as X. cbv zeta in X. fold w in X. unfold mw. lia. }
    rewrite (headed2_ok _ (meta_line w) META_HEADER META_COLUMNS n).
    + cbn [obind]. rewrite V. reflexivity.
    + subst n. lia.
    + intros q b d I. destruct (P q I) as (N1 & N2 & I1 & I2). unfold meta_row. cbn [fst snd].
      destruct (if d then Ok b else obind (put_asserted b META_HEADER) (fun b => put_asserted b META_COLUMNS)); [|reflexivity]. cbn [obind]. rewrite !deref_ok by assumption. cbn [obind].
      cbn [me_file_id me_id me_source_file me_source me_format me_data me_count].
      assert (B1 : len (text (fs_data (snd q))) <= Z.of_nat (mw_data w)) by (apply (widest_map 0 (fun q => text (fs_data (snd q))) v q I)).
      assert (B2 : len (print_dec (fs_source_id (snd q))) <= Z.of_nat (mw_source w)) by (apply (widest_map 0 (fun q => print_dec (fs_source_id (snd q))) v q I)).
      assert (B3 : Z.of_nat (mw_source w) <= 11) by (apply widest_map_bound; [lia|]; intros x Ix; apply dec_bound32; apply (P x Ix)).
      rewrite data_cell_ok by (unfold mw in M'; lia). cbn [obind]. replace (32 <? Z.of_nat (mw_source w)) with false by lia. rewrite source_cell_ok by assumption. cbn [obind].
      rewrite !fmt_d_ok, fmt_s_ok by (unfold mw in M'; lia).
      change (cells [Ok ?c1; Ok ?c2; Ok ?c3; Ok ?c4; Ok ?c5]) with (cells (map Ok [c1; c2; c3; c4; c5])). rewrite cells_ok. reflexivity.
    + change (len META_HEADER) with 51. change (len META_COLUMNS) with 53. subst n. lia.
Qed.
Print Assumptions C36_metadata_table.
