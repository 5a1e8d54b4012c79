From Verif Require Import CBase CBaseProofs TocModel SpecToc SortProofs.
From Coq Require Import Sorting.Permutation Sorting.Sorted ZifyBool.

Definition range_wf (r : range) : Prop := 0 <= rg_start r /\ 0 < rg_count r /\ rg_start r + rg_count r <= 2^31.

Lemma range_end_wf r : range_wf r -> range_end r = rg_start r + rg_count r - 1.
Proof.
  unfold range_wf, range_end. intros H. destruct (Z.eqb_spec (rg_count r) 0); [lia|].
  apply u32_small. lia.
Qed.

(** Merging two ranges whose starts are ordered. *)
Lemma merge_two_some a b m :
  range_wf a -> range_wf b -> rg_start a <= rg_start b -> merge_two a b = Some m ->
  range_wf m /\ rg_start m = rg_start a /\ (forall n, range_covers m n <-> range_covers a n \/ range_covers b n).
Proof.
  intros Ha Hb Hab. unfold merge_two.
  rewrite (range_end_wf a Ha), (range_end_wf b Hb).
  assert (Ea : range_end (mkRange (Z.min (rg_start a) (rg_start b)) (rg_count a)) = rg_start a + rg_count a - 1).
  { rewrite Z.min_l by lia. destruct a as [s c]. apply (range_end_wf (mkRange s c) Ha). }
  rewrite Ea. clear Ea. cbn [rg_start rg_count]. unfold range_wf in *.
  rewrite (Z.min_l (rg_start a)) by lia.
  rewrite !u32_small by lia.
  intro H. destruct (_ || _) eqn:E in H; [discriminate|]. injection H as <-.
  unfold range_covers; cbn [rg_start rg_count].
  split; [lia|]. split; [lia|]. intro n. lia.
Qed.

Lemma merge_two_none a b :
  range_wf a -> range_wf b -> rg_start a <= rg_start b -> merge_two a b = None ->
  rg_start a + rg_count a < rg_start b.
Proof.
  intros Ha Hb Hab. unfold merge_two.
  rewrite (range_end_wf a Ha), (range_end_wf b Hb). unfold range_wf in *.
  rewrite !(u32_small (_ - 1 + 1)) by lia.
  destruct (_ || _) eqn:E; [|discriminate]. lia.
Qed.

Definition sep_rev (l : list range) := StronglySorted (fun b a => rg_start a + rg_count a < rg_start b) l.

Lemma merge_fold l : forall acc,
  acc <> [] -> Forall range_wf acc -> Forall range_wf l -> sep_rev acc ->
  StronglySorted (fun x y => rg_start x <= rg_start y) l ->
  (forall last rest, acc = last :: rest -> Forall (fun r => rg_start last <= rg_start r) l) ->
  let res := fold_left merge_step l acc in
  Forall range_wf res /\ sep_rev res /\
  (forall n, Exists (fun r => range_covers r n) res <->
             Exists (fun r => range_covers r n) acc \/ Exists (fun r => range_covers r n) l).
Proof.
  induction l as [|c l IH]; intros acc Hne Hacc Hl Hsep Hsort Hlast; cbn.
  - split; [assumption|]. split; [assumption|]. intro n. split; [auto|]. intros [H|H]; [exact H|inversion H].
  - destruct acc as [|last rest]; [contradiction|].
    inversion Hl as [|? ? Hc Hl']; subst. inversion Hacc as [|? ? Hla Hre]; subst.
    inversion Hsort as [|? ? Hsl Hcs]; subst. inversion Hsep as [|? ? Hsr Hlr]; subst.
    specialize (Hlast last rest eq_refl). inversion Hlast as [|? ? Hlc Hll]; subst.
    cbn [merge_step]. destruct (merge_two last c) as [m|] eqn:E.
    + destruct (merge_two_some _ _ _ Hla Hc Hlc E) as (Hm & Hms & Hcov).
      destruct (IH (m :: rest)) as (R1 & R2 & R3).
      * discriminate.
      * constructor; assumption.
      * assumption.
      * constructor; [assumption|]. eapply Forall_impl; [|exact Hlr]. cbn. intros a Ha. lia.
      * assumption.
      * intros last0 rest0 [= <- <-]. eapply Forall_impl; [|exact Hll]. cbn. intros a Ha. lia.
      * split; [assumption|]. split; [assumption|]. intro n. rewrite R3, !Exists_cons, Hcov. tauto.
    + pose proof (merge_two_none _ _ Hla Hc Hlc E) as Hgap.
      destruct (IH (c :: last :: rest)) as (R1 & R2 & R3).
      * discriminate.
      * constructor; [assumption|]. constructor; assumption.
      * assumption.
      * constructor; [assumption|]. constructor; [exact Hgap|].
        eapply Forall_impl; [|exact Hlr]. cbn. intros a Ha. unfold range_wf in *. lia.
      * assumption.
      * intros ? ? [= <- <-]. assumption.
      * split; [assumption|]. split; [assumption|]. intro n. rewrite R3, !Exists_cons. tauto.
Qed.

Lemma range_gt_asym x y : range_gt x y = true -> range_gt y x = false.
Proof. unfold range_gt. lia. Qed.
Lemma range_ngt_trans x y z : range_gt x y = false -> range_gt y z = false -> range_gt x z = false.
Proof. unfold range_gt. lia. Qed.

Lemma Exists_perm {A} (P : A -> Prop) l l' : Permutation l l' -> Exists P l -> Exists P l'.
Proof. intros H E. rewrite Exists_exists in *. destruct E as (x & Hx & Px). exists x. split; [|exact Px]. eapply Permutation_in; eauto. Qed.

Lemma merge_ranges_spec l :
  Forall range_wf l ->
  StronglySorted (fun a b => rg_start a + rg_count a < rg_start b) (merge_ranges l) /\
  Forall range_wf (merge_ranges l) /\
  (forall n, Exists (fun r => range_covers r n) (merge_ranges l) <-> Exists (fun r => range_covers r n) l).
Proof.
  intro Hwf. destruct l as [|x [|y l]].
  - cbn. repeat split; auto; constructor.
  - cbn. repeat split; auto; repeat constructor.
  - unfold merge_ranges.
    pose proof (insertion_sort_perm range_gt (x :: y :: l)) as HP.
    pose proof (insertion_sort_sorted range_gt range_gt_asym range_ngt_trans (x :: y :: l)) as HS.
    destruct (insertion_sort range_gt (x :: y :: l)) as [|h t] eqn:E.
    + apply Permutation_nil in HP. discriminate.
    + assert (Hwf' : Forall range_wf (h :: t)).
      { rewrite Forall_forall in *. intros z Hz. apply Hwf. eapply Permutation_in; eauto. }
      inversion Hwf' as [|? ? Hh Ht]; subst. inversion HS as [|? ? HS1 HS2]; subst.
      destruct (merge_fold t [h]) as (R1 & R2 & R3).
      * discriminate.
      * constructor; [exact Hh|constructor].
      * exact Ht.
      * repeat constructor.
      * eapply (StronglySorted_ind (fun l => StronglySorted (fun x y => rg_start x <= rg_start y) l)) in HS1.
        -- exact HS1.
        -- constructor.
        -- intros a l0 _ IHl Ha. constructor; [exact IHl|]. eapply Forall_impl; [|exact Ha]. unfold range_gt. lia.
      * intros ? ? [= <- <-]. eapply Forall_impl; [|exact HS2]. unfold range_gt. lia.
      * cbn zeta in *. split; [|split].
        -- apply (sorted_rev _ _ R2).
        -- apply Forall_rev, R1.
        -- intro n. split; intro H.
           ++ apply (Exists_perm _ _ _ HP). apply Exists_exists in H as (r & Hr & Hc).
              rewrite <- in_rev in Hr.
              assert (He : Exists (fun r => range_covers r n) (fold_left merge_step t [h])) by (apply Exists_exists; eauto).
              rewrite R3 in He. rewrite !Exists_cons in *. destruct He as [[?|He]|?]; auto. inversion He.
           ++ apply (Exists_perm _ _ _ (Permutation_sym HP)) in H.
              apply (Exists_perm _ _ _ (Permutation_rev _)). rewrite R3. rewrite !Exists_cons in *. tauto.
Qed.

Lemma file_ranges_ok l : Forall frames_ok l ->
  exists rs, file_ranges l = Ok rs /\ Forall range_wf rs /\
    (forall n, Exists (fun r => range_covers r n) rs <-> Exists (fun f => file_occupies f n) l).
Proof.
  induction 1 as [|f l Hf Hl (rs & E & Hwf & Hcov)].
  - exists []. cbn. repeat split; auto; intro H; inversion H.
  - unfold frames_ok in Hf.
    exists (mkRange (f_start_frame f) (f_end_frame f - f_start_frame f + 1) :: rs).
    cbn [file_ranges]. unfold chk32.
    replace (_ && _) with true by lia. cbn [obind]. replace (_ && _) with true by lia. cbn [obind].
    rewrite E. cbn [obind]. rewrite !u32_small by lia. split; [reflexivity|]. split.
    + constructor; [|assumption]. unfold range_wf; cbn. lia.
    + intro n. rewrite !Exists_cons, Hcov. unfold range_covers, file_occupies; cbn.
      split; intros [?|?]; auto; left; lia.
Qed.

Lemma frame_ranges_spec l :
  l <> [] -> Forall frames_ok l ->
  exists rs, frame_ranges (Some (Some l)) = Ok (Some rs) /\
    (forall n, Exists (fun r => range_covers r n) rs <-> Exists (fun f => file_occupies f n) l) /\
    Forall (fun r => 0 < rg_count r) rs /\
    StronglySorted (fun a b => rg_start a + rg_count a < rg_start b) rs.
Proof.
  intros Hne Hl. destruct (file_ranges_ok l Hl) as (rs & E & Hwf & Hcov).
  exists (merge_ranges rs). destruct (merge_ranges_spec rs Hwf) as (M1 & M2 & M3).
  split.
  - destruct l as [|f l]; [contradiction|].
    change (frame_ranges (Some (Some (f :: l)))) with (obind (file_ranges (f :: l)) (fun rs => Ok (Some (merge_ranges rs)))).
    rewrite E. reflexivity.
  - repeat split; [|  |eapply Forall_impl; [|exact M2]; unfold range_wf; lia|assumption];
    intro H; [apply Hcov, M3, H|apply M3, Hcov, H].
Qed.
