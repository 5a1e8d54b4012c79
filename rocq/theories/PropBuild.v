(** C58: building a table of contents; C59: layouts with equal sections; C43, C24, C28: the remaining
    accessors. *)
From Verif Require Import CBase CBaseProofs TocModel SpecToc ValidProofs EqualProofs BuildModel SpecBuild BuildProofs.
From Coq Require Import ZifyBool.

(** Every history of calls on a new table of contents behaves as the same history on a book: same
    answers, same strings, counts and elements; and the table is valid exactly when it is named. *)
Theorem C58_history version index job reel l : limits l ->
  exists t answers b, calls (mkToc version index job reel None None None) l = Ok (t, answers) /\
    history (empty_book version index job reel) l answers b /\ shows t b /\ (toc_is_valid t = true <-> named b).
Proof.
  intros (L & F). destruct (calls_history l (mkToc version index job reel None None None) (empty_book version index job reel) F) as (t & answers & b & E & H & V).
  { constructor; cbn; try reflexivity; try lia; repeat constructor. }
  exists t, answers, b. split; [exact E|]. split; [exact H|]. exact (inv_shows _ _ _ _ V).
Qed.
Print Assumptions C58_history.
(** The rules leave no choice: the answers and the book are determined by the calls (stated for
    histories without frame offsets, for which an empty file list has two representations). *)
Lemma leading_fun cur l o1 f1 : leading cur l o1 f1 -> forall o2 f2, leading cur l o2 f2 -> o1 = o2 /\ f1 = f2.
Proof. induction 1; intros o2 f2 H2; inversion H2; subst; auto; try contradiction. Qed.
Theorem C58_answers_determined b l a1 b1 : history b l a1 b1 -> forall a2 b2, history b l a2 b2 ->
  (forall o, In o l -> match o with AddFrameOffset _ _ => False | _ => True end) -> a1 = a2 /\ b1 = b2.
Proof.
  induction 1 as [b|b o ok b1 l answers b2 D _ IH]; intros a2 b3 H2 N; inversion H2 as [|? ? ok' b1' ? answers' ? D' H' E1]; subst; [auto|].
  assert (Q : ok = ok' /\ b1 = b1').
  { specialize (N o (or_introl eq_refl)). destruct D; inversion D'; subst; auto; try contradiction; try (exfalso; tauto);
      match goal with H1 : leading _ _ _ _, H2 : leading _ _ _ _ |- _ => destruct (leading_fun _ _ _ _ H1 _ _ H2) as (-> & ->); auto end. }
  destruct Q as (-> & ->). destruct (IH _ _ H') as (-> & ->); [|auto]. intros x Hx. apply N. now right.
Qed.
Print Assumptions C58_answers_determined.
(** A concrete history: a good and a bad reel, a source, the same layout twice, an offset. *)
Definition ex_hist : list op :=
  let f := mkFile (Some [97]) (Some [98]) (Some [99]) 10 1 5 0 6 9 None (-2) 1 None None None in
  let d := mkLayoutDef (Some [49]) (Some [110]) (Some (Some [mkSection 1 0 0 10 10 0])) in
  [AddReel (mkReel (Some [49]) (Some (Some [f]))); AddReel (mkReel None None); AddSource (mkMsource (Some [49]) (-1) 3 None None);
   AddLayout d; AddLayouts (Some [d]); SetIndexType (Some (s2z "reel")); AddFrameOffset 10 1].
Example C58_witness : limits ex_hist /\
  match calls (mkToc (Some [49]) None (Some [49]) (Some [50]) None None None) ex_hist with
  | Ok (t, answers) => answers = [true; false; true; true; false; true; true] /\ toc_is_valid t = true /\ toc_reel_count t = 1 /\
      option_map (fun r => map f_start_frame (files_of r)) (toc_reel_by_index t 0) = Some [15]
  | UB => False
  end.
Proof.
  split; [|vm_compute; auto]. split; [vm_compute; reflexivity|]. unfold ex_hist. change (total_offset _) with 10.
  repeat (apply Forall_cons; [cbn [op_fits]|]); try apply Forall_nil; try exact Logic.I; try lia.
  - split; [unfold few; cbn; lia|]. constructor; [|constructor]. split; [unfold few; cbn; lia|]. unfold offset_fits, is_i32; cbn. repeat (split; [lia|]). intros pv E; discriminate E.
  - split; [unfold few; cbn; lia|]. constructor.
  - unfold fits, is_u32; cbn. lia.
  - unfold fits, is_u32; cbn. lia.
Qed.

(** C43: every list. An index is an unsigned number. *)
Theorem C43_every_list i : 0 <= i ->
  (forall v, ranges_get (Some v) i = nth_error (listed v) (Z.to_nat i)) /\
  (forall v, sections_get (Some v) i = nth_error (listed v) (Z.to_nat i)) /\
  (forall v, layout_defs_get (Some v) i = nth_error (listed v) (Z.to_nat i)) /\
  (forall v, fmetadata_get (Some v) i = nth_error (listed v) (Z.to_nat i)) /\
  (forall v, metadata_get (Some v) i = nth_error (listed v) (Z.to_nat i)) /\
  (forall p, preview_get_page (Some p) i = nth_error (pages_of p) (Z.to_nat i)) /\
  (forall v, files_get (Some v) i = nth_error (listed v) (Z.to_nat i)) /\
  (forall v, reels_get (Some v) i = nth_error (listed v) (Z.to_nat i)).
Proof.
  intro Hi. repeat match goal with |- _ /\ _ => split end; intros v; unfold ranges_get, sections_get, layout_defs_get, fmetadata_get, metadata_get, preview_get_page, files_get, reels_get; rewrite (vec_get_nth _ i Hi); reflexivity.
Qed.
Print Assumptions C43_every_list.
(** The number of elements is reported, so that the indices with an element are those below it. *)
Theorem C43_counts :
  (forall v, few (listed v) -> ranges_count (Some v) = Z.of_nat (List.length (listed v))) /\
  (forall v, few (listed v) -> sections_size (Some v) = Z.of_nat (List.length (listed v))) /\
  (forall v, few (listed v) -> layout_defs_count (Some v) = Z.of_nat (List.length (listed v))) /\
  (forall v, few (listed v) -> fmetadata_count (Some v) = Z.of_nat (List.length (listed v))) /\
  (forall v, few (listed v) -> metadata_count (Some v) = Z.of_nat (List.length (listed v))) /\
  (forall p, few (pages_of p) -> preview_page_count (Some p) = Z.of_nat (List.length (pages_of p))) /\
  (forall v, files_count (Some v) = Z.of_nat (List.length (listed v))) /\
  (forall v, few (listed v) -> reels_count (Some v) = Z.of_nat (List.length (listed v))) /\
  (forall d, few (def_sections d) -> layout_def_section_count d = Z.of_nat (List.length (def_sections d))) /\
  (forall r, few (files_of r) -> reel_file_count r = Z.of_nat (List.length (files_of r))).
Proof.
  unfold few, files_count, ranges_count, sections_size, layout_defs_count, fmetadata_count, metadata_count, preview_page_count, reels_count, layout_def_section_count, reel_file_count, vec_size, def_sections.
  repeat match goal with |- _ /\ _ => split end; intros v; try (intro H; change (vec_list v) with (listed v); apply u32_small; lia); try reflexivity.
  - intro H. change (vec_list (pv_pages v)) with (pages_of v). apply u32_small. lia.
  - intro H. destruct (ld_sections v) as [[l|]|]; cbn [vec_list] in *; [apply u32_small; lia|reflexivity|reflexivity].
  - intro H. rewrite reel_files_of. apply u32_small; lia.
Qed.
Print Assumptions C43_counts.
(** NULL has no elements. *)
Example null_has_no_elements i : ranges_get None i = None /\ sections_get None i = None /\ layout_defs_get None i = None /\ fmetadata_get None i = None /\
  metadata_get None i = None /\ preview_get_page None i = None /\ files_get None i = None /\ reels_get None i = None /\
  ranges_count None = 0 /\ sections_size None = 0 /\ layout_defs_count None = 0 /\ fmetadata_count None = 0 /\ metadata_count None = 0 /\
  preview_page_count None = 0 /\ files_count None = 0 /\ reels_count None = 0.
Proof. repeat split. Qed.
(** Frame ranges are stored in the order they are added, all of them. *)
Theorem C43_ranges_history l : run ranges_add None l = (match l with [] => None | _ => Some l end, map (fun _ => true) l).
Proof.
  assert (G : forall l v, run ranges_add v l = (match l with [] => v | _ => Some (listed v ++ l) end, map (fun _ => true) l)).
  { clear l. induction l as [|x l IH]; intro v; [reflexivity|]. cbn [run ranges_add map]. rewrite IH. unfold vec_append. destruct l; [reflexivity|]. cbn [listed]. rewrite <- app_assoc. reflexivity. }
  rewrite G. destruct l; reflexivity.
Qed.
Print Assumptions C43_ranges_history.
Example C43_lists_witness : few [1;2] /\ ranges_get (Some (Some [mkRange 1 2; mkRange 5 6])) 1 = Some (mkRange 5 6) /\ ranges_get (Some (Some [mkRange 1 2; mkRange 5 6])) 2 = None.
Proof. split; [unfold few; cbn; lia|]. vm_compute; auto. Qed.

(** C24: ranges are equal exactly when they are the same, and "not equal" is the opposite of "equal". *)
Theorem C24_ranges : (forall a b, range_equal a b = true <-> a = b) /\ (forall a b, ranges_equal a b = true <-> a = b).
Proof.
  assert (R : forall a b, range_equal a b = true <-> a = b).
  { intros [a1 a2] [b1 b2]. unfold range_equal; cbn. split; [intro H; f_equal; lia|intro H; injection H as -> ->; lia]. }
  split; [exact R|]. intros [a|] [b|]; cbn; try (split; congruence).
  enough (list_equal range_equal a b = true <-> a = b) as -> by (split; congruence). revert b.
  induction a as [|x a IH]; intros [|y b]; cbn; try (split; congruence). rewrite andb_true_iff, R, IH. split; [intros (-> & ->); reflexivity|intro H; injection H as -> ->; auto].
Qed.
Print Assumptions C24_ranges.
Theorem C24_not_equal a b : file_not_equal (Some a) (Some b) = true <-> norm_file a <> norm_file b.
Proof. rewrite <- (proj1 (proj2 (proj2 (proj2 (proj2 (proj2 (proj2 equal_means_same_fields))))))). unfold file_not_equal. cbn [ptr_equal]. destruct (file_equal a b); intuition congruence. Qed.
Print Assumptions C24_not_equal.

(** C28: adding a type makes the file one of that type and keeps the others. *)
Theorem C28_add_type f t : let g := file_add_type f t in
  (forall i, Z.testbit (f_types g) i = (Z.testbit (f_types f) i || Z.testbit t i)%bool) /\
  file_is_digital g = (file_is_digital f || Z.testbit t 0)%bool /\ file_is_preview g = (file_is_preview f || Z.testbit t 1)%bool /\
  file_add_type f (f_types f) = f /\ norm_file (mkFile (f_name g) (f_date g) (f_checksum g) (f_size g) (f_id g) (f_start_frame g) (f_start_byte g) (f_end_frame g)
     (f_end_byte g) (f_unique_id g) (f_parent_id g) (f_types f) (f_preview g) (f_file_format g) (f_metadata g)) = norm_file f.
Proof.
  cbv zeta. unfold file_is_digital, file_is_preview, TYPE_DIGITAL, TYPE_PREVIEW. rewrite !set_bit_testbit0, !set_bit_testbit1. cbn [file_add_type f_types].
  split; [intro i; apply Z.lor_spec|]. split; [apply Z.lor_spec|]. split; [apply Z.lor_spec|]. split; [|reflexivity]. destruct f; unfold file_add_type; cbn. now rewrite Z.lor_diag.
Qed.
Print Assumptions C28_add_type.

(** C59: the question whether all sections of a layout have the same size. *)
Theorem C59_same_sizes d : few (def_sections d) -> exists b, layout_def_same_sizes d = Ok b /\
  (b = true <-> forall s u, In s (def_sections d) -> In u (def_sections d) -> s_width s = s_width u /\ s_height s = s_height u).
Proof.
  intro F. pose proof F as F'. unfold few in F'. unfold layout_def_same_sizes. rewrite (proj1 (proj2 (proj2 (proj2 (proj2 (proj2 (proj2 (proj2 (proj2 C43_counts)))))))) d F).
  assert (G : forall i, 0 <= i -> layout_def_get_section d i = nth_error (def_sections d) (Z.to_nat i)).
  { intros i Hi. unfold layout_def_get_section. now rewrite (vec_get_nth _ i Hi). }
  destruct (Z.of_nat (List.length (def_sections d)) <=? 1) eqn:Q.
  { exists true. split; [reflexivity|]. split; [|auto]. intros _ s u Is Iu. destruct (def_sections d) as [|x [|y l]]; [destruct Is| |cbn in Q; lia]. destruct Is as [<-|[]], Iu as [<-|[]]. auto. }
  rewrite (G 0) by lia. destruct (def_sections d) as [|x l] eqn:E; [cbn in Q; lia|]. cbn [Z.to_nat nth_error].
  assert (L : forall k i, Z.of_nat (List.length (firstn i (x :: l))) = Z.of_nat i -> skipn i (x :: l) = k ->
    exists b, same_sizes x d (Z.of_nat i) (List.length k) = Ok b /\ (b = true <-> forall u, In u k -> s_width x = s_width u /\ s_height x = s_height u)).
  { induction k as [|y k IH]; intros i Hi Hk; [exists true; split; [reflexivity|]; split; [intros _ u []|auto]|].
    cbn [List.length same_sizes]. rewrite G, Nat2Z.id by lia.
    assert (N : nth_error (x :: l) i = Some y) by (rewrite <- (firstn_skipn i (x :: l)), Hk, nth_error_app2 by lia; replace (i - List.length (firstn i (x :: l)))%nat with 0%nat by lia; reflexivity).
    rewrite N. destruct (negb (s_width x =? s_width y) || negb (s_height x =? s_height y)) eqn:W.
    - exists false. split; [reflexivity|]. split; [discriminate|]. intro H. specialize (H y (or_introl eq_refl)). lia.
    - replace (Z.of_nat i + 1) with (Z.of_nat (S i)) by lia. destruct (IH (S i)) as (b & E' & K).
      + assert (i < List.length (x :: l))%nat by (apply nth_error_Some; congruence). rewrite firstn_length. lia.
      + change (skipn (S i) (x :: l)) with (skipn i l). assert (T : skipn 1 (skipn i (x :: l)) = k) by (rewrite Hk; reflexivity). rewrite <- T. clear. revert x l. induction i; intros x l; [reflexivity|]. destruct l as [|z l]; [destruct i; reflexivity|]. cbn [skipn]. apply (IHi z l).
      + exists b. split; [exact E'|]. rewrite K. split; [intros H u [<-|Iu]; [lia|auto]|intros H u Iu; apply H; now right]. }
  destruct (L l 1%nat) as (b & E' & K); [reflexivity|reflexivity|]. exists b. split.
  - replace (Z.to_nat (Z.of_nat (List.length (x :: l)) - 1)) with (List.length l) by (cbn [List.length]; lia). exact E'.
  - rewrite K. split.
    + intros H s u Is Iu. assert (H' : forall w, In w (x :: l) -> s_width x = s_width w /\ s_height x = s_height w) by (intros w [<-|Iw]; [auto|now apply H]).
      pose proof (H' s Is). pose proof (H' u Iu). split; lia || (destruct (H' s Is), (H' u Iu); congruence).
    + intros H u Iu. apply H; [now left|now right].
Qed.
Print Assumptions C59_same_sizes.
Example C59_witness :
  layout_def_same_sizes (mkLayoutDef None None (Some (Some [mkSection 1 0 0 5 6 0; mkSection 2 9 0 5 6 0]))) = Ok true /\
  layout_def_same_sizes (mkLayoutDef None None (Some (Some [mkSection 1 0 0 5 6 0; mkSection 2 9 0 6 5 90]))) = Ok false.
Proof. split; reflexivity. Qed.
