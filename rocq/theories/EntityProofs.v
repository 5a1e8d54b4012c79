(** The entity table: sorted, and the binary search finds exactly its entries. *)
From Verif Require Import CBase CBaseProofs XmlEntity.

Lemma strcmp_lt_trans a b c : strcmp a b < 0 -> strcmp b c < 0 -> strcmp a c < 0.
Proof.
  intros H1 H2.
  assert (H : strcmp a c <= 0) by (apply (strcmp_le_trans a b c); lia).
  assert (strcmp a c <> 0); [|lia].
  intro E. apply strcmp_eq in E. subst c. rewrite strcmp_antisym in H2. lia.
Qed.

Definition N := Z.of_nat (List.length entities).
Definition sorted_at (i : Z) : bool := strcmp (fst (entity_at i)) (fst (entity_at (i + 1))) <? 0.
Lemma table_sorted : forallb (fun i => sorted_at (Z.of_nat i)) (seq 0 (pred (List.length entities))) = true.
Proof. vm_compute. reflexivity. Qed.
Lemma N_val : N = 257. Proof. vm_compute. reflexivity. Qed.
Lemma sorted_succ i : 0 <= i < N - 1 -> strcmp (fst (entity_at i)) (fst (entity_at (i + 1))) < 0.
Proof.
  intro H. pose proof table_sorted as T. rewrite forallb_forall in T.
  specialize (T (Z.to_nat i)). rewrite Z2Nat.id in T by lia.
  unfold sorted_at in T. apply Z.ltb_lt, T. apply in_seq. unfold N in H. lia.
Qed.
Lemma sorted_lt i j : 0 <= i -> i < j -> j < N -> strcmp (fst (entity_at i)) (fst (entity_at j)) < 0.
Proof.
  intros Hi Hij Hj. remember (Z.to_nat (j - i - 1)) as n eqn:En. revert j Hij Hj En.
  induction n as [|n IH]; intros j Hij Hj En.
  - replace j with (i + 1) by lia. apply sorted_succ. lia.
  - apply strcmp_lt_trans with (fst (entity_at (j - 1))); [apply IH; lia|].
    replace j with (j - 1 + 1) at 2 by lia. apply sorted_succ. lia.
Qed.

(** [name] occurs at an index only inside the current window. *)
Lemma search_spec fuel name first last :
  0 <= first -> first < last -> last < N -> (Z.to_nat (last - first) <= fuel)%nat ->
  (forall i, 0 <= i < N -> fst (entity_at i) = name -> first <= i <= last) ->
  match entity_search fuel name first last with
  | inl v => exists i, 0 <= i < N /\ entity_at i = (name, v)
  | inr (f, l) => 0 <= f < N /\ 0 <= l < N /\
                  forall i, 0 <= i < N -> fst (entity_at i) = name -> i = f \/ i = l
  end.
Proof.
  revert first last; induction fuel as [|fuel IH]; intros first last H0 H1 H2 Hf Hw; [lia|].
  cbn [entity_search]. destruct (1 <? last - first) eqn:E; [|apply Z.ltb_ge in E].
  - apply Z.ltb_lt in E. set (cur := Z.quot (first + last) 2).
    assert (Hc : first < cur < last).
    { unfold cur. rewrite Z.quot_div_nonneg by lia.
      pose proof (Z.div_mod (first + last) 2). pose proof (Z.mod_pos_bound (first + last) 2). lia. }
    destruct (strcmp name (fst (entity_at cur)) =? 0) eqn:E0.
    + apply Z.eqb_eq, strcmp_eq in E0. exists cur. split; [lia|].
      rewrite E0. destruct (entity_at cur); reflexivity.
    + apply Z.eqb_neq in E0. destruct (strcmp name (fst (entity_at cur)) <? 0) eqn:E1.
      * apply Z.ltb_lt in E1. apply IH; try lia. intros i Hi En. specialize (Hw i Hi En).
        destruct (Z_le_gt_dec i cur); [lia|exfalso].
        pose proof (sorted_lt cur i ltac:(lia) ltac:(lia) ltac:(lia)) as S. rewrite En in S.
        rewrite strcmp_antisym in S. lia.
      * apply Z.ltb_ge in E1. apply IH; try lia. intros i Hi En. specialize (Hw i Hi En).
        destruct (Z_le_gt_dec cur i); [lia|exfalso].
        pose proof (sorted_lt i cur ltac:(lia) ltac:(lia) ltac:(lia)) as S. rewrite En in S. lia.
  - split; [lia|]. split; [lia|]. intros i Hi En. specialize (Hw i Hi En). lia.
Qed.

Lemma entity_at_in i : 0 <= i < N -> In (entity_at i) entities.
Proof. intro H. unfold entity_at. apply nth_In. unfold N in H. lia. Qed.
Lemma entity_in_at e : In e entities -> exists i, 0 <= i < N /\ entity_at i = e.
Proof.
  intro H. apply In_nth with (d := ([], -1)) in H. destruct H as (k & Hk & E).
  exists (Z.of_nat k). unfold entity_at. rewrite Nat2Z.id. unfold N. split; [lia|exact E].
Qed.

Theorem entity_value_found name v : In (name, v) entities -> entity_value name = v.
Proof.
  intro H. destruct (entity_in_at _ H) as (i & Hi & Ei).
  assert (U : forall j, 0 <= j < N -> fst (entity_at j) = name -> j = i).
  { intros j Hj Ej. destruct (Z_lt_le_dec j i).
    - pose proof (sorted_lt j i ltac:(lia) ltac:(lia) ltac:(lia)) as S. rewrite Ej, Ei in S. cbn in S.
      assert (strcmp name name = 0) by now apply strcmp_eq. lia.
    - destruct (Z_lt_le_dec i j); [|lia].
      pose proof (sorted_lt i j ltac:(lia) ltac:(lia) ltac:(lia)) as S. rewrite Ej, Ei in S. cbn in S.
      assert (strcmp name name = 0) by now apply strcmp_eq. lia. }
  unfold entity_value. fold N.
  pose proof (search_spec (List.length entities) name 0 (N - 1)) as S.
  rewrite N_val in S at 1. specialize (S ltac:(lia) ltac:(lia) ltac:(lia)).
  assert (HN : N = Z.of_nat (List.length entities)) by reflexivity.
  specialize (S ltac:(lia) ltac:(intros; lia)).
  destruct (entity_search _ _ _ _) as [w|[f l]].
  - destruct S as (j & Hj & Ej). assert (j = i) by (apply U; [lia|now rewrite Ej]).
    subst j. rewrite Ei in Ej. congruence.
  - destruct S as (Hf & Hl & S). specialize (S i Hi). rewrite Ei in S. specialize (S eq_refl).
    destruct (str_eqb name (fst (entity_at f))) eqn:E1.
    + apply str_eqb_eq in E1. assert (f = i) by (apply U; [lia|congruence]). subst f. now rewrite Ei.
    + destruct S as [->| ->]; [rewrite Ei in E1; cbn in E1; now rewrite str_eqb_refl in E1|].
      rewrite Ei. cbn. now rewrite str_eqb_refl.
Qed.

Theorem entity_value_missing name : (forall v, ~ In (name, v) entities) -> entity_value name = -1.
Proof.
  intro H. unfold entity_value. fold N.
  pose proof (search_spec (List.length entities) name 0 (N - 1)) as S.
  rewrite N_val in S at 1. specialize (S ltac:(lia) ltac:(lia) ltac:(lia)).
  assert (HN : N = Z.of_nat (List.length entities)) by reflexivity.
  specialize (S ltac:(lia) ltac:(intros; lia)).
  assert (K : forall i, 0 <= i < N -> str_eqb name (fst (entity_at i)) = false).
  { intros i Hi. apply str_eqb_neq. intro E. apply (H (snd (entity_at i))). rewrite E.
    pose proof (entity_at_in i Hi). now destruct (entity_at i). }
  destruct (entity_search _ _ _ _) as [w|[f l]].
  - destruct S as (j & Hj & Ej). exfalso. apply (H w). rewrite <- Ej. now apply entity_at_in.
  - destruct S as (Hf & Hl & _). now rewrite (K f Hf), (K l Hl).
Qed.

Lemma table_values : forallb (fun e => 0 <? snd e) entities = true.
Proof. vm_compute. reflexivity. Qed.
Theorem entity_value_iff name v : (entity_value name = v /\ v <> -1) <-> In (name, v) entities.
Proof.
  split.
  - intros (E & Hv). destruct (in_dec (list_eq_dec Z.eq_dec) name (map fst entities)) as [I|I].
    + apply in_map_iff in I. destruct I as ((n & w) & <- & I). cbn in *.
      rewrite (entity_value_found _ _ I) in E. now subst.
    + exfalso. apply Hv. rewrite <- E. apply entity_value_missing. intros w Hw. apply I.
      apply in_map_iff. now exists (name, w).
  - intro H. split; [now apply entity_value_found|].
    pose proof table_values as T. rewrite forallb_forall in T. specialize (T _ H). cbn in T. lia.
Qed.
