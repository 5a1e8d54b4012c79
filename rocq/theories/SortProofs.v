(** Insertion sort as written in the library sorts and permutes. *)
From Verif Require Import CBase TocModel.
From Coq Require Import Sorting.Permutation Sorting.Sorted.

Section Sort.
  Context {A : Type} (gt : A -> A -> bool).
  Hypothesis gt_asym : forall x y, gt x y = true -> gt y x = false.
  Hypothesis ngt_trans : forall x y z, gt x y = false -> gt y z = false -> gt x z = false.

  Lemma insert_back_perm x l : Permutation (insert_back gt x l) (x :: l).
  Proof.
    induction l as [|y l IH]; cbn; [reflexivity|]. destruct (gt y x); [|reflexivity].
    etransitivity; [apply perm_skip, IH|apply perm_swap].
  Qed.

  (* reversed prefix: descending *)
  Definition desc (l : list A) := StronglySorted (fun y x => gt x y = false) l.

  Lemma insert_back_desc x l : desc l -> desc (insert_back gt x l).
  Proof.
    unfold desc. induction l as [|y l IH]; intro H; cbn; [repeat constructor|].
    inversion H as [|? ? Hl Hy]; subst. destruct (gt y x) eqn:E.
    - constructor; [apply IH, Hl|].
      rewrite Forall_forall in *. intros z Hz.
      apply (Permutation_in _ (insert_back_perm x l)) in Hz as [<-|Hz]; [|apply Hy, Hz].
      apply gt_asym, E.
    - constructor; [exact H|]. constructor; [exact E|].
      rewrite Forall_forall in *. intros z Hz. apply ngt_trans with y; [apply Hy, Hz|exact E].
  Qed.

  Lemma fold_insert_perm l acc : Permutation (fold_left (fun a x => insert_back gt x a) l acc) (l ++ acc).
  Proof.
    revert acc; induction l as [|x l IH]; intro acc; cbn; [reflexivity|].
    rewrite IH, insert_back_perm. symmetry. apply Permutation_middle.
  Qed.
  Lemma fold_insert_desc l acc : desc acc -> desc (fold_left (fun a x => insert_back gt x a) l acc).
  Proof. revert acc; induction l as [|x l IH]; intros acc H; cbn; [exact H|]. apply IH, insert_back_desc, H. Qed.

  Lemma insertion_sort_perm l : Permutation (insertion_sort gt l) l.
  Proof.
    unfold insertion_sort. rewrite <- Permutation_rev, fold_insert_perm, app_nil_r. reflexivity.
  Qed.


  Lemma sorted_app (R : A -> A -> Prop) l1 l2 :
    StronglySorted R l1 -> StronglySorted R l2 -> (forall x y, In x l1 -> In y l2 -> R x y) ->
    StronglySorted R (l1 ++ l2).
  Proof.
    induction l1 as [|x l1 IH]; intros H1 H2 H; cbn; [exact H2|].
    inversion H1; subst. constructor.
    - apply IH; auto. intros; apply H; [right|]; assumption.
    - apply Forall_app. split; [assumption|]. apply Forall_forall. intros y Hy. apply H; [left; reflexivity|exact Hy].
  Qed.
  Lemma sorted_rev (R : A -> A -> Prop) l :
    StronglySorted R l -> StronglySorted (fun x y => R y x) (rev l).
  Proof.
    induction 1 as [|x l Hl IH Hx]; cbn; [constructor|].
    apply sorted_app; [exact IH|repeat constructor|].
    intros a b Ha [<-|[]]. rewrite <- in_rev in Ha. rewrite Forall_forall in Hx. apply Hx, Ha.
  Qed.

  Lemma insertion_sort_sorted l : StronglySorted (fun x y => gt x y = false) (insertion_sort gt l).
  Proof. apply sorted_rev. apply fold_insert_desc. constructor. Qed.
End Sort.
