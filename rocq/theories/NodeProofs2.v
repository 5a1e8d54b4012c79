(** Insertion, removal and deletion preserve documents. *)
From Verif Require Import CBase NodeModel SpecNode NodeProofs.
From Coq Require Import Permutation.

Section P.
Context {V : Type}.
Implicit Types (h : nheap V) (t : dtree V) (l r : list (dtree V)).

Lemma NoDup_app_iff (A : Type) (l1 l2 : list A) :
  NoDup (l1 ++ l2) <-> NoDup l1 /\ NoDup l2 /\ (forall x, In x l1 -> ~ In x l2).
Proof.
  induction l1 as [|x l1 IH]; cbn; [split; [intro; repeat split; auto; constructor|tauto]|].
  rewrite !NoDup_cons_iff, IH, in_app_iff. split.
  - intros (H1 & H2 & H3 & H4). repeat split; auto. intros y [<-|Hy]; auto.
  - intros ((H1 & H2) & H3 & H4). split; [|split; [exact H2|split; [exact H3|]]].
    + intros [?|?]; [auto|]. apply (H4 x); auto.
    + intros y Hy. apply H4. auto.
Qed.
Lemma modify_at h a c (f : cell V -> cell V) : h a = Some c -> modify h a f = Ok (upd h a (Some (f c))).
Proof. intro H. unfold modify, get. rewrite H. reflexivity. Qed.
Lemma last_snoc l : l <> [] -> exists l1 t, l = l1 ++ [t].
Proof. intro H. destruct (exists_last H) as (l1 & t & E). eauto. Qed.
Lemma same_refl x : same (Some x) (Some x) = true.
Proof. cbn. apply Nat.eqb_refl. Qed.
Lemma same_neq x y : x <> y -> same (Some x) (Some y) = false.
Proof. cbn. apply Nat.eqb_neq. Qed.

(** Setting the prev / next link at the end or the beginning of a row. *)
Lemma row_set_next h par prev l nxt nxt' :
  row h par prev l nxt -> NoDup (faddrs l) -> l <> [] ->
  exists q h', last_or l prev = Some q /\ modify h q (set_next nxt') = Ok h' /\ row h' par prev l nxt' /\ In q (faddrs l) /\
    (forall x, x <> q -> h' x = h x).
Proof.
  intros H N Hne. destruct (last_snoc l Hne) as (l1 & t & ->). apply row_app in H as [H1 H2]. cbn [row] in H2. destruct H2 as [H2 _].
  rewrite faddrs_app in N. change (faddrs [t]) with (addrs t ++ []) in N. rewrite app_nil_r in N. apply NoDup_app_iff in N as (N1 & N2 & N3).
  destruct (relink _ _ _ _ par (last_or l1 prev) nxt' t (set_next nxt') H2 N2 ltac:(reflexivity)) as (h' & E & L & F).
  exists (addr t), h'. split; [rewrite last_or_app; reflexivity|]. split; [exact E|]. split; [|split; [|exact F]].
  - apply row_app. split; [|cbn [row]; split; [exact L|exact I]]. eapply row_frame; [|exact H1].
    intros x Hx. apply F. intros ->. apply (N3 (addr t) Hx), addr_in.
  - rewrite faddrs_app. apply in_or_app. right. change (faddrs [t]) with (addrs t ++ []). rewrite app_nil_r. apply addr_in.
Qed.
Lemma row_set_prev h par prev prev' l nxt :
  row h par prev l nxt -> NoDup (faddrs l) -> l <> [] ->
  exists q h', head_or l nxt = Some q /\ modify h q (set_prev prev') = Ok h' /\ row h' par prev' l nxt /\ In q (faddrs l) /\
    (forall x, x <> q -> h' x = h x).
Proof.
  intros H N Hne. destruct l as [|t l]; [contradiction|]. cbn [row] in H. destruct H as [H1 H2].
  change (faddrs (t :: l)) with (addrs t ++ faddrs l) in *. apply NoDup_app_iff in N as (N1 & N2 & N3).
  destruct (relink _ _ _ _ par prev' (head_or l nxt) t (set_prev prev') H1 N1 ltac:(reflexivity)) as (h' & E & L & F).
  exists (addr t), h'. split; [reflexivity|]. split; [exact E|]. split; [|split; [apply in_or_app; left; apply addr_in|exact F]].
  cbn [row]. split; [exact L|]. eapply row_frame; [|exact H2]. intros x Hx. apply F. intros ->. apply (N3 (addr t) (addr_in t) Hx).
Qed.

(** * Inserting a detached tree among the children of a node *)
(** State of the parts before linking. *)
Lemma parts h c p v l r t :
  document h (plug c (D p v (l ++ r))) -> document h t -> (forall x, In x (addrs t) -> ~ In x (addrs (plug c (D p v (l ++ r))))) ->
  h p = Some (mkCell (hpar c) (hprev c) (hnext c) (head_or l (head_or r None)) (last_or r (last_or l None)) v) /\
  row h (Some p) None l (head_or r None) /\ row h (Some p) (last_or l None) r None /\ linked h None None None t /\
  NoDup (p :: addrs t ++ faddrs l ++ faddrs r ++ caddrs c) /\ clinked h c p.
Proof.
  intros [H1 H2] [T1 T2] Dis. pose proof H1 as H1'. apply plug_linked in H1 as [H1 C]. apply linked_eq in H1 as [H3 H4]. apply row_app in H4 as [H4 H5].
  rewrite head_or_app, last_or_app in H3. split; [exact H3|]. split; [exact H4|]. split; [exact H5|]. split; [exact T1|]. split; [|exact C].
  pose proof (plug_addrs c (D p v (l ++ r))) as PA. cbn [addrs] in PA. change (flat_map addrs (l ++ r)) with (faddrs (l ++ r)) in PA.
  rewrite faddrs_app in PA.
  apply (Permutation_NoDup (l := addrs t ++ addrs (plug c (D p v (l ++ r))))).
  - rewrite PA. cbn [app]. rewrite <- Permutation_middle. rewrite !app_assoc. reflexivity.
  - apply NoDup_app_iff. auto.
Qed.
Lemma rebuilt h h' c p v l r l' r' t :
  document h (plug c (D p v (l ++ r))) ->
  h' p = Some (mkCell (hpar c) (hprev c) (hnext c) (head_or l (Some (addr t))) (last_or r (Some (addr t))) v) ->
  row h' (Some p) None l (Some (addr t)) -> linked h' (Some p) (last_or l None) (head_or r None) t -> row h' (Some p) (Some (addr t)) r None ->
  (forall x, In x (caddrs c) -> h' x = h x) ->
  NoDup (p :: addrs t ++ faddrs l ++ faddrs r ++ caddrs c) -> l' = l -> r' = r ->
  document h' (plug c (D p v (l' ++ t :: r'))).
Proof.
  intros H P R1 L R2 F N -> ->. eapply replug; [exact H|reflexivity| |exact F|].
  - apply linked_eq. rewrite head_or_app, last_or_app. cbn [head_or last_or]. split; [exact P|]. apply row_app. cbn [head_or row]. auto.
  - cbn [addrs]. change (flat_map addrs (l ++ t :: r)) with (faddrs (l ++ t :: r)). rewrite faddrs_app.
    change (faddrs (t :: r)) with (addrs t ++ faddrs r). eapply Permutation_NoDup; [|exact N].
    cbn [app]. constructor. rewrite !app_assoc. apply Permutation_app_tail. apply Permutation_app_tail. apply Permutation_app_comm.
Qed.

(** The last position. *)
Lemma link_last h c p v l t :
  document h (plug c (D p v l)) -> document h t -> (forall x, In x (addrs t) -> ~ In x (addrs (plug c (D p v l)))) ->
  exists h', link_after h p None (addr t) = Ok h' /\ document h' (plug c (D p v (l ++ [t]))) /\
    (forall x, ~ In x (addrs t) -> ~ In x (addrs (plug c (D p v l))) -> h' x = h x).
Proof.
  intros H T Dis. pose proof H as H0. rewrite <- (app_nil_r l) in H0, Dis.
  destruct (parts h c p v l [] t H0 T Dis) as (P & R1 & _ & L & N & C). cbn [head_or last_or faddrs flat_map app] in *.
  rewrite app_nil_r in H0.
  apply NoDup_cons_iff in N as (N0 & N). pose proof N as N'. apply NoDup_app_iff in N' as (N1 & N2 & N3). apply NoDup_app_iff in N2 as (N2 & N4 & N5).
  assert (Np : p <> addr t) by (intros ->; apply N0, in_or_app; left; apply addr_in).
  unfold link_after.
  destruct (relink h None None None (Some p) None None t (set_parent (Some p)) L N1 ltac:(reflexivity)) as (h0 & E0 & L0 & F0).
  rewrite E0. cbn [obind]. unfold get at 1. rewrite F0, P by exact Np. cbn [obind c_last].
  destruct (relink h0 _ _ _ (Some p) (last_or l None) None t (set_prev (last_or l None)) L0 N1 ltac:(reflexivity)) as (h1 & E1 & L1 & F1).
  rewrite E1. cbn [obind].
  assert (R1' : row h1 (Some p) None l None).
  { eapply row_frame; [|exact R1]. intros x Hx. assert (x <> addr t) by (intros ->; apply (N3 (addr t) (addr_in t)), in_or_app; auto). rewrite F1, F0; auto. }
  assert (P1 : h1 p = Some (mkCell (hpar c) (hprev c) (hnext c) (head_or l None) (last_or l None) v)) by (rewrite F1, F0, P; auto).
  destruct l as [|t0 l0] eqn:El.
  - cbn [last_or head_or] in *. rewrite (modify_at _ _ _ _ P1). cbn [obind]. rewrite (modify_at _ p (set_child (Some (addr t)) _)) by apply upd_same.
    eexists. split; [reflexivity|]. split.
    + eapply (rebuilt h _ c p v [] [] [] [] t); try reflexivity; [exact H0|rewrite upd_same; reflexivity| | |].
      * eapply linked_frame; [|exact L1]. intros x Hx. assert (x <> p) by (intros ->; apply N0, in_or_app; auto). rewrite !upd_other; auto.
      * intros x Hx. assert (x <> p) by (intros ->; apply N0; rewrite !in_app_iff; auto). assert (x <> addr t) by (intros ->; apply (N3 (addr t) (addr_in t)); exact Hx).
        rewrite !upd_other, F1, F0; auto.
      * cbn. constructor; [exact N0|exact N].
    + intros x X1 X2. assert (x <> addr t) by (intros ->; apply X1, addr_in).
      assert (x <> p). { intros ->. apply X2. eapply Permutation_in; [symmetry; apply plug_addrs|]. left. reflexivity. }
      rewrite !upd_other, F1, F0; auto.
  - rewrite <- El in *. assert (Hne : l <> []) by (rewrite El; discriminate).
    destruct (row_set_next h1 (Some p) None l None (Some (addr t)) R1' N2 Hne) as (q & h2 & Q1 & Q2 & Q3 & Q4 & Q5).
    rewrite Q1, Q2. cbn [obind]. assert (Nqp : p <> q) by (intros ->; apply N0; rewrite !in_app_iff; auto).
    rewrite (modify_at h2 p (mkCell (hpar c) (hprev c) (hnext c) (head_or l None) (last_or l None) v)) by (rewrite Q5; auto).
    eexists. split; [reflexivity|]. split.
    + eapply (rebuilt h _ c p v l [] l [] t); try reflexivity; [rewrite app_nil_r; exact H0| | | | |].
      * rewrite upd_same. unfold set_last. cbn [c_parent c_prev c_next c_child c_val]. rewrite El. reflexivity.
      * eapply row_frame; [|exact Q3]. intros x Hx. apply upd_other. intros ->. apply N0. rewrite !in_app_iff. auto.
      * eapply linked_frame; [|exact L1]. intros x Hx. assert (x <> p) by (intros ->; apply N0, in_or_app; auto).
        assert (x <> q) by (intros ->; apply (N3 q Hx), in_or_app; auto). rewrite upd_other, Q5; auto.
      * intros x Hx. assert (x <> p) by (intros ->; apply N0; rewrite !in_app_iff; auto). assert (x <> addr t) by (intros ->; apply (N3 (addr t) (addr_in t)), in_or_app; auto).
        assert (x <> q) by (intros ->; apply (N5 q Q4 Hx)). rewrite upd_other, Q5, F1, F0; auto.
      * cbn. constructor; [exact N0|exact N].
    + intros x X1 X2. assert (x <> addr t) by (intros ->; apply X1, addr_in).
      assert (IP : forall y, In y (p :: faddrs l ++ caddrs c) -> y <> x).
      { intros y Hy ->. apply X2. eapply Permutation_in; [symmetry; apply plug_addrs|]. exact Hy. }
      assert (x <> p) by (intro; subst; apply (IP p); cbn; auto).
      assert (x <> q) by (intro; subst; apply (IP q); [right; apply in_or_app; auto|reflexivity]).
      rewrite upd_other, Q5, F1, F0; auto.
Qed.
End P.
