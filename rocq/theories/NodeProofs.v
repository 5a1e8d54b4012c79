(** Links of a document under insertion, removal and deletion. *)
From Verif Require Import CBase NodeModel SpecNode.
From Coq Require Import Permutation.

Section P.
Context {V : Type}.
Implicit Types (h : nheap V) (t : dtree V) (l r : list (dtree V)).

Lemma dtree_ind2 (P : dtree V -> Prop) : (forall a v l, Forall P l -> P (D a v l)) -> forall t, P t.
Proof.
  intro H. fix IH 1. intros [a v l]. apply H. induction l as [|t l IHl]; constructor; [apply IH|exact IHl].
Qed.

(** A row of siblings; [nxt] follows the last one. *)
Definition head_or l (x : option nat) : option nat := match l with t :: _ => Some (addr t) | [] => x end.
Fixpoint last_or l (x : option nat) : option nat := match l with [] => x | t :: l' => last_or l' (Some (addr t)) end.
Fixpoint row h (par prev : option nat) l (nxt : option nat) : Prop :=
  match l with
  | [] => True
  | t :: l' => linked h par prev (head_or l' nxt) t /\ row h par (Some (addr t)) l' nxt
  end.
Lemma linked_eq h par prev nxt a v l :
  linked h par prev nxt (D a v l) <->
  h a = Some (mkCell par prev nxt (head_or l None) (last_or l None) v) /\ row h (Some a) None l None.
Proof.
  cbn [linked].
  assert (E1 : first_addr l = head_or l None) by (destruct l; reflexivity).
  assert (E2 : last_addr l = last_or l None).
  { assert (G : forall l x, last_or l x = match last_addr l with Some y => Some y | None => x end).
    { induction l0 as [|t l0 IH]; intro x; [reflexivity|]. cbn [last_or]. rewrite IH. destruct l0 as [|u l0]; [reflexivity|].
      change (last_addr (t :: u :: l0)) with (last_addr (u :: l0)).
      clear. revert u. induction l0 as [|w l0 IH]; intro u; [reflexivity|]. change (last_addr (u :: w :: l0)) with (last_addr (w :: l0)). apply IH. }
    rewrite G. destruct (last_addr l); reflexivity. }
  rewrite E1, E2.
  assert (G : forall l prev, (fix row (prev : option nat) (l : list (dtree V)) : Prop :=
         match l with
         | [] => True
         | t :: l' => linked h (Some a) prev (first_addr l') t /\ row (Some (addr t)) l'
         end) prev l <-> row h (Some a) prev l None).
  { induction l0 as [|t l0 IH]; intro q; [cbn; tauto|]. cbn [row]. rewrite <- IH.
    replace (head_or l0 None) with (first_addr l0) by (destruct l0; reflexivity). tauto. }
  rewrite G. tauto.
Qed.
Lemma row_app h par prev l1 l2 nxt :
  row h par prev (l1 ++ l2) nxt <-> row h par prev l1 (head_or l2 nxt) /\ row h par (last_or l1 prev) l2 nxt.
Proof.
  revert prev. induction l1 as [|t l1 IH]; intro prev; cbn [app row last_or]; [tauto|]. rewrite IH.
  replace (head_or (l1 ++ l2) nxt) with (head_or l1 (head_or l2 nxt)) by (destruct l1; reflexivity). tauto.
Qed.
Lemma last_or_app l1 l2 x : last_or (l1 ++ l2) x = last_or l2 (last_or l1 x).
Proof. revert x. induction l1 as [|t l1 IH]; intro x; [reflexivity|]. cbn. apply IH. Qed.
Lemma last_or_some l x y : last_or l (Some x) = last_or l y \/ l = [].
Proof. destruct l as [|t l]; [right; reflexivity|left; reflexivity]. Qed.
Lemma head_or_app l1 l2 x : head_or (l1 ++ l2) x = head_or l1 (head_or l2 x).
Proof. destruct l1; reflexivity. Qed.
Lemma addr_in t : In (addr t) (addrs t).
Proof. destruct t; left; reflexivity. Qed.
Lemma faddrs_app l1 l2 : faddrs (l1 ++ l2) = faddrs l1 ++ faddrs l2.
Proof. apply flat_map_app. Qed.

(** * Frame: links depend only on the nodes of the tree *)
Lemma linked_frame t : forall h h' par prev nxt,
  (forall x, In x (addrs t) -> h' x = h x) -> linked h par prev nxt t -> linked h' par prev nxt t.
Proof.
  induction t as [a v l IH] using dtree_ind2. intros h h' par prev nxt E H. apply linked_eq in H as [H1 H2]. apply linked_eq.
  split; [rewrite E; [exact H1|left; reflexivity]|].
  assert (E' : forall x, In x (faddrs l) -> h' x = h x) by (intros x Hx; apply E; right; exact Hx). clear E H1.
  revert H2. generalize (@None nat) at 1 3 as q. induction IH as [|t l Ht _ IHl]; intros q H2; [exact I|].
  cbn [row] in *. destruct H2 as [H3 H4]. split.
  - eapply Ht; [|exact H3]. intros x Hx. apply E'. cbn. apply in_or_app. auto.
  - apply IHl; [intros x Hx; apply E'; cbn; apply in_or_app; auto|exact H4].
Qed.
Lemma row_frame h h' par l : forall prev nxt,
  (forall x, In x (faddrs l) -> h' x = h x) -> row h par prev l nxt -> row h' par prev l nxt.
Proof.
  induction l as [|t l IH]; intros prev nxt E H; [exact I|]. cbn [row] in *. destruct H as [H1 H2]. split.
  - eapply linked_frame; [|exact H1]. intros x Hx. apply E. cbn. apply in_or_app. auto.
  - apply IH; [intros x Hx; apply E; cbn; apply in_or_app; auto|exact H2].
Qed.
Lemma linked_alloc h par prev nxt t : linked h par prev nxt t -> forall x, In x (addrs t) -> h x <> None.
Proof.
  revert par prev nxt. induction t as [a v l IH] using dtree_ind2. intros par prev nxt H. apply linked_eq in H as [H1 H2].
  intros x [<-|Hx]; [rewrite H1; discriminate|]. clear H1. revert H2 Hx. generalize (@None nat) at 1 as q.
  induction IH as [|t l Ht _ IHl]; intros q H2 Hx; [destruct Hx|]. cbn [row] in H2. destruct H2 as [H3 H4]. cbn in Hx. apply in_app_or in Hx as [Hx|Hx].
  - eapply Ht; eauto.
  - eapply IHl; eauto.
Qed.
Lemma upd_same h a x : upd h a x a = x.
Proof. unfold upd. rewrite Nat.eqb_refl. reflexivity. Qed.
Lemma upd_other h a x b : b <> a -> upd h a x b = h b.
Proof. intro H. unfold upd. destruct (Nat.eqb_spec b a); [contradiction|reflexivity]. Qed.

(** Changing the outer links of a tree. *)
Lemma linked_root h par prev nxt t : linked h par prev nxt t ->
  exists v l, t = D (addr t) v l /\ h (addr t) = Some (mkCell par prev nxt (head_or l None) (last_or l None) v) /\
              row h (Some (addr t)) None l None.
Proof. destruct t as [a v l]. intro H. apply linked_eq in H as [H1 H2]. exists v, l. cbn. auto. Qed.
Lemma relink h par prev nxt par' prev' nxt' t (f : cell V -> cell V) :
  linked h par prev nxt t -> NoDup (addrs t) ->
  (forall x y v, f (mkCell par prev nxt x y v) = mkCell par' prev' nxt' x y v) ->
  exists h', modify h (addr t) f = Ok h' /\ linked h' par' prev' nxt' t /\ (forall x, x <> addr t -> h' x = h x).
Proof.
  intros H N F. destruct t as [a v l]. apply linked_eq in H as [H1 H2]. cbn [addr]. unfold modify, get. rewrite H1. cbn [obind]. rewrite F.
  eexists. split; [reflexivity|]. split; [|intros x Hx; apply upd_other, Hx]. apply linked_eq. split; [apply upd_same|].
  eapply row_frame; [|exact H2]. intros x Hx. apply upd_other. intros ->. inversion N; subst. contradiction.
Qed.

(** * Contexts *)
Definition hpar (c : ctx V) : option nat := match c with Hole => None | In_ _ a _ _ _ => Some a end.
Definition hprev (c : ctx V) : option nat := match c with Hole => None | In_ _ _ _ l _ => last_or l None end.
Definition hnext (c : ctx V) : option nat := match c with Hole => None | In_ _ _ _ _ r => head_or r None end.
Fixpoint clinked h (c : ctx V) (x : nat) : Prop :=
  match c with
  | Hole => True
  | In_ c' a v l r =>
      h a = Some (mkCell (hpar c') (hprev c') (hnext c') (head_or l (Some x)) (last_or r (Some x)) v) /\
      row h (Some a) None l (Some x) /\ row h (Some a) (Some x) r None /\ clinked h c' a
  end.
Fixpoint caddrs (c : ctx V) : list nat :=
  match c with Hole => [] | In_ c' a _ l r => a :: faddrs l ++ faddrs r ++ caddrs c' end.
Lemma plug_linked h c : forall t,
  linked h None None None (plug c t) <-> linked h (hpar c) (hprev c) (hnext c) t /\ clinked h c (addr t).
Proof.
  induction c as [|c IH a v l r]; intro t; cbn [plug]; [cbn; tauto|]. rewrite IH, linked_eq, row_app. cbn [row hpar hprev hnext clinked addr].
  rewrite head_or_app, last_or_app. cbn [head_or last_or]. tauto.
Qed.
Lemma plug_addrs c : forall t, Permutation (addrs (plug c t)) (addrs t ++ caddrs c).
Proof.
  induction c as [|c IH a v l r]; intro t; cbn [plug caddrs]; [rewrite app_nil_r; reflexivity|]. rewrite IH. cbn [addrs].
  change (flat_map addrs (l ++ t :: r)) with (faddrs (l ++ t :: r)). rewrite faddrs_app. change (faddrs (t :: r)) with (addrs t ++ faddrs r).
  change ((a :: faddrs l ++ addrs t ++ faddrs r) ++ caddrs c) with (a :: (faddrs l ++ addrs t ++ faddrs r) ++ caddrs c).
  rewrite <- Permutation_middle. constructor. rewrite <- !app_assoc. rewrite Permutation_app_swap_app. reflexivity.
Qed.
Lemma clinked_frame h h' c : forall x, (forall y, In y (caddrs c) -> h' y = h y) -> clinked h c x -> clinked h' c x.
Proof.
  induction c as [|c IH a v l r]; intros x E H; [exact I|]. cbn [clinked caddrs] in *. destruct H as (H1 & H2 & H3 & H4).
  split; [rewrite E; [exact H1|left; reflexivity]|].
  split; [eapply row_frame; [|exact H2]; intros y Hy; apply E; right; apply in_or_app; auto|].
  split; [eapply row_frame; [|exact H3]; intros y Hy; apply E; right; apply in_or_app; right; apply in_or_app; auto|].
  apply IH; [|exact H4]. intros y Hy. apply E. right. apply in_or_app. right. apply in_or_app. auto.
Qed.
(** Replacing the subtree in a context by another with the same root. *)
Lemma replug h h' c t t' :
  document h (plug c t) -> addr t' = addr t ->
  linked h' (hpar c) (hprev c) (hnext c) t' -> (forall y, In y (caddrs c) -> h' y = h y) ->
  NoDup (addrs t' ++ caddrs c) -> document h' (plug c t').
Proof.
  intros [H1 H2] E L F N. apply plug_linked in H1 as [_ H1]. split.
  - apply plug_linked. split; [exact L|]. rewrite E. eapply clinked_frame; eauto.
  - eapply Permutation_NoDup; [symmetry; apply plug_addrs|exact N].
Qed.
Lemma focus t p : In p (addrs t) -> exists c v l, t = plug c (D p v l).
Proof.
  induction t as [a v l IH] using dtree_ind2. intros [<-|Hx]; [exists Hole, v, l; reflexivity|].
  apply in_flat_map in Hx as (t & Ht & Hx). rewrite Forall_forall in IH. destruct (IH t Ht Hx) as (c & w & k & E).
  apply in_split in Ht as (l1 & l2 & ->).
  assert (G : forall c0 s : ctx V, exists c1 : ctx V, forall u, plug c0 (plug s u) = plug c1 u).
  { intros c0 s. induction s as [|s IHs b w' l' r']; [exists c0; reflexivity|]. destruct IHs as (c1 & E1).
    exists (In_ c1 b w' l' r'). intro u. cbn. apply E1. }
  destruct (G (In_ Hole a v l1 l2) c) as (c1 & E1). exists c1, w, k. rewrite <- E1, <- E. reflexivity.
Qed.
Lemma NoDup_parts c t : NoDup (addrs (plug c t)) ->
  NoDup (addrs t) /\ NoDup (caddrs c) /\ (forall x, In x (addrs t) -> ~ In x (caddrs c)).
Proof.
  intro N. apply (Permutation_NoDup (plug_addrs c t)) in N.
  assert (G : forall l1 l2 : list nat, NoDup (l1 ++ l2) -> NoDup l1 /\ NoDup l2 /\ (forall x, In x l1 -> ~ In x l2)).
  { clear. induction l1 as [|x l1 IH]; intros l2 H; [split; [constructor|split; [exact H|intros ? []]]|]. cbn in H. inversion H as [|? ? H1 H2]; subst.
    destruct (IH l2 H2) as (A & B & C). split; [constructor; [|exact A]; intro; apply H1, in_or_app; auto|]. split; [exact B|].
    intros y [<-|Hy]; [intro; apply H1, in_or_app; auto|apply C, Hy]. }
  apply G, N.
Qed.
End P.
