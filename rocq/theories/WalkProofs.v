(** The search visits the subtree in document order. *)
From Verif Require Import CBase CBaseProofs XmlEntity XmlModel SpecXml WalkModel.

Lemma pos_eqb_eq a b : pos_eqb a b = true <-> a = b.
Proof.
  revert b. induction a as [|x a IH]; intros [|y b]; cbn; split; try discriminate; try reflexivity; intro H.
  - apply andb_true_iff in H as (H1 & H2). apply Nat.eqb_eq in H1. apply IH in H2. congruence.
  - injection H as -> ->. rewrite Nat.eqb_refl. now apply IH.
Qed.
Lemma pos_eqb_refl a : pos_eqb a a = true. Proof. now apply pos_eqb_eq. Qed.

(** Positions of the descendants, in document order. *)
Fixpoint kid_positions (sub : node -> position -> list position) (i : nat) (ks : list node) (pos : position) : list position :=
  match ks with
  | [] => []
  | k :: ks' => (i :: pos) :: sub k (i :: pos) ++ kid_positions sub (S i) ks' pos
  end.
Fixpoint below (t : node) (pos : position) : list position :=
  match t with
  | Opaque _ => []
  | Elem _ _ ks => (fix go i l := match l with [] => [] | k :: l' => (i :: pos) :: below k (i :: pos) ++ go (S i) l' end) O ks
  end.
Lemma below_eq t pos : below t pos = kid_positions below O (node_kids t) pos.
Proof.
  destruct t as [n a ks|s]; [|reflexivity]. cbn [below node_kids]. generalize O as i.
  induction ks as [|k ks IH]; intro i; cbn; [reflexivity|]. now rewrite IH.
Qed.

(** A walk: every element of the list is the successor of the previous one; [e] is what follows the last. *)
Inductive chain (doc : node) (top : position) : position -> list position -> option position -> Prop :=
| chain_end pos e : walk_next doc top true pos = e -> chain doc top pos [] e
| chain_cons pos p l e : walk_next doc top true pos = Some p -> chain doc top p l e -> chain doc top pos (p :: l) e.
Lemma chain_app doc top : forall l1 pos p l2 e, chain doc top pos l1 (Some p) -> chain doc top p l2 e -> chain doc top pos (l1 ++ p :: l2) e.
Proof.
  induction l1 as [|q l1 IH]; intros pos p l2 e C1 C2; inversion C1; subst; cbn.
  - now constructor.
  - econstructor; eauto.
Qed.
(** What follows a subtree. *)
Definition after (doc : node) (top pos : position) : option position := if pos_eqb pos top then None else climb doc top pos.
Lemma walk_no_child doc top pos : exists_at doc (O :: pos) = false -> walk_next doc top true pos = after doc top pos.
Proof.
  intro H. unfold walk_next, after. rewrite H. cbn [andb]. destruct (pos_eqb pos top); [reflexivity|].
  destruct pos as [|i p]; [reflexivity|]. cbn [climb]. destruct (exists_at doc (S i :: p)); [reflexivity|].
  destruct (pos_eqb p top); reflexivity.
Qed.
Lemma at_kid doc pos t i : at_pos doc pos = Some t -> at_pos doc (i :: pos) = nth_error (node_kids t) i.
Proof. intro H. cbn. now rewrite H. Qed.
Lemma node_ind3 (P : node -> Prop) :
  (forall t, Forall P (node_kids t) -> P t) -> forall t, P t.
Proof.
  intro H. fix IH 1. intros [n a ks|s]; apply H; [|constructor]. cbn.
  induction ks as [|k ks IHk]; constructor; [apply IH|exact IHk].
Qed.
(** [top] is not strictly below [pos]. *)
Definition outside (top pos : position) : Prop := forall q, top <> q ++ pos \/ q = [].
Lemma chain_subtree doc top : forall t pos, at_pos doc pos = Some t -> (forall i q, top <> q ++ i :: pos) ->
  chain doc top pos (below t pos) (after doc top pos).
Proof.
  apply (node_ind3 (fun t => forall pos, at_pos doc pos = Some t -> (forall i q, top <> q ++ i :: pos) ->
    chain doc top pos (below t pos) (after doc top pos))).
  intros t IH pos Hat Hout. rewrite below_eq.
  destruct (node_kids t) as [|k0 ks0] eqn:Ek.
  { cbn. constructor. apply walk_no_child. unfold exists_at. rewrite (at_kid doc pos t) by assumption. now rewrite Ek. }
  (* from the first child on *)
  assert (G : forall ks i k, Forall (fun t => forall pos, at_pos doc pos = Some t -> (forall i q, top <> q ++ i :: pos) ->
      chain doc top pos (below t pos) (after doc top pos)) (k :: ks) ->
      (forall j, nth_error (k :: ks) j = nth_error (node_kids t) (i + j)) ->
      chain doc top (i :: pos) (below k (i :: pos) ++ kid_positions below (S i) ks pos) (after doc top pos)).
  { induction ks as [|k1 ks IHks]; intros i k F Hn; inversion F as [|? ? Fk Fks]; subst.
    - cbn [kid_positions]. rewrite app_nil_r.
      replace (after doc top pos) with (after doc top (i :: pos)).
      + apply Fk. { rewrite (at_kid doc pos t) by assumption. specialize (Hn O). rewrite Nat.add_0_r in Hn. now rewrite <- Hn. }
        intros j q E. apply (Hout i (q ++ [j])). now rewrite <- app_assoc.
      + unfold after. destruct (pos_eqb (i :: pos) top) eqn:E; [apply pos_eqb_eq in E; exfalso; apply (Hout i []); now rewrite <- E|].
        cbn [climb]. replace (exists_at doc (S i :: pos)) with false.
        2:{ unfold exists_at. rewrite (at_kid doc pos t) by assumption. specialize (Hn 1%nat). rewrite Nat.add_1_r in Hn. rewrite <- Hn. reflexivity. }
        destruct (pos_eqb pos top); [reflexivity|]. destruct pos; reflexivity.
    - cbn [kid_positions]. apply chain_app with (p := S i :: pos).
      + assert (A : after doc top (i :: pos) = Some (S i :: pos)).
        { unfold after. destruct (pos_eqb (i :: pos) top) eqn:E; [apply pos_eqb_eq in E; exfalso; apply (Hout i []); now rewrite <- E|].
          cbn [climb]. replace (exists_at doc (S i :: pos)) with true; [reflexivity|].
          unfold exists_at. rewrite (at_kid doc pos t) by assumption. specialize (Hn 1%nat). rewrite Nat.add_1_r in Hn. now rewrite <- Hn. }
        refine (eq_ind _ (chain doc top (i :: pos) (below k (i :: pos))) _ _ A). apply Fk. { rewrite (at_kid doc pos t) by assumption. specialize (Hn O). rewrite Nat.add_0_r in Hn. now rewrite <- Hn. }
        intros j q E. apply (Hout i (q ++ [j])). now rewrite <- app_assoc.
      + apply IHks; [assumption|]. intro j. specialize (Hn (S j)). cbn [nth_error] in Hn. rewrite Hn. f_equal. lia. }
  cbn [kid_positions]. econstructor.
  - unfold walk_next. replace (exists_at doc (O :: pos)) with true; [reflexivity|].
    unfold exists_at. rewrite (at_kid doc pos t) by assumption. now rewrite Ek.
  - apply G; [assumption|]. intro j. now rewrite Ek.
Qed.
(** The nodes met are the descendants in document order. *)
Lemma below_nodes doc : forall t pos, at_pos doc pos = Some t -> map (at_pos doc) (below t pos) = map Some (descendants t).
Proof.
  apply (node_ind3 (fun t => forall pos, at_pos doc pos = Some t -> map (at_pos doc) (below t pos) = map Some (descendants t))).
  intros t IH pos Hat. rewrite below_eq.
  assert (E : descendants t = flat_map (fun k => k :: descendants k) (node_kids t)) by (destruct t; reflexivity). rewrite E. clear E.
  assert (G : forall ks i, Forall (fun t => forall pos, at_pos doc pos = Some t -> map (at_pos doc) (below t pos) = map Some (descendants t)) ks ->
     (forall j, (j < List.length ks)%nat -> nth_error ks j = nth_error (node_kids t) (i + j)) ->
     map (at_pos doc) (kid_positions below i ks pos) = map Some (flat_map (fun k => k :: descendants k) ks)).
  { induction ks as [|k ks IHks]; intros i F Hn; [reflexivity|]. inversion F as [|? ? Fk Fks]; subst.
    assert (A : at_pos doc (i :: pos) = Some k).
    { rewrite (at_kid doc pos t) by assumption. specialize (Hn O). rewrite Nat.add_0_r in Hn. rewrite <- Hn by (cbn; lia). reflexivity. }
    cbn [kid_positions map flat_map app]. rewrite A. rewrite !map_app. rewrite Fk by assumption. rewrite IHks; auto.
    intros j Hj. specialize (Hn (S j)). cbn [nth_error] in Hn. rewrite Hn by (cbn; lia). f_equal. lia. }
  apply G; [assumption|]. intros j _. reflexivity.
Qed.
Lemma below_nodup t : forall pos, NoDup (pos :: below t pos).
Proof.
  assert (Suf : forall t pos p, In p (below t pos) -> exists q i, p = q ++ i :: pos).
  { clear. intro t. apply (node_ind3 (fun t => forall pos p, In p (below t pos) -> exists q i, p = q ++ i :: pos)). clear t.
    intros t IH pos p. rewrite below_eq. generalize O as i. induction IH as [|k ks Hk _ IHks]; intros i H; [destruct H|].
    cbn in H. destruct H as [<-|H]; [exists [], i; reflexivity|]. apply in_app_iff in H as [H|H].
    - apply Hk in H as (q & j & ->). exists (q ++ [j]), i. now rewrite <- app_assoc.
    - now apply IHks in H. }
  apply (node_ind3 (fun t => forall pos, NoDup (pos :: below t pos))). clear t.
  intros t IH pos. constructor.
  { intro H. apply Suf in H as (q & i & E). apply (f_equal (@List.length nat)) in E. rewrite app_length in E. cbn in E. lia. }
  rewrite below_eq.
  assert (Ge : forall ks i p, In p (kid_positions below i ks pos) -> exists q j, p = q ++ j :: pos /\ (i <= j)%nat).
  { clear - Suf. induction ks as [|k ks IHks]; intros i p H; [destruct H|]. cbn in H. destruct H as [<-|H]; [exists [], i; auto|].
    apply in_app_iff in H as [H|H].
    - apply Suf in H as (q & j & ->). exists (q ++ [j]), i. rewrite <- app_assoc. auto.
    - apply IHks in H as (q & j & -> & L). exists q, j. split; [reflexivity|lia]. }
  generalize O as i. induction IH as [|k ks Hk _ IHks]; intro i; [constructor|]. cbn [kid_positions].
  rewrite app_comm_cons.
  assert (D : forall p, In p ((i :: pos) :: below k (i :: pos)) -> ~ In p (kid_positions below (S i) ks pos)).
  { intros p H1 H2. apply Ge in H2 as (q2 & j & E2 & L).
    assert (exists q1, p = q1 ++ i :: pos) as (q1 & E1).
    { destruct H1 as [<-|H1]; [exists []; reflexivity|]. apply Suf in H1 as (q & x & ->). exists (q ++ [x]). now rewrite <- app_assoc. }
    assert (K : forall a b x y, a ++ x :: pos = b ++ y :: pos -> x = y :> nat).
    { clear. intros a b x y E. apply (f_equal (@rev nat)) in E. rewrite !rev_app_distr in E. cbn in E. rewrite <- !app_assoc in E.
      apply app_inv_head in E. cbn in E. congruence. }
    rewrite E1 in E2. apply K in E2. lia. }
  specialize (IHks (S i)). specialize (Hk (i :: pos)).
  assert (U : forall l1 l2 : list position, NoDup l1 -> NoDup l2 -> (forall p, In p l1 -> ~ In p l2) -> NoDup (l1 ++ l2)).
  { clear. intros l1 l2 N1 N2 D. induction N1 as [|x l1 Hx N1 IH]; cbn; [exact N2|]. constructor.
    - rewrite in_app_iff. intros [H|H]; [contradiction|]. exact (D x (or_introl eq_refl) H).
    - apply IH. intros p Hp. apply D. now right. }
  now apply U.
Qed.

(** The search loop. *)
Definition is_named (doc : node) (name : cstr) (p : position) : bool :=
  match at_pos doc p with Some t => named name t | None => false end.
Lemma chain_live doc top pos l e : chain doc top pos l e -> Forall (fun p => at_pos doc p <> None) l.
Proof.
  induction 1 as [|pos p l e Hw C IH]; constructor; auto. clear - Hw. unfold walk_next in Hw.
  assert (X : forall q, exists_at doc q = true -> at_pos doc q <> None) by (intro q; unfold exists_at; destruct (at_pos doc q); congruence).
  assert (CL : forall q, climb doc top q = Some p -> at_pos doc p <> None).
  { induction q as [|i q IH]; cbn [climb]; [discriminate|]. destruct (exists_at doc (S i :: q)) eqn:E; [intros [= <-]; now apply X|].
    destruct (pos_eqb q top); [discriminate|]. destruct q; [discriminate|exact IH]. }
  cbn [andb] in Hw. destruct (exists_at doc (O :: pos)) eqn:E0; [injection Hw as <-; now apply X|].
  destruct (pos_eqb pos top); [discriminate|]. destruct pos as [|i q]; [discriminate|].
  destruct (exists_at doc (S i :: q)) eqn:E1; [injection Hw as <-; now apply X|].
  destruct (pos_eqb q top); [discriminate|]. cbn [negb] in Hw. destruct q; [discriminate|]. exact (CL _ Hw).
Qed.
Lemma find_element_chain doc top name l : forall pos f, chain doc top pos l None -> (List.length l < f)%nat ->
  find_element f doc top name pos = Some (List.find (is_named doc name) l).
Proof.
  induction l as [|p l IH]; intros pos f C L; (destruct f as [|f]; [lia|]); cbn [find_element List.find];
    pose proof (chain_live _ _ _ _ _ C) as Lv; inversion C as [? ? E|? ? ? ? E C2]; subst.
  - now rewrite E.
  - rewrite E. inversion Lv as [|? ? Hp _]; subst. unfold is_named at 1. destruct (at_pos doc p) as [t|]; [|congruence].
    destruct (named name t); [reflexivity|]. apply IH; [assumption|cbn in L; lia].
Qed.
Lemma find_split {A} (P : A -> bool) l x : List.find P l = Some x ->
  exists l1 l2, l = l1 ++ x :: l2 /\ filter P l = x :: filter P l2.
Proof.
  induction l as [|y l IH]; cbn; [discriminate|]. destruct (P y) eqn:E.
  - intros [= <-]. exists [], l. rewrite ?E. auto.
  - intro H. destruct (IH H) as (l1 & l2 & -> & F). exists (y :: l1), l2. auto.
Qed.
Lemma find_none_filter {A} (P : A -> bool) l : List.find P l = None -> filter P l = [].
Proof. induction l as [|y l IH]; cbn; [reflexivity|]. destruct (P y); [discriminate|exact IH]. Qed.
Lemma chain_tail doc top l1 : forall pos p l2 e, chain doc top pos (l1 ++ p :: l2) e -> chain doc top p l2 e.
Proof.
  induction l1 as [|q l1 IH]; intros pos p l2 e C; cbn in C; inversion C; subst; [assumption|]. eapply IH; eassumption.
Qed.
Lemma find_loop_chain doc top name : forall f l pos, chain doc top pos l None -> (List.length l < f)%nat ->
  find_loop f doc top name pos = Some (filter (is_named doc name) l).
Proof.
  induction f as [|f IH]; intros l pos C L; [lia|]. cbn [find_loop].
  rewrite (find_element_chain doc top name l pos (S f) C L).
  destruct (List.find (is_named doc name) l) as [p|] eqn:E.
  - apply find_split in E as (l1 & l2 & -> & F). rewrite F.
    rewrite (IH l2 p); [reflexivity|eapply chain_tail; exact C|]. rewrite app_length in L. cbn in L. lia.
  - now rewrite (find_none_filter _ _ E).
Qed.
Lemma top_outside (top : position) : forall i q, top <> q ++ i :: top.
Proof. intros i q E. apply (f_equal (@List.length nat)) in E. rewrite app_length in E. cbn in E. lia. Qed.
Lemma walk_top doc top t : at_pos doc top = Some t -> chain doc top top (below t top) None.
Proof.
  intro H. pose proof (chain_subtree doc top t top H (top_outside top)) as C. unfold after in C. now rewrite pos_eqb_refl in C.
Qed.
Lemma below_length doc t pos : at_pos doc pos = Some t -> List.length (below t pos) = List.length (descendants t).
Proof. intro H. pose proof (below_nodes doc t pos H) as E. apply (f_equal (@List.length _)) in E. now rewrite !map_length in E. Qed.
Lemma filter_at doc name l ts : map (at_pos doc) l = map Some ts ->
  map (at_pos doc) (filter (is_named doc name) l) = map Some (filter (named name) ts).
Proof.
  revert ts. induction l as [|p l IH]; intros [|t ts] E; try discriminate; [reflexivity|].
  cbn in E. injection E as E1 E2. cbn [filter]. unfold is_named at 1. rewrite E1. destruct (named name t); cbn [map]; rewrite (IH ts E2); [now rewrite E1|reflexivity].
Qed.
Theorem search_enumerates doc top t name : at_pos doc top = Some t -> forall f, (List.length (descendants t) < f)%nat ->
  exists ps, find_loop f doc top name top = Some ps /\ NoDup ps /\
    map (at_pos doc) ps = map Some (filter (named name) (descendants t)) /\
    Forall (fun p => exists q i, p = q ++ i :: top) ps.
Proof.
  intros H f L. exists (filter (is_named doc name) (below t top)). repeat split.
  - apply find_loop_chain; [now apply walk_top|]. now rewrite (below_length doc).
  - apply NoDup_filter. pose proof (below_nodup t top) as N. now inversion N.
  - apply filter_at. now apply below_nodes.
  - apply Forall_forall. intros p Hp. apply filter_In in Hp as (Hp & _). clear - Hp. revert top p Hp.
    apply (node_ind3 (fun t => forall pos p, In p (below t pos) -> exists q i, p = q ++ i :: pos)). clear t.
    intros t IH pos p. rewrite below_eq. generalize O as i. induction IH as [|k ks Hk _ IHks]; intros i H; [destruct H|].
    cbn in H. destruct H as [<-|H]; [exists [], i; reflexivity|]. apply in_app_iff in H as [H|H].
    + apply Hk in H as (q & j & ->). exists (q ++ [j]), i. now rewrite <- app_assoc.
    + now apply IHks in H.
Qed.
Theorem search_first doc top t name : at_pos doc top = Some t -> forall f, (List.length (descendants t) < f)%nat ->
  exists r, find_element f doc top name top = Some r /\
    match r with Some p => at_pos doc p = List.find (named name) (descendants t) /\ List.find (named name) (descendants t) <> None
               | None => List.find (named name) (descendants t) = None end.
Proof.
  intros H f L. exists (List.find (is_named doc name) (below t top)).
  split; [apply find_element_chain; [now apply walk_top|now rewrite (below_length doc)]|].
  pose proof (below_nodes doc t top H) as E. revert E. generalize (below t top) as l. generalize (descendants t) as ts.
  clear. induction ts as [|x ts IH]; intros [|p l] E; try discriminate; [reflexivity|]. cbn in E. injection E as E1 E2. cbn [List.find].
  unfold is_named at 1. rewrite E1. destruct (named name x); [split; [exact E1|discriminate]|]. now apply IH.
Qed.
(** The loop over the children. *)
Theorem children_enumerated doc top t k ks : at_pos doc top = Some t -> node_kids t = k :: ks ->
  forall f, (List.length (k :: ks) <= f)%nat ->
  exists ps, child_loop f doc top (O :: top) = Some ps /\ map (at_pos doc) ps = map Some (k :: ks).
Proof.
  intros H Hk f L. 
  assert (G : forall l i f, (List.length l <= f)%nat -> l <> [] -> (forall j, nth_error l j = nth_error (node_kids t) (i + j)) ->
    exists ps, child_loop f doc top (i :: top) = Some ps /\ map (at_pos doc) ps = map Some l).
  { clear k ks Hk f L. induction l as [|k l IH]; intros i f L N Hn; [congruence|]. destruct f as [|f]; [cbn in L; lia|].
    assert (A : at_pos doc (i :: top) = Some k).
    { rewrite (at_kid doc top t) by assumption. specialize (Hn O). rewrite Nat.add_0_r in Hn. now rewrite <- Hn. }
    assert (Nt : pos_eqb (i :: top) top = false).
    { destruct (pos_eqb (i :: top) top) eqn:E; [|reflexivity]. apply pos_eqb_eq in E. exfalso. apply (top_outside top i []). now rewrite E. }
    assert (X : exists_at doc (S i :: top) = match l with [] => false | _ => true end).
    { unfold exists_at. rewrite (at_kid doc top t) by assumption. specialize (Hn 1%nat). rewrite Nat.add_1_r in Hn. rewrite <- Hn. destruct l; reflexivity. }
    cbn [child_loop]. unfold walk_next. cbn [andb]. rewrite Nt, X.
    destruct l as [|k2 l].
    - rewrite pos_eqb_refl. cbn [negb]. exists [i :: top]. split; [reflexivity|]. cbn [map]. now rewrite A.
    - destruct (IH (S i) f) as (ps & E & M); [cbn in *; lia|discriminate| |].
      { intro j. specialize (Hn (S j)). cbn [nth_error] in Hn. rewrite Hn. f_equal. lia. }
      rewrite E. exists ((i :: top) :: ps). split; [reflexivity|]. cbn [map] in *. now rewrite A, M. }
  apply G; [assumption|discriminate|]. intro j. now rewrite Hk.
Qed.
