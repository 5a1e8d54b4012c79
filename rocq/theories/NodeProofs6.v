(** Searching a linked document by name: exactly the named descendants, in document order. *)
From Verif Require Import CBase CBaseProofs XmlEntity XmlModel WalkModel WalkProofs NodeModel SpecNode NodeBuild NodeProofs NodeProofs2 NodeProofs3 NodeProofs4 NodeProofs5.

Lemma ddesc_eq (t : dtree payload) : ddesc t = flat_map (fun k => k :: ddesc k) (tkids t).
Proof. destruct t. reflexivity. Qed.
Lemma below_d t : forall s m, shows s m -> forall pos, at_d t pos = Some s -> map (at_d t) (below m pos) = map Some (ddesc s).
Proof.
  induction s as [a v l IH] using dtree_ind2. intros m Hs pos Hat. rewrite below_eq, ddesc_eq. inversion Hs as [? nm at_ ? ks F|]; subst; [|reflexivity].
  cbn [node_kids tkids].
  assert (G : forall l' ks' i, Forall (fun s => forall m, shows s m -> forall pos, at_d t pos = Some s -> map (at_d t) (below m pos) = map Some (ddesc s)) l' ->
     Forall2 shows l' ks' -> (forall j, (j < List.length l')%nat -> nth_error l' j = nth_error l (i + j)) ->
     map (at_d t) (kid_positions below i ks' pos) = map Some (flat_map (fun k => k :: ddesc k) l')).
  { induction l' as [|k l' IHl]; intros ks' i Fi F2 Hn; inversion F2; subst; [reflexivity|]. inversion Fi; subst.
    assert (A : at_d t (i :: pos) = Some k).
    { cbn [at_d]. rewrite Hat. cbn [tkids]. specialize (Hn O). rewrite Nat.add_0_r in Hn. rewrite <- Hn by (cbn; lia). reflexivity. }
    cbn [kid_positions map flat_map app]. rewrite A, !map_app. f_equal. f_equal; [auto|]. apply IHl; auto.
    intros j Hj. specialize (Hn (S j)). cbn [nth_error] in Hn. rewrite Hn by (cbn; lia). f_equal. lia. }
  apply (G l ks O IH F). reflexivity.
Qed.
Lemma shows_named s m name : shows s m -> named name m = NodeBuild.is_named name (tval s).
Proof. intro H. inversion H; reflexivity. Qed.
Lemma filter_d t n name : shows t n -> forall ps ts, map (at_d t) ps = map Some ts ->
  map (ptr t) (filter (WalkProofs.is_named n name) ps) = map (fun s => Some (addr s)) (filter (fun s => NodeBuild.is_named name (tval s)) ts).
Proof.
  intro H. induction ps as [|p ps IH]; intros [|s ts] E; try discriminate; [reflexivity|]. cbn in E. injection E as E1 E2. cbn [filter].
  unfold WalkProofs.is_named at 1. pose proof (shows_at t n H p) as X. rewrite E1 in X. destruct (at_pos n p) as [m|]; [|contradiction].
  rewrite (shows_named s m name X). destruct (NodeBuild.is_named name (tval s)); cbn [map]; rewrite (IH ts E2); [|reflexivity]. unfold ptr. rewrite E1. reflexivity.
Qed.
Lemma plug_at c : forall (s : dtree payload), exists pos, at_d (plug c s) pos = Some s.
Proof.
  assert (G : forall c (s u : dtree payload) q, at_d s q = Some u -> exists pos, at_d (plug c s) pos = Some u).
  { induction c0 as [|c0 IH a v l r]; intros s u q E; cbn [plug]; [eauto|]. apply (IH _ _ (q ++ [List.length l])).
    revert u E. induction q as [|i q IHq]; intros u E.
    - injection E as <-. cbn. rewrite nth_error_app2 by lia. rewrite Nat.sub_diag. reflexivity.
    - cbn [app at_d] in *. destruct (at_d s q) as [x|] eqn:Ex; [|discriminate]. rewrite (IHq x eq_refl). exact E. }
  intro s. apply (G c s s []). reflexivity.
Qed.
Lemma addrs_ddesc (s : dtree payload) : addrs s = addr s :: map addr (ddesc s).
Proof.
  induction s as [a v l IH] using dtree_ind2. cbn [addrs addr]. f_equal. rewrite ddesc_eq. cbn [tkids]. induction IH as [|k l Hk _ IHl]; [reflexivity|].
  cbn [flat_map map app]. rewrite Hk, IHl, map_app. reflexivity.
Qed.
Lemma find_ptr_all h c s n name fuel up :
  ddoc h (plug c s) -> shows (plug c s) n -> (List.length (addrs s) <= fuel)%nat -> (List.length (addrs (plug c s)) <= up)%nat ->
  find_ptr_loop fuel up h (addr s) name (addr s) = Some (Ok (map addr (filter (fun k => NodeBuild.is_named name (tval k)) (ddesc s)))).
Proof.
  intros H Hs Hf Hu. destruct (plug_at c s) as (pos & Hp). pose proof (shows_at _ _ Hs pos) as X. rewrite Hp in X.
  destruct (at_pos n pos) as [m|] eqn:Em; [|contradiction].
  pose proof (below_d (plug c s) s m X pos Hp) as Bd.
  assert (Lb : (List.length (below m pos) < fuel)%nat).
  { apply (f_equal (@List.length _)) in Bd. rewrite !map_length in Bd. rewrite Bd. rewrite addrs_ddesc in Hf. cbn [List.length] in Hf. rewrite map_length in Hf. lia. }
  pose proof (find_loop_chain n pos name fuel (below m pos) pos (walk_top n pos m Em) Lb) as E.
  destruct (find_loop_spec h (plug c s) n pos s name H Hs Hp fuel pos s up _ Hp Hu E) as (l & E1 & E2). rewrite E1. f_equal. f_equal.
  rewrite (filter_d (plug c s) n name Hs _ _ Bd) in E2. rewrite <- (map_map addr Some) in E2. clear E1. revert E2.
  generalize (map addr (filter (fun k => NodeBuild.is_named name (tval k)) (ddesc s))). induction l as [|x l IH]; intros [|y l']; cbn; try discriminate; [reflexivity|].
  intros [= -> Hr]. f_equal. apply IH, Hr.
Qed.
