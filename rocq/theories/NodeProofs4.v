(** Front insertion, the whole of mxmlAdd and mxml_new, deletion. *)
From Verif Require Import CBase NodeModel SpecNode NodeProofs NodeProofs2 NodeProofs3.
From Coq Require Import Permutation.

Section P.
Context {V : Type}.
Implicit Types (h : nheap V) (t : dtree V) (l r : list (dtree V)).

Lemma link_first h c p v r t :
  document h (plug c (D p v r)) -> document h t -> (forall x, In x (addrs t) -> ~ In x (addrs (plug c (D p v r)))) ->
  exists h', link_before h p None (addr t) = Ok h' /\ document h' (plug c (D p v (t :: r))) /\
    (forall x, ~ In x (addrs t) -> ~ In x (addrs (plug c (D p v r))) -> h' x = h x).
Proof.
  intros H T Dis. destruct (parts h c p v [] r t H T Dis) as (P & _ & R2 & L & N & C). cbn [head_or last_or faddrs flat_map app] in *.
  apply NoDup_cons_iff in N as (N0 & N). pose proof N as NN. rewrite !in_app_iff in N0.
  apply NoDup_app_iff in N as (N1 & N & N3). apply NoDup_app_iff in N as (N4 & N6 & N7).
  assert (Np : p <> addr t) by (intros ->; apply N0; left; apply addr_in). set (n := addr t) in *.
  assert (Nr : ~ In n (faddrs r)) by (intro X; apply (N3 n (addr_in t)); rewrite !in_app_iff; auto).
  assert (Pr : ~ In p (faddrs r)) by tauto.
  unfold link_before.
  destruct (relink h None None None (Some p) None None t (set_parent (Some p)) L N1 ltac:(reflexivity)) as (h0 & E0 & L0 & F0). fold n in E0, F0.
  rewrite E0. cbn [obind]. unfold get at 1. rewrite F0, P by exact Np. cbn [obind c_child].
  destruct (relink h0 _ _ _ (Some p) None (head_or r None) t (set_next (head_or r None)) L0 N1 ltac:(reflexivity)) as (h1 & E1 & L1 & F1). fold n in E1, F1.
  rewrite E1. cbn [obind]. assert (S1 : forall x, x <> n -> h1 x = h x) by (intros x Hx; rewrite F1, F0; auto).
  assert (P1 : h1 p = Some (mkCell (hpar c) (hprev c) (hnext c) (head_or r None) (last_or r None) v)) by (rewrite S1; auto).
  assert (R2' : row h1 (Some p) None r None) by (eapply row_frame; [|exact R2]; intros x Hx; apply S1; intros ->; contradiction).
  destruct (backward h1 p _ r None (Some n) P1 R2' ltac:(constructor; assumption)) as (h2 & E2 & F2 & P2 & G2).
  rewrite E2. cbn [obind]. rewrite (modify_at _ _ _ _ P2). eexists. split; [reflexivity|]. split.
  - eapply (rebuilt h _ c p v [] r [] r t); try reflexivity; [exact H| | | | |].
    + rewrite upd_same. destruct r as [|tr r0]; reflexivity.
    + eapply linked_frame; [|exact L1]. intros x Hx. assert (x <> p) by (intros ->; tauto). rewrite upd_other, G2; auto.
      intro X. apply (N3 x Hx), in_or_app. auto.
    + eapply row_frame; [|exact F2]. intros x Hx. apply upd_other. intros ->. contradiction.
    + intros x Hx. assert (x <> p) by (intros ->; tauto). assert (x <> n) by (intros ->; apply (N3 n (addr_in t)); rewrite !in_app_iff; auto).
      rewrite upd_other, G2, S1; auto. intro X. apply (N7 x X Hx).
    + constructor; [cbn; rewrite !in_app_iff; tauto|exact NN].
  - intros x X1 X2. pose proof (Permutation_sym (plug_addrs c (D p v r))) as PA. cbn [addrs] in PA. change (flat_map addrs r) with (faddrs r) in PA.
    assert (x <> n) by (intros ->; apply X1, addr_in).
    assert (x <> p) by (intros ->; apply X2, (Permutation_in _ PA); cbn; auto).
    rewrite upd_other, G2, S1; auto. intro X. apply X2, (Permutation_in _ PA). cbn. rewrite in_app_iff. auto.
Qed.

(** mxmlAdd of a detached tree, wherever it is asked to go. *)
Lemma add_last h c p v l t child :
  document h (plug c (D p v l)) -> document h t -> (forall x, In x (addrs t) -> ~ In x (addrs (plug c (D p v l)))) ->
  (child = None \/ (child = last_or l None)) ->
  exists h', add_node h p true child (addr t) = Ok h' /\ document h' (plug c (D p v (l ++ [t]))) /\
    (forall x, ~ In x (addrs t) -> ~ In x (addrs (plug c (D p v l))) -> h' x = h x).
Proof.
  intros H T Dis Hc. unfold add_node, get. destruct T as [T1 T2]. destruct (linked_root _ _ _ _ _ T1) as (w & k & Et & Ct & _).
  rewrite Ct. cbn [obind c_parent].
  replace (link_after h p child (addr t)) with (link_after h p None (addr t)); [apply link_last; auto; split; assumption|].
  destruct child as [k0|]; [|reflexivity]. destruct Hc as [Hc|Hc]; [discriminate|].
  assert (P : h p = Some (mkCell (hpar c) (hprev c) (hnext c) (head_or l None) (last_or l None) v)).
  { destruct H as [H1 _]. apply plug_linked in H1 as [H1 _]. apply linked_eq in H1 as [P _]. exact P. }
  assert (Np : p <> addr t).
  { intros E. apply (Dis (addr t) (addr_in t)). rewrite <- E. apply (Permutation_in _ (Permutation_sym (plug_addrs c (D p v l)))). left. reflexivity. }
  unfold link_after. rewrite (modify_at _ _ _ _ Ct). cbn [obind]. unfold get. rewrite upd_other by exact Np. rewrite P. cbn [obind c_last].
  rewrite <- Hc, same_refl. reflexivity.
Qed.
Lemma add_first h c p v r t child :
  document h (plug c (D p v r)) -> document h t -> (forall x, In x (addrs t) -> ~ In x (addrs (plug c (D p v r)))) ->
  (child = None \/ (child = head_or r None)) ->
  exists h', add_node h p false child (addr t) = Ok h' /\ document h' (plug c (D p v (t :: r))) /\
    (forall x, ~ In x (addrs t) -> ~ In x (addrs (plug c (D p v r))) -> h' x = h x).
Proof.
  intros H T Dis Hc. unfold add_node, get. destruct T as [T1 T2]. destruct (linked_root _ _ _ _ _ T1) as (w & k & Et & Ct & _).
  rewrite Ct. cbn [obind c_parent].
  replace (link_before h p child (addr t)) with (link_before h p None (addr t)); [apply link_first; auto; split; assumption|].
  destruct child as [k0|]; [|reflexivity]. destruct Hc as [Hc|Hc]; [discriminate|].
  assert (P : h p = Some (mkCell (hpar c) (hprev c) (hnext c) (head_or r None) (last_or r None) v)).
  { destruct H as [H1 _]. apply plug_linked in H1 as [H1 _]. apply linked_eq in H1 as [P _]. exact P. }
  assert (Np : p <> addr t).
  { intros E. apply (Dis (addr t) (addr_in t)). rewrite <- E. apply (Permutation_in _ (Permutation_sym (plug_addrs c (D p v r)))). left. reflexivity. }
  unfold link_before. rewrite (modify_at _ _ _ _ Ct). cbn [obind]. unfold get. rewrite upd_other by exact Np. rewrite P. cbn [obind c_child].
  rewrite <- Hc, same_refl. reflexivity.
Qed.
(** After or before a given child. *)
Lemma add_beside h c p v l k r t :
  document h (plug c (D p v (l ++ k :: r))) -> document h t -> (forall x, In x (addrs t) -> ~ In x (addrs (plug c (D p v (l ++ k :: r))))) ->
  (exists h', add_node h p true (Some (addr k)) (addr t) = Ok h' /\ document h' (plug c (D p v (l ++ k :: t :: r))) /\
    (forall x, ~ In x (addrs t) -> ~ In x (addrs (plug c (D p v (l ++ k :: r)))) -> h' x = h x)) /\
  (exists h', add_node h p false (Some (addr k)) (addr t) = Ok h' /\ document h' (plug c (D p v (l ++ t :: k :: r))) /\
    (forall x, ~ In x (addrs t) -> ~ In x (addrs (plug c (D p v (l ++ k :: r)))) -> h' x = h x)).
Proof.
  intros H T Dis. pose proof T as [T1 _]. destruct (linked_root _ _ _ _ _ T1) as (w & ks & Et & Ct & _). split.
  - destruct r as [|r0 r].
    + destruct (add_last h c p v (l ++ [k]) t (Some (addr k)) H T Dis) as (h' & E & Dd & F); [right; rewrite last_or_app; reflexivity|].
      exists h'. split; [exact E|]. split; [rewrite <- app_assoc in Dd; exact Dd|exact F].
    + replace (l ++ k :: r0 :: r) with ((l ++ [k]) ++ r0 :: r) in * by (rewrite <- app_assoc; reflexivity).
      destruct (proj1 (insert_between h c p v (l ++ [k]) (r0 :: r) t H T Dis)) as (h' & E & Dd & F); [discriminate|destruct l; discriminate|].
      exists h'. unfold add_node, get. rewrite Ct. cbn [obind c_parent]. rewrite last_or_app in E. cbn [last_or] in E. split; [exact E|].
      split; [rewrite <- app_assoc in Dd; exact Dd|exact F].
  - destruct l as [|l0 l].
    + destruct (add_first h c p v (k :: r) t (Some (addr k)) H T Dis) as (h' & E & Dd & F); [right; reflexivity|].
      exists h'. split; [exact E|]. split; [exact Dd|exact F].
    + destruct (proj2 (insert_between h c p v (l0 :: l) (k :: r) t H T Dis)) as (h' & E & Dd & F); [discriminate|discriminate|].
      exists h'. unfold add_node, get. rewrite Ct. cbn [obind c_parent]. split; [exact E|]. split; [exact Dd|exact F].
Qed.
(** An attached node is taken out first. *)
Lemma add_attached h p after child n h1 c1 : remove h n = Ok h1 -> h1 n = Some c1 -> c_parent c1 = None ->
  (exists c0, h n = Some c0 /\ c_parent c0 <> None) ->
  add_node h p after child n = add_node h1 p after child n.
Proof.
  intros E1 E2 E3 (c0 & E4 & E5). unfold add_node, get. rewrite E4, E2. cbn [obind]. rewrite E3. destruct (c_parent c0); [|contradiction].
  rewrite E1. reflexivity.
Qed.

Lemma new_root h a v : h a = None -> exists h', new_node h a None v = Ok h' /\ document h' (D a v []) /\ (forall x, x <> a -> h' x = h x).
Proof.
  intro H. eexists. split; [reflexivity|]. split; [|intros x Hx; apply upd_other, Hx]. split.
  - apply linked_eq. split; [apply upd_same|exact I].
  - constructor; [intros []|constructor].
Qed.
Lemma new_child h c p v l a w :
  document h (plug c (D p v l)) -> h a = None ->
  exists h', new_node h a (Some p) w = Ok h' /\ document h' (plug c (D p v (l ++ [D a w []]))) /\
    (forall x, x <> a -> ~ In x (addrs (plug c (D p v l))) -> h' x = h x).
Proof.
  intros H Ha. assert (Na : ~ In a (addrs (plug c (D p v l)))).
  { intro X. destruct H as [H _]. apply (linked_alloc _ _ _ _ _ H a X Ha). }
  destruct (new_root h a w Ha) as (h1 & E1 & D1 & F1). cbn in E1. injection E1 as <-.
  set (h1 := upd h a (Some (mkCell None None None None None w))) in *.
  assert (H1 : document h1 (plug c (D p v l))).
  { destruct H as [A B]. split; [|exact B]. eapply linked_frame; [|exact A]. intros x Hx. apply F1. intros ->. contradiction. }
  destruct (add_last h1 c p v l (D a w []) None H1 D1) as (h' & E & Dd & F).
  { intros x [<-|[]]. exact Na. } { auto. }
  exists h'. split; [exact E|]. split; [exact Dd|]. intros x X1 X2. rewrite F; [apply F1, X1|intros [<-|[]]; apply X1; reflexivity|exact X2].
Qed.

(** * Deletion *)
Fixpoint steps t : nat := match t with D _ _ l => match l with [] => 1 | _ => 2 + list_sum (map steps l) end end.
Definition onward (node : nat) (par nxt : option nat) : option nat :=
  match nxt with Some x => Some x | None => if same par (Some node) then None else par end.
Lemma consume node : forall t h par prev nxt,
  linked h par prev nxt t -> NoDup (addrs t) -> ~ In node (addrs t) ->
  exists h', (forall m, delete_loop (steps t + m) h node (Some (addr t)) = delete_loop m h' node (onward node par nxt)) /\
    (forall x, In x (addrs t) -> h' x = None) /\ (forall x, ~ In x (addrs t) -> h' x = h x).
Proof.
  induction t as [a v l IH] using dtree_ind2. intros h par prev nxt H N Hn. apply linked_eq in H as [P R]. cbn [addr].
  destruct l as [|k0 l0] eqn:El.
  - exists (upd h a None). split; [|split].
    + intro m. cbn [steps Nat.add delete_loop]. rewrite P. cbn [c_child head_or c_next c_parent]. reflexivity.
    + intros x [<-|[]]. apply upd_same.
    + intros x Hx. apply upd_other. intros ->. apply Hx. left. reflexivity.
  - rewrite <- El in *. cbn [addrs] in N, Hn. apply NoDup_cons_iff in N as [N0 N]. change (flat_map addrs l) with (faddrs l) in *.
    set (cc := mkCell par prev nxt (head_or l None) (last_or l None) v) in *.
    set (h1 := upd h a (Some (set_child None cc))).
    assert (Na : node <> a) by (intros ->; apply Hn; left; reflexivity).
    assert (R1 : row h1 (Some a) None l None).
    { eapply row_frame; [|exact R]. intros x Hx. apply upd_other. intros ->. contradiction. }
    assert (Hn' : ~ In node (faddrs l)) by (intro X; apply Hn; right; exact X).
    (* the children, one after the other *)
    assert (G : forall l h prev, Forall (fun t => forall h par prev nxt, linked h par prev nxt t -> NoDup (addrs t) -> ~ In node (addrs t) ->
         exists h', (forall m, delete_loop (steps t + m) h node (Some (addr t)) = delete_loop m h' node (onward node par nxt)) /\
           (forall x, In x (addrs t) -> h' x = None) /\ (forall x, ~ In x (addrs t) -> h' x = h x)) l ->
       l <> [] -> row h (Some a) prev l None -> NoDup (faddrs l) -> ~ In node (faddrs l) ->
       exists h', (forall m, delete_loop (list_sum (map steps l) + m) h node (head_or l None) = delete_loop m h' node (Some a)) /\
           (forall x, In x (faddrs l) -> h' x = None) /\ (forall x, ~ In x (faddrs l) -> h' x = h x)).
    { clear -Na. induction l as [|t l IHl]; intros h prev F Hne R N Hn; [contradiction|]. inversion F as [|? ? Ft Fl]; subst.
      cbn [row] in R. destruct R as [L R]. change (faddrs (t :: l)) with (addrs t ++ faddrs l) in *.
      apply NoDup_app_iff in N as (N1 & N2 & N3). rewrite in_app_iff in Hn.
      destruct (Ft h _ _ _ L N1 ltac:(tauto)) as (h1 & E1 & A1 & B1).
      destruct l as [|t2 l2] eqn:El.
      - exists h1. split; [|split].
        + intro m. cbn [map list_sum fold_right head_or]. rewrite Nat.add_0_r. rewrite E1. cbn [head_or onward].
          rewrite same_neq by auto. reflexivity.
        + intros x Hx. cbn in Hx. rewrite app_nil_r in Hx. auto.
        + intros x Hx. cbn in Hx. rewrite app_nil_r in Hx. auto.
      - rewrite <- El in *. assert (Hne2 : l <> []) by (rewrite El; discriminate).
        assert (R' : row h1 (Some a) (Some (addr t)) l None).
        { eapply row_frame; [|exact R]. intros x Hx. apply B1. intro X. apply (N3 x X Hx). }
        destruct (IHl h1 _ Fl Hne2 R' N2 ltac:(tauto)) as (h2 & E2 & A2 & B2).
        exists h2. split; [|split].
        + intro m. cbn [map list_sum fold_right]. change (fold_right Nat.add 0%nat (map steps l)) with (list_sum (map steps l)).
          rewrite <- Nat.add_assoc. cbn [head_or]. rewrite E1.
          replace (onward node (Some a) (head_or l None)) with (head_or l None) by (rewrite El; reflexivity). apply E2.
        + intros x Hx. destruct (in_dec Nat.eq_dec x (faddrs l)) as [X|X]; [auto|]. rewrite B2 by exact X. apply A1. apply in_app_iff in Hx. tauto.
        + intros x Hx. rewrite in_app_iff in Hx. rewrite B2, B1; tauto. }
    assert (Hne : l <> []) by (rewrite El; discriminate).
    destruct (G l h1 None IH Hne R1 N Hn') as (h2 & E2 & A2 & B2).
    assert (P2 : h2 a = Some (set_child None cc)) by (rewrite B2 by exact N0; apply upd_same).
    exists (upd h2 a None). split; [|split].
    + intro m. assert (Es : steps (D a v l) = (2 + list_sum (map steps l))%nat) by (rewrite El; reflexivity). rewrite Es.
      replace (2 + list_sum (map steps l) + m)%nat with (S (list_sum (map steps l) + S m)) by lia. cbn [delete_loop]. rewrite P. cbn [c_child cc].
      assert (Eh : exists k, head_or l None = Some k) by (rewrite El; cbn; eauto). destruct Eh as (k & Eh). rewrite Eh.
      change (upd h a (Some (set_child None cc))) with h1. rewrite <- Eh, E2. cbn [delete_loop]. rewrite P2. cbn [set_child c_child c_next c_parent cc]. reflexivity.
    + intros x [<-|Hx]; [apply upd_same|]. destruct (Nat.eq_dec x a) as [->|X]; [apply upd_same|]. rewrite upd_other by exact X. apply A2, Hx.
    + intros x Hx. assert (x <> a) by (intros ->; apply Hx; left; reflexivity). rewrite upd_other by assumption.
      rewrite B2 by (intro X; apply Hx; right; exact X). apply upd_other. assumption.
Qed.
Definition dsize t := List.length (addrs t).
Lemma list_sum_app2 (f g : dtree V -> nat) l : Forall (fun t => (f t + 1 <= 2 * g t)%nat) l -> (list_sum (map f l) + List.length l <= 2 * list_sum (map g l))%nat.
Proof. induction 1; cbn in *; [lia|]. fold (list_sum (map f l)). fold (list_sum (map g l)). unfold list_sum in *. lia. Qed.
Lemma steps_bound t : (steps t + 1 <= 2 * dsize t)%nat.
Proof.
  induction t as [a v l IH] using dtree_ind2. unfold dsize. cbn [addrs List.length].
  assert (E : List.length (flat_map addrs l) = list_sum (map dsize l)).
  { clear. induction l as [|t l IHl]; [reflexivity|]. cbn [flat_map map list_sum fold_right]. rewrite app_length, IHl. reflexivity. }
  rewrite E. pose proof (list_sum_app2 steps dsize l IH). destruct l as [|d l]; [cbn; lia|].
  change (steps (D a v (d :: l))) with (2 + list_sum (map steps (d :: l)))%nat. cbn [List.length] in H. lia.
Qed.

(** Deleting a whole document. *)
Lemma delete_kids h (node : nat) l prev fuel :
  row h (Some node) prev l None -> NoDup (faddrs l) -> ~ In node (faddrs l) -> (2 * List.length (faddrs l) <= fuel)%nat ->
  exists h', delete_loop fuel h node (head_or l None) = Some (Ok h') /\
    (forall x, In x (faddrs l) -> h' x = None) /\ (forall x, ~ In x (faddrs l) -> h' x = h x).
Proof.
  revert h prev fuel. induction l as [|t l IH]; intros h prev fuel R N Hn Hf.
  { exists h. split; [destruct fuel; reflexivity|]. split; [intros ? []|reflexivity]. }
  cbn [row] in R. destruct R as [L R]. change (faddrs (t :: l)) with (addrs t ++ faddrs l) in *. rewrite app_length in Hf.
  apply NoDup_app_iff in N as (N1 & N2 & N3). rewrite in_app_iff in Hn.
  destruct (consume node t h _ _ _ L N1 ltac:(tauto)) as (h1 & E1 & A1 & B1).
  pose proof (steps_bound t) as SB. unfold dsize in SB.
  replace fuel with (steps t + (fuel - steps t))%nat by lia. cbn [head_or]. rewrite E1.
  assert (R' : row h1 (Some node) (Some (addr t)) l None).
  { eapply row_frame; [|exact R]. intros x Hx. apply B1. intro X. apply (N3 x X Hx). }
  replace (onward node (Some node) (head_or l None)) with (head_or l None) by (destruct l; [cbn; rewrite Nat.eqb_refl|]; reflexivity).
  destruct (IH h1 _ (fuel - steps t)%nat R' N2 ltac:(tauto) ltac:(lia)) as (h2 & E2 & A2 & B2).
  exists h2. split; [exact E2|]. split.
  - intros x Hx. destruct (in_dec Nat.eq_dec x (faddrs l)) as [X|X]; [auto|]. rewrite B2 by exact X. apply A1. apply in_app_iff in Hx. tauto.
  - intros x Hx. rewrite in_app_iff in Hx. rewrite B2, B1; tauto.
Qed.
Lemma delete_rest h1 t fuel : document h1 t -> (2 * List.length (addrs t) <= fuel)%nat ->
  exists c h2 h3, h1 (addr t) = Some c /\ delete_loop fuel h1 (addr t) (c_child c) = Some (Ok h2) /\ free_node h2 (addr t) = Ok h3 /\
    (forall x, In x (addrs t) -> h3 x = None) /\ (forall x, ~ In x (addrs t) -> h3 x = h1 x).
Proof.
  destruct t as [a v l]. intros [L N] Hf. apply linked_eq in L as [P R]. cbn [addrs addr List.length] in *. apply NoDup_cons_iff in N as [N0 N].
  destruct (delete_kids h1 a l None fuel R N N0 ltac:(unfold faddrs; lia)) as (h2 & E & A & B).
  eexists _, h2, (upd h2 a None). split; [exact P|]. split; [exact E|]. split; [|split].
  - unfold free_node, get. rewrite B by exact N0. rewrite P. reflexivity.
  - intros x [<-|Hx]; [apply upd_same|]. destruct (Nat.eq_dec x a) as [->|X]; [apply upd_same|]. rewrite upd_other by exact X. apply A, Hx.
  - intros x Hx. assert (x <> a) by (intros ->; apply Hx; left; reflexivity). rewrite upd_other by assumption. apply B. intro X. apply Hx. right. exact X.
Qed.
Lemma delete_root h t fuel : document h t -> (2 * List.length (addrs t) <= fuel)%nat ->
  exists h', delete fuel h (addr t) = Some (Ok h') /\ (forall x, In x (addrs t) -> h' x = None) /\ (forall x, ~ In x (addrs t) -> h' x = h x).
Proof.
  intros H Hf. destruct (delete_rest h t fuel H Hf) as (c & h2 & h3 & E1 & E2 & E3 & A & B). exists h3. split; [|auto].
  unfold delete. destruct H as [L _]. destruct (linked_root _ _ _ _ _ L) as (w & k & Et & Ct & _).
  assert (Er : remove h (addr t) = Ok h) by (unfold remove, get; rewrite Ct; reflexivity).
  rewrite Er, E1, E2, E3. reflexivity.
Qed.
Lemma delete_subtree h c p v l t r fuel :
  document h (plug c (D p v (l ++ t :: r))) -> (2 * List.length (addrs t) <= fuel)%nat ->
  exists h', delete fuel h (addr t) = Some (Ok h') /\ document h' (plug c (D p v (l ++ r))) /\
    (forall x, In x (addrs t) -> h' x = None) /\
    (forall x, ~ In x (addrs (plug c (D p v (l ++ t :: r)))) -> h' x = h x).
Proof.
  intros H Hf. destruct (remove_spec h c p v l t r H) as (h1 & E & D1 & D2 & F).
  destruct (delete_rest h1 t fuel D2 Hf) as (cc & h2 & h3 & E1 & E2 & E3 & A & B). exists h3. split; [|split; [|split]].
  - unfold delete. rewrite E, E1, E2, E3. reflexivity.
  - destruct D1 as [L N]. split; [|exact N]. eapply linked_frame; [|exact L]. intros x Hx. apply B. intro X.
    destruct H as [_ N']. pose proof (nodup_parts _ _ _ _ _ _ N') as NP. apply NoDup_cons_iff in NP as (N0 & NP). rewrite !in_app_iff in N0. apply NoDup_app_iff in NP as (_ & _ & N3).
    pose proof (plug_addrs c (D p v (l ++ r))) as PA. cbn [addrs] in PA. change (flat_map addrs (l ++ r)) with (faddrs (l ++ r)) in PA. rewrite faddrs_app in PA.
    apply (Permutation_in _ PA) in Hx. cbn in Hx. rewrite !in_app_iff in Hx. destruct Hx as [<-|Hx]; [tauto|].
    apply (N3 x X). rewrite !in_app_iff. tauto.
  - exact A.
  - intros x Hx. rewrite B, F; auto. intro X. apply Hx. apply in_parts. tauto.
Qed.
End P.
