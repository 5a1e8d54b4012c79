(** Removal, insertion in the middle and at the front, deletion. *)
From Verif Require Import CBase NodeModel SpecNode NodeProofs NodeProofs2.
From Coq Require Import Permutation.

Section P.
Context {V : Type}.
Implicit Types (h : nheap V) (t : dtree V) (l r : list (dtree V)).

(** Either the last of [l] or, when there is none, the parent, gets a new forward link. *)
Lemma forward h p cp l (x y : option nat) :
  h p = Some cp -> row h (Some p) None l x -> NoDup (p :: faddrs l) ->
  exists h', (match last_or l None with Some q => modify h q (set_next y) | None => modify h p (set_child y) end) = Ok h' /\
    row h' (Some p) None l y /\
    h' p = Some (match l with [] => set_child y cp | _ => cp end) /\
    (forall z, z <> p -> ~ In z (faddrs l) -> h' z = h z).
Proof.
  intros P R N. apply NoDup_cons_iff in N as [N0 N]. destruct l as [|t l0] eqn:El.
  - cbn [last_or]. rewrite (modify_at _ _ _ _ P). eexists. split; [reflexivity|]. split; [exact I|]. split; [apply upd_same|].
    intros z Hz _. apply upd_other, Hz.
  - rewrite <- El in *. assert (Hne : l <> []) by (rewrite El; discriminate).
    destruct (row_set_next h (Some p) None l x y R N Hne) as (q & h' & Q1 & Q2 & Q3 & Q4 & Q5). rewrite Q1.
    exists h'. split; [exact Q2|]. split; [exact Q3|]. split; [rewrite Q5; [exact P|]; intros <-; contradiction|].
    intros z _ Hz. apply Q5. intros ->. contradiction.
Qed.
Lemma backward h p cp r (x y : option nat) :
  h p = Some cp -> row h (Some p) x r None -> NoDup (p :: faddrs r) ->
  exists h', (match head_or r None with Some q => modify h q (set_prev y) | None => modify h p (set_last y) end) = Ok h' /\
    row h' (Some p) y r None /\
    h' p = Some (match r with [] => set_last y cp | _ => cp end) /\
    (forall z, z <> p -> ~ In z (faddrs r) -> h' z = h z).
Proof.
  intros P R N. apply NoDup_cons_iff in N as [N0 N]. destruct r as [|t l0] eqn:El.
  - cbn [head_or]. rewrite (modify_at _ _ _ _ P). eexists. split; [reflexivity|]. split; [exact I|]. split; [apply upd_same|].
    intros z Hz _. apply upd_other, Hz.
  - rewrite <- El in *. assert (Hne : r <> []) by (rewrite El; discriminate).
    destruct (row_set_prev h (Some p) x y r None R N Hne) as (q & h' & Q1 & Q2 & Q3 & Q4 & Q5). rewrite Q1.
    exists h'. split; [exact Q2|]. split; [exact Q3|]. split; [rewrite Q5; [exact P|]; intros <-; contradiction|].
    intros z _ Hz. apply Q5. intros ->. contradiction.
Qed.

Lemma in_parts c p v l t r x : In x (addrs (plug c (D p v (l ++ t :: r)))) <->
  x = p \/ In x (addrs t) \/ In x (faddrs l) \/ In x (faddrs r) \/ In x (caddrs c).
Proof.
  pose proof (plug_addrs c (D p v (l ++ t :: r))) as PA. cbn [addrs] in PA.
  change (flat_map addrs (l ++ t :: r)) with (faddrs (l ++ t :: r)) in PA. rewrite faddrs_app in PA. change (faddrs (t :: r)) with (addrs t ++ faddrs r) in PA.
  split; intro H.
  - apply (Permutation_in _ PA) in H. cbn in H. rewrite !in_app_iff in H. destruct H as [H|H]; [auto|tauto].
  - apply (Permutation_in _ (Permutation_sym PA)). cbn. rewrite !in_app_iff. destruct H as [H|H]; [auto|tauto].
Qed.
Lemma nodup_parts c p v l t r : NoDup (addrs (plug c (D p v (l ++ t :: r)))) ->
  NoDup (p :: addrs t ++ faddrs l ++ faddrs r ++ caddrs c).
Proof.
  intro N. pose proof (plug_addrs c (D p v (l ++ t :: r))) as PA. cbn [addrs] in PA.
  change (flat_map addrs (l ++ t :: r)) with (faddrs (l ++ t :: r)) in PA. rewrite faddrs_app in PA. change (faddrs (t :: r)) with (addrs t ++ faddrs r) in PA.
  eapply Permutation_NoDup; [|exact N]. rewrite PA. cbn [app]. constructor. rewrite !app_assoc. apply Permutation_app_tail, Permutation_app_tail, Permutation_app_comm.
Qed.

Lemma remove_spec h c p v l t r :
  document h (plug c (D p v (l ++ t :: r))) ->
  exists h', remove h (addr t) = Ok h' /\ document h' (plug c (D p v (l ++ r))) /\ document h' t /\
    (forall x, ~ In x (addrs (plug c (D p v (l ++ t :: r)))) -> h' x = h x).
Proof.
  intros H. pose proof H as H0. destruct H as [H1 H2]. pose proof (nodup_parts _ _ _ _ _ _ H2) as N.
  apply plug_linked in H1 as [H1 C]. apply linked_eq in H1 as [P R]. apply row_app in R as [R1 R]. cbn [row head_or] in R1, R. destruct R as [L R2].
  rewrite head_or_app, last_or_app in P. cbn [head_or last_or] in P.
  apply NoDup_cons_iff in N as (N0 & N). rewrite !in_app_iff in N0.
  apply NoDup_app_iff in N as (N1 & N & N3). apply NoDup_app_iff in N as (N2 & N & N5). apply NoDup_app_iff in N as (N4 & N6 & N7).
  assert (Np : addr t <> p) by (intros <-; apply N0; left; apply addr_in).
  destruct (linked_root _ _ _ _ _ L) as (w & k & Et & Ct & _). set (n := addr t) in *.
  assert (Nl : ~ In n (faddrs l)) by (intro X; apply (N3 n (addr_in t)); rewrite !in_app_iff; auto).
  assert (Nr : ~ In n (faddrs r)) by (intro X; apply (N3 n (addr_in t)); rewrite !in_app_iff; auto).
  assert (Pl : ~ In p (faddrs l)) by tauto. assert (Pr : ~ In p (faddrs r)) by tauto.
  unfold remove. unfold get at 1. rewrite Ct. cbn [obind c_parent c_prev c_next].
  destruct (forward h p _ l (Some n) (head_or r None) P R1 ltac:(constructor; assumption)) as (h1 & E1 & F1 & P1 & G1).
  rewrite E1. cbn [obind]. unfold get at 1. rewrite (G1 n Np Nl), Ct. cbn [obind c_next c_parent c_prev].
  assert (R2' : row h1 (Some p) (Some n) r None).
  { eapply row_frame; [|exact R2]. intros x Hx. apply G1; [intros ->; contradiction|]. intro X. apply (N5 x X), in_or_app. auto. }
  destruct (backward h1 p _ r (Some n) (last_or l None) P1 R2' ltac:(constructor; assumption)) as (h2 & E2 & F2 & P2 & G2).
  replace (match head_or r None with Some q => modify h1 q (set_prev (last_or l None)) | None => modify h1 p (set_last (last_or l None)) end) with (Ok h2) by (symmetry; exact E2).
  cbn [obind].
  assert (L2 : linked h2 (Some p) (last_or l None) (head_or r None) t).
  { eapply linked_frame; [|exact L]. intros x Hx. assert (x <> p) by (intros ->; tauto).
    assert (~ In x (faddrs l)) by (intro X; apply (N3 x Hx), in_or_app; auto).
    assert (~ In x (faddrs r)) by (intro X; apply (N3 x Hx); rewrite !in_app_iff; auto). rewrite G2, G1; auto. }
  destruct (relink h2 _ _ _ None None None t (fun c => set_next None (set_prev None (set_parent None c))) L2 N1 ltac:(reflexivity)) as (h3 & E3 & L3 & G3).
  fold n in E3, G3. rewrite E3. exists h3. split; [reflexivity|]. split; [|split].
  - eapply (replug h h3 c (D p v (l ++ t :: r)) (D p v (l ++ r))); [exact H0|reflexivity| | |].
    + apply linked_eq. split; [|apply row_app; split].
      * rewrite G3, P2 by auto. rewrite head_or_app, last_or_app. destruct l as [|tl l0], r as [|tr r0]; cbn [head_or last_or set_last set_child c_parent c_prev c_next c_child c_last c_val]; reflexivity.
      * eapply row_frame; [|exact F1]. intros x Hx. assert (x <> p) by (intros ->; contradiction). assert (x <> n) by (intros ->; contradiction).
        rewrite G3, G2; auto. intro X. apply (N5 x Hx), in_or_app. auto.
      * eapply row_frame; [|exact F2]. intros x Hx. apply G3. intros ->. contradiction.
    + intros x Hx. assert (x <> p) by (intros ->; tauto). assert (x <> n) by (intros ->; apply (N3 n (addr_in t)); rewrite !in_app_iff; auto).
      rewrite G3, G2, G1; auto; intro X; [apply (N5 x X), in_or_app; auto|apply (N7 x X Hx)].
    + cbn [addrs]. change (flat_map addrs (l ++ r)) with (faddrs (l ++ r)). rewrite faddrs_app. cbn [app]. constructor; [rewrite !in_app_iff; tauto|].
      rewrite <- app_assoc. apply NoDup_app_iff. split; [exact N2|]. split; [apply NoDup_app_iff; auto|exact N5].
  - split; [exact L3|exact N1].
  - intros x X. rewrite in_parts in X. assert (x <> p) by tauto. assert (x <> n) by (intros ->; apply X; right; left; apply addr_in).
    rewrite G3, G2, G1; auto; tauto.
Qed.

(** Between two children or at the front. *)
Lemma insert_between h c p v l r t :
  document h (plug c (D p v (l ++ r))) -> document h t -> (forall x, In x (addrs t) -> ~ In x (addrs (plug c (D p v (l ++ r))))) ->
  (r <> [] -> l <> [] -> exists h', link_after h p (last_or l None) (addr t) = Ok h' /\ document h' (plug c (D p v (l ++ t :: r))) /\
    (forall x, ~ In x (addrs t) -> ~ In x (addrs (plug c (D p v (l ++ r)))) -> h' x = h x)) /\
  (r <> [] -> l <> [] -> exists h', link_before h p (head_or r None) (addr t) = Ok h' /\ document h' (plug c (D p v (l ++ t :: r))) /\
    (forall x, ~ In x (addrs t) -> ~ In x (addrs (plug c (D p v (l ++ r)))) -> h' x = h x)).
Proof.
  intros H T Dis. destruct (parts h c p v l r t H T Dis) as (P & R1 & R2 & L & N & C).
  apply NoDup_cons_iff in N as (N0 & N). pose proof N as NN. rewrite !in_app_iff in N0.
  apply NoDup_app_iff in N as (N1 & N & N3). apply NoDup_app_iff in N as (N2 & N & N5). apply NoDup_app_iff in N as (N4 & N6 & N7).
  assert (Np : p <> addr t) by (intros ->; apply N0; left; apply addr_in). set (n := addr t) in *.
  assert (Nl : ~ In n (faddrs l)) by (intro X; apply (N3 n (addr_in t)); rewrite !in_app_iff; auto).
  assert (Nr : ~ In n (faddrs r)) by (intro X; apply (N3 n (addr_in t)); rewrite !in_app_iff; auto).
  assert (Pl : ~ In p (faddrs l)) by tauto. assert (Pr : ~ In p (faddrs r)) by tauto.
  assert (Fin : forall h1 h', h1 p = h p -> h' p = h1 p -> l <> [] -> r <> [] ->
     row h' (Some p) None l (Some n) -> linked h' (Some p) (last_or l None) (head_or r None) t -> row h' (Some p) (Some n) r None ->
     (forall x, x <> n -> ~ In x (faddrs l) -> ~ In x (faddrs r) -> h' x = h x) ->
     document h' (plug c (D p v (l ++ t :: r))) /\ (forall x, ~ In x (addrs t) -> ~ In x (addrs (plug c (D p v (l ++ r)))) -> h' x = h x)).
  { intros h1 h' E1 E2 Hl Hr A B DD F. split.
    - eapply (rebuilt h h' c p v l r l r t); auto.
      + rewrite E2, E1, P. destruct l as [|tl l0]; [contradiction|]. destruct r as [|tr r0]; [contradiction|]. reflexivity.
      + intros x Hx. apply F; [intros ->; apply (N3 n (addr_in t)); rewrite !in_app_iff; auto|intro X; apply (N5 x X), in_or_app; auto|intro X; apply (N7 x X Hx)].
      + constructor; [rewrite !in_app_iff; exact N0|exact NN].
    - intros x X1 X2. pose proof (Permutation_sym (plug_addrs c (D p v (l ++ r)))) as PA. cbn [addrs] in PA.
      change (flat_map addrs (l ++ r)) with (faddrs (l ++ r)) in PA. rewrite faddrs_app in PA.
      apply F; [intros ->; apply X1, addr_in| |]; intro X; apply X2; apply (Permutation_in _ PA); cbn; rewrite !in_app_iff; auto. }
  split; intros Hr Hl.
  - destruct (last_snoc l Hl) as (l1 & k & El).
    assert (Kin : In (addr k) (faddrs l)) by (rewrite El, faddrs_app, in_app_iff; right; cbn; rewrite app_nil_r; apply addr_in).
    assert (Elast : last_or l None = Some (addr k)) by (rewrite El, last_or_app; reflexivity).
    assert (Kn : addr k <> n) by (intros E; rewrite E in Kin; contradiction).
    assert (Kp : addr k <> p) by (intros E; rewrite E in Kin; contradiction).
    unfold link_after.
    destruct (relink h None None None (Some p) None None t (set_parent (Some p)) L N1 ltac:(reflexivity)) as (h0 & E0 & L0 & F0). fold n in E0, F0.
    rewrite E0. cbn [obind]. unfold get at 1. rewrite F0, P by exact Np. cbn [obind c_last]. rewrite Elast.
    destruct r as [|tr r0]; [contradiction|]. 
    assert (Hlr : exists z, last_or (tr :: r0) (Some (addr k)) = Some z /\ In z (faddrs (tr :: r0))).
    { destruct (last_snoc (tr :: r0) ltac:(discriminate)) as (r1 & z & Ez). exists (addr z). rewrite Ez, last_or_app, faddrs_app, in_app_iff.
      split; [reflexivity|]. right. cbn. rewrite app_nil_r. apply addr_in. }
    destruct Hlr as (z & Ez & Iz). rewrite Ez. rewrite same_neq.
    2:{ intros <-. apply (N5 _ Kin), in_or_app. left. exact Iz. }
    assert (Ck : exists a b w, h (addr k) = Some (mkCell (Some p) a (Some (addr tr)) b w (tval k))).
    { rewrite El in R1. apply row_app in R1 as [_ R1]. cbn [row head_or] in R1. destruct R1 as [R1 _]. destruct (linked_root _ _ _ _ _ R1) as (w & ks & Ek & Ck & _).
      rewrite Ck. rewrite Ek. cbn [tval]. eauto. }
    destruct Ck as (a & b & w & Ck). unfold get at 1. rewrite F0, Ck by exact Kn. cbn [obind c_parent]. rewrite same_refl. cbn [obind].
    destruct (relink h0 _ _ _ (Some p) (Some (addr k)) None t (set_prev (Some (addr k))) L0 N1 ltac:(reflexivity)) as (h1 & E1 & L1 & F1). fold n in E1, F1.
    rewrite E1. cbn [obind c_next].
    destruct (relink h1 _ _ _ (Some p) (Some (addr k)) (Some (addr tr)) t (set_next (Some (addr tr))) L1 N1 ltac:(reflexivity)) as (h2 & E2 & L2 & F2). fold n in E2, F2.
    rewrite E2. cbn [obind].
    assert (S2 : forall x, x <> n -> h2 x = h x) by (intros x Hx; rewrite F2, F1, F0; auto).
    assert (R2' : row h2 (Some p) (Some (addr k)) (tr :: r0) None).
    { rewrite Elast in R2. eapply row_frame; [|exact R2]. intros x Hx. apply S2. intros ->. contradiction. }
    destruct (row_set_prev h2 (Some p) _ (Some n) (tr :: r0) None R2' N4 Hr) as (q & h3 & Q1 & Q2 & Q3 & Q4 & Q5). cbn [head_or] in Q1. injection Q1 as <-.
    rewrite Q2. cbn [obind].
    assert (R1' : row h3 (Some p) None l (Some (addr tr))).
    { eapply row_frame; [|exact R1]. intros x Hx. rewrite Q5, S2; [reflexivity|intros ->; contradiction|]. intros ->. apply (N5 _ Hx), in_or_app. auto. }
    destruct (row_set_next h3 (Some p) None l _ (Some n) R1' N2 Hl) as (q & h4 & U1 & U2 & U3 & U4 & U5). rewrite Elast in U1. injection U1 as <-.
    rewrite U2. exists h4. split; [reflexivity|]. apply (Fin h h4); auto.
    + rewrite U5, Q5, S2; auto. intros ->. contradiction.
    + eapply linked_frame; [|rewrite Elast; exact L2]. intros x Hx. rewrite U5, Q5; [reflexivity| |]; intros ->; apply (N3 _ Hx); rewrite !in_app_iff; auto.
    + eapply row_frame; [|exact Q3]. intros x Hx. apply U5. intros ->. apply (N5 _ Kin), in_or_app. auto.
    + intros x X1 X2 X3. rewrite U5, Q5, S2; auto; intros ->; contradiction.
  - destruct r as [|k r0]; [contradiction|]. cbn [head_or] in *.
    assert (Kin : In (addr k) (faddrs (k :: r0))) by (cbn; rewrite in_app_iff; left; apply addr_in).
    assert (Kn : addr k <> n) by (intros E; rewrite E in Kin; contradiction).
    assert (Kp : addr k <> p) by (intros E; rewrite E in Kin; contradiction).
    unfold link_before.
    destruct (relink h None None None (Some p) None None t (set_parent (Some p)) L N1 ltac:(reflexivity)) as (h0 & E0 & L0 & F0). fold n in E0, F0.
    rewrite E0. cbn [obind]. unfold get at 1. rewrite F0, P by exact Np. cbn [obind c_child].
    destruct l as [|tl l0] eqn:El; [contradiction|]. cbn [head_or]. rewrite same_neq.
    2:{ intros E. apply (N5 (addr tl)); [cbn; rewrite in_app_iff; left; apply addr_in|]. rewrite <- E. apply in_or_app. left. exact Kin. }
    rewrite <- El in *. 
    assert (Elast : exists q, last_or l None = Some q).
    { destruct (last_snoc l Hl) as (l1 & z & Ez). exists (addr z). rewrite Ez, last_or_app. reflexivity. }
    destruct Elast as (q0 & Elast).
    assert (Ck : exists a b w, h (addr k) = Some (mkCell (Some p) (Some q0) a b w (tval k))).
    { cbn [row] in R2. destruct R2 as [R2 _]. destruct (linked_root _ _ _ _ _ R2) as (w & ks & Ek & Ck & _).
      rewrite Ck, Elast. rewrite Ek. cbn [tval]. eauto. }
    destruct Ck as (a & b & w & Ck). unfold get at 1. rewrite F0, Ck by exact Kn. cbn [obind c_parent]. rewrite same_refl. cbn [obind].
    destruct (relink h0 _ _ _ (Some p) None (Some (addr k)) t (set_next (Some (addr k))) L0 N1 ltac:(reflexivity)) as (h1 & E1 & L1 & F1). fold n in E1, F1.
    rewrite E1. cbn [obind c_prev].
    destruct (relink h1 _ _ _ (Some p) (Some q0) (Some (addr k)) t (set_prev (Some q0)) L1 N1 ltac:(reflexivity)) as (h2 & E2 & L2 & F2). fold n in E2, F2.
    rewrite E2. cbn [obind].
    assert (S2 : forall x, x <> n -> h2 x = h x) by (intros x Hx; rewrite F2, F1, F0; auto).
    assert (R1' : row h2 (Some p) None l (Some (addr k))).
    { eapply row_frame; [|exact R1]. intros x Hx. apply S2. intros ->. contradiction. }
    destruct (row_set_next h2 (Some p) None l _ (Some n) R1' N2 Hl) as (q & h3 & U1 & U2 & U3 & U4 & U5). rewrite Elast in U1. injection U1 as <-.
    rewrite U2. cbn [obind].
    assert (R2' : row h3 (Some p) (Some q0) (k :: r0) None).
    { rewrite Elast in R2. eapply row_frame; [|exact R2]. intros x Hx. rewrite U5, S2; [reflexivity|intros ->; contradiction|]. intros ->. apply (N5 _ U4), in_or_app. auto. }
    destruct (row_set_prev h3 (Some p) _ (Some n) (k :: r0) None R2' N4 ltac:(discriminate)) as (q & h4 & Q1 & Q2 & Q3 & Q4 & Q5). cbn [head_or] in Q1. injection Q1 as <-.
    rewrite Q2. exists h4. split; [reflexivity|]. apply (Fin h h4); auto.
    + rewrite Q5, U5, S2; auto. intros ->. contradiction.
    + eapply row_frame; [|exact U3]. intros x Hx. apply Q5. intros ->. apply (N5 _ Hx), in_or_app. auto.
    + eapply linked_frame; [|rewrite Elast; exact L2]. intros x Hx. rewrite Q5, U5; [reflexivity| |]; intros ->; apply (N3 _ Hx); rewrite !in_app_iff; auto.
    + intros x X1 X2 X3. rewrite Q5, U5, S2; auto; intros ->; contradiction.
Qed.
End P.
