(** Building documents, walking over pointers. *)
From Verif Require Import CBase CBaseProofs XmlEntity XmlModel WalkModel WalkProofs NodeModel SpecNode NodeBuild NodeProofs NodeProofs2 NodeProofs3 NodeProofs4.
From Coq Require Import Permutation.

Fixpoint make_kids (a : nat) (ks : list node) (s : list nat) (h : nheap payload) : outcome (list nat * nheap payload) :=
  match ks with
  | [] => Ok (s, h)
  | k :: ks' => obind (make k (Some a) s h) (fun r => make_kids a ks' (fst r) (snd r))
  end.
Lemma make_elem nm at_ ks parent a s h :
  make (Elem nm at_ ks) parent (a :: s) h = obind (new_node h a parent (PElem nm at_)) (fun h1 => make_kids a ks s h1).
Proof.
  cbn [make]. destruct (new_node h a parent (PElem nm at_)) as [h1|]; [|reflexivity]. cbn [obind].
  revert s h1. induction ks as [|k ks IH]; intros s h1; [reflexivity|]. cbn [make_kids]. destruct (make k (Some a) s h1) as [[s' h']|]; [|reflexivity].
  cbn [obind fst snd]. apply IH.
Qed.
Lemma node_ind4 (P : node -> Prop) :
  (forall nm at_ ks, Forall P ks -> P (Elem nm at_ ks)) -> (forall x, P (Opaque x)) -> forall t, P t.
Proof.
  intros H1 H2. fix IH 1. intros [n a ks|s]; [|apply H2]. apply H1. induction ks as [|k ks IHk]; constructor; [apply IH|exact IHk].
Qed.
Notation ddoc := (document (V := payload)).
Definition made_under (n : node) : Prop := forall c p v l h used rest,
  ddoc h (plug c (D p v l)) -> List.length used = count n -> NoDup (used ++ rest) -> (forall x, In x (used ++ rest) -> h x = None) ->
  exists h' t, make n (Some p) (used ++ rest) h = Ok (rest, h') /\ shows t n /\ addrs t = used /\ addr t = hd O used /\
    ddoc h' (plug c (D p v (l ++ [t]))) /\ (forall x, ~ In x used -> ~ In x (addrs (plug c (D p v l))) -> h' x = h x).
Lemma plug_grow c p v (l : list (dtree payload)) t x : In x (addrs (plug c (D p v (l ++ [t])))) <-> In x (addrs (plug c (D p v l))) \/ In x (addrs t).
Proof.
  rewrite in_parts. cbn [faddrs flat_map]. split.
  - intros [->|[H|[H|[[]|H]]]]; [left|right; exact H|left|left]; apply (Permutation_in _ (Permutation_sym (plug_addrs c (D p v l)))); cbn; rewrite ?in_app_iff; auto.
  - intros [H|H]; [|auto]. apply (Permutation_in _ (plug_addrs c (D p v l))) in H. cbn in H. rewrite in_app_iff in H. unfold faddrs. destruct H as [<-|[H|H]]; auto.
Qed.
Lemma make_kids_spec a : forall ks, Forall made_under ks -> forall c v l h used rest,
  ddoc h (plug c (D a v l)) -> List.length used = list_sum (map count ks) -> NoDup (used ++ rest) -> (forall x, In x (used ++ rest) -> h x = None) ->
  exists h' ts, make_kids a ks (used ++ rest) h = Ok (rest, h') /\ Forall2 shows ts ks /\ faddrs ts = used /\
    ddoc h' (plug c (D a v (l ++ ts))) /\ (forall x, ~ In x used -> ~ In x (addrs (plug c (D a v l))) -> h' x = h x).
Proof.
  induction 1 as [|k ks Hk _ IH]; intros c v l h used rest H Hu N F.
  - cbn in Hu. destruct used; [|discriminate]. exists h, []. rewrite app_nil_r. repeat split; auto; apply H.
  - cbn [map list_sum fold_right] in Hu. change (fold_right Nat.add 0%nat (map count ks)) with (list_sum (map count ks)) in Hu.
    set (u1 := firstn (count k) used). set (u2 := skipn (count k) used).
    assert (Eu : used = u1 ++ u2) by (symmetry; apply firstn_skipn).
    assert (L1 : List.length u1 = count k) by (apply firstn_length_le; lia).
    assert (L2 : List.length u2 = list_sum (map count ks)) by (unfold u2; rewrite skipn_length; lia).
    rewrite Eu, <- app_assoc in N, F |- *.
    destruct (Hk c a v l h u1 (u2 ++ rest) H L1 N F) as (h1 & t & E1 & S1 & A1 & _ & D1 & G1).
    apply NoDup_app_iff in N as (N1 & N2 & N3).
    assert (F1 : forall x, In x (u2 ++ rest) -> h1 x = None).
    { intros x Hx. rewrite G1; [apply F, in_or_app; auto|intro X; apply (N3 x X Hx)|].
      intro X. destruct H as [HL _]. apply (linked_alloc _ _ _ _ _ HL x X). apply F, in_or_app. auto. }
    destruct (IH c v (l ++ [t]) h1 u2 rest D1 L2 N2 F1) as (h2 & ts & E2 & S2 & A2 & D2 & G2).
    exists h2, (t :: ts). cbn [make_kids]. rewrite E1. cbn [obind fst snd]. split; [exact E2|]. split; [constructor; assumption|].
    split; [change (faddrs (t :: ts)) with (addrs t ++ faddrs ts); congruence|]. split; [rewrite <- app_assoc in D2; exact D2|].
    intros x X1 X2. rewrite in_app_iff in X1. rewrite G2, G1; auto. rewrite plug_grow, A1. tauto.
Qed.
Lemma make_spec n : made_under n.
Proof.
  induction n as [nm at_ ks IH|x] using node_ind4; intros c p v l h used rest H Hu N F.
  - cbn [count] in Hu. destruct used as [|a used]; [discriminate|]. injection Hu as Hu. cbn [app] in *.
    rewrite make_elem. destruct (new_child h c p v l a (PElem nm at_) H (F a (or_introl eq_refl))) as (h1 & E1 & D1 & G1). rewrite E1. cbn [obind].
    apply NoDup_cons_iff in N as [N0 N].
    assert (D1' : ddoc h1 (plug (In_ c p v l []) (D a (PElem nm at_) []))) by exact D1.
    assert (F1 : forall x, In x (used ++ rest) -> h1 x = None).
    { intros x Hx. rewrite G1; [apply F; right; exact Hx|intros ->; contradiction|].
      intro X. destruct H as [HL _]. apply (linked_alloc _ _ _ _ _ HL x X). apply F. right. exact Hx. }
    destruct (make_kids_spec a ks IH (In_ c p v l []) (PElem nm at_) [] h1 used rest D1' Hu N F1) as (h2 & ts & E2 & S2 & A2 & D2 & G2).
    exists h2, (D a (PElem nm at_) ts). split; [exact E2|]. split; [constructor; exact S2|]. split; [cbn [addrs]; unfold faddrs in A2; congruence|].
    split; [reflexivity|]. split; [exact D2|].
    intros y Y1 Y2. rewrite G2, G1; [reflexivity|intros ->; apply Y1; left; reflexivity|exact Y2|intro X; apply Y1; right; exact X|].
    cbn [plug]. rewrite plug_grow. cbn. intros [X|[X|[]]]; [contradiction|]. apply Y1. left. exact X.
  - cbn [count] in Hu. destruct used as [|a [|b used]]; try discriminate. cbn [app] in *. cbn [make].
    destruct (new_child h c p v l a (PText x) H (F a (or_introl eq_refl))) as (h1 & E1 & D1 & G1). rewrite E1. cbn [obind].
    exists h1, (D a (PText x) []). split; [reflexivity|]. split; [constructor|]. split; [reflexivity|]. split; [reflexivity|]. split; [exact D1|].
    intros y Y1 Y2. apply G1; [intros ->; apply Y1; left; reflexivity|exact Y2].
Qed.
Lemma make_root n h used rest :
  List.length used = count n -> NoDup (used ++ rest) -> (forall x, In x (used ++ rest) -> h x = None) ->
  exists h' t, make n None (used ++ rest) h = Ok (rest, h') /\ shows t n /\ addrs t = used /\ ddoc h' t /\ (forall x, ~ In x used -> h' x = h x).
Proof.
  intros Hu N F. destruct n as [nm at_ ks|x].
  - cbn [count] in Hu. destruct used as [|a used]; [discriminate|]. injection Hu as Hu. cbn [app] in *.
    rewrite make_elem. destruct (new_root h a (PElem nm at_) (F a (or_introl eq_refl))) as (h1 & E1 & D1 & G1). rewrite E1. cbn [obind].
    apply NoDup_cons_iff in N as [N0 N].
    assert (F1 : forall x, In x (used ++ rest) -> h1 x = None) by (intros x Hx; rewrite G1; [apply F; right; exact Hx|intros ->; contradiction]).
    assert (IH : Forall made_under ks) by (apply Forall_forall; intros; apply make_spec).
    destruct (make_kids_spec a ks IH Hole (PElem nm at_) [] h1 used rest D1 Hu N F1) as (h2 & ts & E2 & S2 & A2 & D2 & G2).
    exists h2, (D a (PElem nm at_) ts). split; [exact E2|]. split; [constructor; exact S2|]. split; [cbn [addrs]; unfold faddrs in A2; congruence|].
    split; [exact D2|]. intros y Y1. rewrite G2, G1; [reflexivity|intros ->; apply Y1; left; reflexivity|intro X; apply Y1; right; exact X|].
    cbn. intros [X|[]]. apply Y1. left. exact X.
  - cbn [count] in Hu. destruct used as [|a [|b used]]; try discriminate. cbn [app make] in *.
    destruct (new_root h a (PText x) (F a (or_introl eq_refl))) as (h1 & E1 & D1 & G1). rewrite E1. cbn [obind].
    exists h1, (D a (PText x) []). split; [reflexivity|]. split; [constructor|]. split; [reflexivity|]. split; [exact D1|].
    intros y Y1. apply G1. intros ->. apply Y1. left. reflexivity.
Qed.
Lemma shows_count t : forall n, shows t n -> List.length (addrs t) = count n.
Proof.
  induction t as [a v l IH] using dtree_ind2. intros n H. inversion H as [? ? ? ? ? F|]; subst; [|reflexivity]. cbn [addrs List.length count]. f_equal.
  clear H. revert ks F. induction IH as [|t l Ht _ IHl]; intros ks F; inversion F; subst; [reflexivity|]. cbn [flat_map map list_sum fold_right].
  rewrite app_length. rewrite (Ht _ H1). f_equal. apply IHl. assumption.
Qed.

(** * Positions *)
Fixpoint at_d (t : dtree payload) (pos : position) : option (dtree payload) :=
  match pos with
  | [] => Some t
  | i :: p => match at_d t p with Some s => nth_error (tkids s) i | None => None end
  end.
Definition ptr (t : dtree payload) (pos : position) : option nat := option_map addr (at_d t pos).
Lemma Forall2_nth {A B} (R : A -> B -> Prop) l m : Forall2 R l m -> forall i,
  match nth_error l i, nth_error m i with Some x, Some y => R x y | None, None => True | _, _ => False end.
Proof. induction 1; intros [|i]; cbn; auto. apply IHForall2. Qed.
Lemma shows_at t n : shows t n -> forall pos,
  match at_d t pos, at_pos n pos with Some s, Some m => shows s m | None, None => True | _, _ => False end.
Proof.
  intros H. induction pos as [|i p IH]; [exact H|]. cbn [at_d at_pos].
  destruct (at_d t p) as [s|], (at_pos n p) as [m|]; try contradiction; [|exact I].
  inversion IH; subst; cbn [tkids node_kids].
  - apply Forall2_nth. assumption.
  - destruct i; exact I.
Qed.
Lemma exists_ptr t n pos : shows t n -> exists_at n pos = match ptr t pos with Some _ => true | None => false end.
Proof.
  intro H. pose proof (shows_at t n H pos) as X. unfold exists_at, ptr. destruct (at_d t pos), (at_pos n pos); try contradiction; reflexivity.
Qed.
(** The links of the node at a position. *)
Definition par_ptr t (pos : position) := match pos with [] => None | _ :: p => ptr t p end.
Definition next_ptr t (pos : position) := match pos with [] => None | i :: p => ptr t (S i :: p) end.
Lemma row_nth (h : nheap payload) par l : forall prev nxt i s, row h par prev l nxt -> nth_error l i = Some s ->
  exists q, linked h par q (match nth_error l (S i) with Some u => Some (addr u) | None => nxt end) s.
Proof.
  induction l as [|t l IH]; intros prev nxt i s R E; [destruct i; discriminate|]. cbn [row] in R. destruct R as [L R].
  destruct i as [|i]; cbn [nth_error] in E.
  - injection E as <-. exists prev. replace (match nth_error (t :: l) 1 with Some u => Some (addr u) | None => nxt end) with (head_or l nxt); [exact L|].
    cbn. destruct l; reflexivity.
  - apply (IH _ _ _ _ R E).
Qed.
Lemma linked_at h t : ddoc h t -> forall pos s, at_d t pos = Some s -> exists q, linked h (par_ptr t pos) q (next_ptr t pos) s.
Proof.
  intros [L _]. induction pos as [|i p IH]; intros s E.
  - injection E as <-. exists None. exact L.
  - cbn [at_d] in E. destruct (at_d t p) as [u|] eqn:Eu; [|discriminate]. destruct (IH u eq_refl) as (q & Lu).
    destruct u as [a v l]. apply linked_eq in Lu as [_ R]. cbn [tkids] in E. destruct (row_nth _ _ _ _ _ _ _ R E) as (q' & Ls). exists q'.
    unfold par_ptr, next_ptr, ptr. cbn [at_d]. rewrite Eu. cbn [option_map addr tkids]. destruct (nth_error l (S i)); exact Ls.
Qed.
Lemma cell_at h t pos s : ddoc h t -> at_d t pos = Some s ->
  exists c, h (addr s) = Some c /\ c_parent c = par_ptr t pos /\ c_next c = next_ptr t pos /\ c_child c = ptr t (O :: pos) /\ c_val c = tval s.
Proof.
  intros H E. destruct (linked_at h t H pos s E) as (q & L). destruct s as [a v l]. apply linked_eq in L as [P _]. eexists. split; [exact P|]. cbn.
  repeat split. unfold ptr. cbn [at_d]. rewrite E. cbn [tkids]. destruct l; reflexivity.
Qed.
Lemma kids_nodup t : NoDup (addrs t) -> forall pos s, at_d t pos = Some s -> NoDup (addrs s).
Proof.
  intros N. induction pos as [|i p IH]; intros s E; [injection E as <-; exact N|]. cbn [at_d] in E.
  destruct (at_d t p) as [u|]; [|discriminate]. specialize (IH u eq_refl). destruct u as [a v l]. cbn [tkids] in E. apply nth_error_In in E.
  apply in_split in E as (l1 & l2 & ->). cbn [addrs] in IH. apply NoDup_cons_iff in IH as [_ IH]. change (flat_map addrs (l1 ++ s :: l2)) with (faddrs (l1 ++ s :: l2)) in IH.
  rewrite faddrs_app in IH. apply NoDup_app_iff in IH as (_ & IH & _). change (faddrs (s :: l2)) with (addrs s ++ faddrs l2) in IH. apply NoDup_app_iff in IH. tauto.
Qed.
Lemma nth_addr_inj (l : list (dtree payload)) : NoDup (faddrs l) -> forall i j s u, nth_error l i = Some s -> nth_error l j = Some u -> addr s = addr u -> i = j.
Proof.
  induction l as [|t l IH]; intros N i j s u E1 E2 E; [destruct i; discriminate|]. change (faddrs (t :: l)) with (addrs t ++ faddrs l) in N.
  apply NoDup_app_iff in N as (N1 & N2 & N3).
  assert (G : forall m k, nth_error l k = Some m -> addr t <> addr m).
  { intros m k Hm X. apply (N3 (addr t) (addr_in t)). rewrite X. apply nth_error_In in Hm. apply in_flat_map. exists m. split; [exact Hm|apply addr_in]. }
  destruct i as [|i], j as [|j]; cbn in E1, E2; [reflexivity| | |f_equal; eapply IH; eauto].
  - injection E1 as ->. exfalso. eapply G; eauto.
  - injection E2 as ->. exfalso. symmetry in E. eapply G; eauto.
Qed.
Lemma ptr_inj h t : ddoc h t -> forall p q s u, at_d t p = Some s -> at_d t q = Some u -> addr s = addr u -> p = q.
Proof.
  intros H. induction p as [|i p IH]; intros [|j q] s u E1 E2 E; [reflexivity| | |].
  - destruct (cell_at h t _ _ H E1) as (c & C1 & C2 & _), (cell_at h t _ _ H E2) as (c' & C1' & C2' & _). rewrite E, C1' in C1. injection C1 as <-.
    rewrite C2' in C2. cbn [par_ptr] in C2. unfold ptr in C2. cbn [at_d] in E2. destruct (at_d t q); [discriminate|discriminate].
  - destruct (cell_at h t _ _ H E1) as (c & C1 & C2 & _), (cell_at h t _ _ H E2) as (c' & C1' & C2' & _). rewrite E, C1' in C1. injection C1 as <-.
    rewrite C2' in C2. cbn [par_ptr] in C2. unfold ptr in C2. cbn [at_d] in E1. destruct (at_d t p); [discriminate|discriminate].
  - destruct (cell_at h t _ _ H E1) as (c & C1 & C2 & _), (cell_at h t _ _ H E2) as (c' & C1' & C2' & _). rewrite E, C1' in C1. injection C1 as <-.
    rewrite C2' in C2. cbn [par_ptr] in C2. unfold ptr in C2. cbn [at_d] in E1, E2.
    destruct (at_d t p) as [a|] eqn:Ea; [|discriminate]. destruct (at_d t q) as [b|] eqn:Eb; [|discriminate]. cbn in C2. injection C2 as C2.
    assert (p = q) as <- by (eapply IH; eauto). f_equal. rewrite Ea in Eb. injection Eb as <-.
    pose proof (kids_nodup t (proj2 H) p a Ea) as N. destruct a as [x v l]. cbn [addrs] in N. apply NoDup_cons_iff in N as [_ N]. cbn [tkids] in E1, E2.
    eapply nth_addr_inj; eauto.
Qed.
Lemma ptr_eqb h t p q s u : ddoc h t -> at_d t p = Some s -> at_d t q = Some u -> Nat.eqb (addr s) (addr u) = pos_eqb p q.
Proof.
  intros H E1 E2. destruct (pos_eqb p q) eqn:E.
  - apply pos_eqb_eq in E. subst q. rewrite E1 in E2. injection E2 as <-. apply Nat.eqb_refl.
  - apply Nat.eqb_neq. intro X. rewrite (ptr_inj h t H p q s u E1 E2 X), pos_eqb_refl in E. discriminate.
Qed.
Definition ptr_of (t : dtree payload) (o : option position) : option nat := match o with Some q => ptr t q | None => None end.
Lemma walk_up_spec h t n top st : ddoc h t -> shows t n -> at_d t top = Some st -> forall pos s fuel,
  at_d t pos = Some s -> (List.length pos < fuel)%nat ->
  walk_up fuel h (addr st) (addr s) = Some (Ok (ptr_of t (climb n top pos))).
Proof.
  intros H Hs Ht. induction pos as [|i p IH]; intros s fuel E Hf; destruct fuel as [|f]; try (cbn in Hf; lia); cbn [walk_up climb];
    destruct (cell_at h t _ _ H E) as (c & C1 & C2 & C3 & _); rewrite C1, C2, C3.
  - reflexivity.
  - cbn [next_ptr par_ptr]. rewrite (exists_ptr t n _ Hs). destruct (ptr t (S i :: p)) as [x|] eqn:Ex; [cbn; rewrite Ex; reflexivity|].
    cbn [at_d] in E. destruct (at_d t p) as [u|] eqn:Eu; [|discriminate]. unfold ptr. rewrite Eu. cbn [option_map].
    rewrite (ptr_eqb h t p top u st H Eu Ht). destruct (pos_eqb p top); [reflexivity|].
    rewrite (IH u f eq_refl) by (cbn in Hf; lia). destruct p; reflexivity.
Qed.
Lemma walk_ptr_spec h t n top st descend pos s fuel : ddoc h t -> shows t n -> at_d t top = Some st -> at_d t pos = Some s ->
  (List.length pos <= fuel)%nat ->
  walk_ptr fuel h (addr st) descend (addr s) = Some (Ok (ptr_of t (walk_next n top descend pos))).
Proof.
  intros H Hs Ht E Hf. unfold walk_ptr, walk_next. destruct (cell_at h t _ _ H E) as (c & C1 & C2 & C3 & C4 & _). rewrite C1, C2, C3, C4.
  rewrite (exists_ptr t n _ Hs).
  assert (Rest : (if Nat.eqb (addr s) (addr st) then Some (Ok None) else match next_ptr t pos with Some x => Some (Ok (Some x)) | None =>
       match par_ptr t pos with None => Some (Ok None) | Some p => if Nat.eqb p (addr st) then Some (Ok None) else walk_up fuel h (addr st) p end end)
     = Some (Ok (ptr_of t (if pos_eqb pos top then None else match pos with [] => None | i :: p => if exists_at n (S i :: p) then Some (S i :: p)
           else if negb (pos_eqb p top) then (match p with [] => None | _ => climb n top p end) else None end)))).
  { rewrite (ptr_eqb h t pos top s st H E Ht). destruct (pos_eqb pos top); [reflexivity|]. destruct pos as [|i p]; [reflexivity|].
    cbn [next_ptr par_ptr]. rewrite (exists_ptr t n _ Hs). destruct (ptr t (S i :: p)) as [x|] eqn:Ex; [cbn; rewrite Ex; reflexivity|].
    cbn [at_d] in E. destruct (at_d t p) as [u|] eqn:Eu; [|discriminate]. unfold ptr. rewrite Eu. cbn [option_map].
    rewrite (ptr_eqb h t p top u st H Eu Ht). destruct (pos_eqb p top); [reflexivity|]. cbn [negb].
    rewrite (walk_up_spec h t n top st H Hs Ht p u fuel Eu) by (cbn in Hf; lia). destruct p; reflexivity. }
  destruct descend; cbn [andb]; [|exact Rest]. destruct (ptr t (O :: pos)) as [k|] eqn:Ek; [cbn; rewrite Ek; reflexivity|exact Rest].
Qed.

(** * Searching *)
Lemma at_d_some t n p m : shows t n -> at_pos n p = Some m -> exists s, at_d t p = Some s /\ shows s m.
Proof. intros H E. pose proof (shows_at t n H p) as X. rewrite E in X. destruct (at_d t p) as [s|]; [eauto|contradiction]. Qed.
Lemma walk_next_exists n top d pos p : walk_next n top d pos = Some p -> exists m, at_pos n p = Some m.
Proof.
  assert (G : forall q x, exists_at n q = true -> Some q = Some x -> exists m, at_pos n x = Some m).
  { intros q x Hq [= <-]. unfold exists_at in Hq. destruct (at_pos n q); [eauto|discriminate]. }
  assert (Cl : forall q x, climb n top q = Some x -> exists m, at_pos n x = Some m).
  { induction q as [|i q IH]; intros x E; [discriminate|]. cbn [climb] in E. destruct (exists_at n (S i :: q)) eqn:Ee; [eapply G; eauto|].
    destruct (pos_eqb q top); [discriminate|]. destruct q as [|j q']; [discriminate|]. apply IH, E. }
  unfold walk_next. intro E. destruct (d && exists_at n (0%nat :: pos)) eqn:Ed.
  { apply andb_prop in Ed as [_ Ed]. eapply G; eauto. }
  destruct (pos_eqb pos top); [discriminate|]. destruct pos as [|i q]; [discriminate|].
  destruct (exists_at n (S i :: q)) eqn:Ee; [eapply G; eauto|]. destruct (negb (pos_eqb q top)); [|discriminate].
  destruct q as [|j q']; [discriminate|]. eapply Cl; eauto.
Qed.
(** Every position of a tree is shorter than its number of nodes. *)
Lemma at_d_len t : forall pos s, at_d t pos = Some s -> (List.length pos + List.length (addrs s) <= List.length (addrs t))%nat.
Proof.
  induction pos as [|i p IH]; intros s E; [injection E as <-; cbn; lia|]. cbn [at_d] in E. destruct (at_d t p) as [u|]; [|discriminate].
  specialize (IH u eq_refl). destruct u as [a v l]. cbn [tkids] in E. apply nth_error_In in E. apply in_split in E as (l1 & l2 & ->).
  cbn [addrs List.length] in *. rewrite flat_map_app, app_length in IH. cbn [flat_map] in IH. rewrite app_length in IH. cbn [List.length]. lia.
Qed.
Lemma find_ptr_spec h t n top st name : ddoc h t -> shows t n -> at_d t top = Some st ->
  forall fuel pos s up r, at_d t pos = Some s -> (List.length (addrs t) <= up)%nat ->
  find_element fuel n top name pos = Some r ->
  find_ptr fuel up h (addr st) name (addr s) = Some (Ok (ptr_of t r)).
Proof.
  intros H Hs Ht. induction fuel as [|f IH]; intros pos s up r E Hu Ef; [discriminate|]. cbn [find_element find_ptr] in *.
  rewrite (walk_ptr_spec h t n top st true pos s up H Hs Ht E) by (pose proof (at_d_len t pos s E); lia).
  destruct (walk_next n top true pos) as [p|] eqn:Ew; [|injection Ef as <-; reflexivity].
  destruct (walk_next_exists _ _ _ _ _ Ew) as (m & Em). rewrite Em in Ef. destruct (at_d_some t n p m Hs Em) as (u & Eu & Su).
  cbn [ptr_of]. unfold ptr at 1. rewrite Eu. cbn [option_map]. destruct (cell_at h t p u H Eu) as (c & C1 & _ & _ & _ & C5). rewrite C1, C5.
  assert (En : is_named name (tval u) = named name m) by (inversion Su; subst; reflexivity). rewrite En.
  destruct (named name m); [injection Ef as <-; cbn; unfold ptr; rewrite Eu; reflexivity|]. apply (IH p u up r Eu Hu Ef).
Qed.
Lemma find_loop_spec h t n top st name : ddoc h t -> shows t n -> at_d t top = Some st ->
  forall fuel pos s up ps, at_d t pos = Some s -> (List.length (addrs t) <= up)%nat ->
  find_loop fuel n top name pos = Some ps ->
  exists l, find_ptr_loop fuel up h (addr st) name (addr s) = Some (Ok l) /\ map Some l = map (ptr t) ps.
Proof.
  intros H Hs Ht. induction fuel as [|f IH]; intros pos s up ps E Hu Ef; [discriminate|]. cbn [find_loop find_ptr_loop] in *.
  destruct (find_element (S f) n top name pos) as [r|] eqn:Er; [|discriminate].
  rewrite (find_ptr_spec h t n top st name H Hs Ht (S f) pos s up r E Hu Er). destruct r as [p|]; cbn [ptr_of].
  - destruct (find_loop f n top name p) as [ps'|] eqn:El; [|discriminate]. injection Ef as <-.
    assert (Ep : exists u, at_d t p = Some u).
    { assert (X : forall k pos, find_element k n top name pos = Some (Some p) -> exists m, at_pos n p = Some m).
      { clear -p. induction k as [|k IHk]; intros pos0 X; [discriminate|]. cbn [find_element] in X. destruct (walk_next n top true pos0) as [q|] eqn:W; [|discriminate].
        destruct (at_pos n q) as [m|] eqn:Em; [|discriminate]. destruct (named name m); [injection X as <-; eauto|eapply IHk; eauto]. }
      destruct (X _ _ Er) as (m & Em). destruct (at_d_some t n p m Hs Em) as (u & Eu & _). eauto. }
    destruct Ep as (u & Eu). unfold ptr at 1. rewrite Eu. cbn [option_map].
    destruct (IH p u up ps' Eu Hu El) as (l & E1 & E2). rewrite E1. exists (addr u :: l). split; [reflexivity|]. cbn [map]. unfold ptr at 1. rewrite Eu, E2. reflexivity.
  - injection Ef as <-. exists []. split; reflexivity.
Qed.
