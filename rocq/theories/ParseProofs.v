(** The reader over linked nodes makes what the reader of XmlModel.v returns. *)
From Verif Require Import CBase CBaseProofs XmlEntity XmlModel NodeModel SpecNode NodeBuild NodeProofs NodeProofs2 NodeProofs3 NodeProofs4 NodeProofs5 ParseModel.
From Coq Require Import Permutation.
Notation length := List.length.
Notation pheap := (nheap payload).
Notation ptree := (dtree payload).

(** * Values of nodes *)
Lemma set_value (h : pheap) c a v l w : ddoc h (plug c (D a v l)) ->
  exists h', modify h a (set_val w) = Ok h' /\ ddoc h' (plug c (D a w l)) /\ (forall x, x <> a -> h' x = h x).
Proof.
  intros [L N]. pose proof L as L0. apply plug_linked in L as [L C]. cbn [addr] in C. apply linked_eq in L as [P R].
  assert (ND : NoDup (a :: faddrs l ++ caddrs c)).
  { eapply Permutation_NoDup; [exact (plug_addrs c (D a v l))|exact N]. }
  apply NoDup_cons_iff in ND as [N0 _]. rewrite in_app_iff in N0.
  unfold modify, get. rewrite P. cbn [obind]. eexists. split; [reflexivity|]. split; [|intros x Hx; now apply upd_other]. split.
  - apply plug_linked. split.
    + apply linked_eq. split; [rewrite upd_same; reflexivity|]. eapply row_frame; [|exact R]. intros x Hx. apply upd_other. intros ->. tauto.
    + cbn [addr]. eapply clinked_frame; [|exact C]. intros x Hx. apply upd_other. intros ->. tauto.
  - eapply Permutation_NoDup; [|exact N]. rewrite (plug_addrs c (D a v l)), (plug_addrs c (D a w l)). reflexivity.
Qed.
(** * The open elements as a context: nothing to the right of the hole *)
Inductive opened : ctx payload -> list frame -> Prop :=
| opened_top : opened Hole []
| opened_in c a kids f l : opened c l -> Forall2 shows kids (rev (fr_kids f)) -> opened (In_ c a (PElem (fr_name f) (fr_attrs f)) kids []) (f :: l).
Lemma opened_addrs c l : opened c l -> forall (t t' : ptree) more, addrs t' = addrs t ++ more -> addrs (plug c t') = addrs (plug c t) ++ more.
Proof.
  induction 1 as [|c a kids f l O IH F]; intros t t' more E; cbn [plug]; [exact E|]. apply IH. cbn [addrs]. rewrite !flat_map_app. cbn [flat_map]. rewrite E, !app_nil_r.
  cbn [app]. now rewrite !app_assoc.
Qed.
Lemma plug_root (c : ctx payload) : forall t t' : ptree, addr t' = addr t -> addr (plug c t') = addr (plug c t).
Proof. induction c as [|c IH a v l0 r]; intros t t' E; cbn [plug]; [exact E|]. now apply IH. Qed.
Lemma opened_shows c l : opened c l -> forall (t : ptree) n, shows t n ->
  shows (plug c t) (fold_left (fun n f => Elem (fr_name f) (fr_attrs f) (rev (fr_kids f) ++ [n])) l n).
Proof.
  induction 1 as [|c a kids f l O IH F]; intros t n Sh; cbn [plug fold_left]; [exact Sh|]. apply IH. constructor. apply Forall2_app; [exact F|]. constructor; [exact Sh|constructor].
Qed.
(** * The relation between the two readers *)
Section Sim.
Context (fresh : nat -> nat) (inj : forall i j, fresh i = fresh j -> i = j) (h0 : pheap) (free : forall i, h0 (fresh i) = None).
Definition made (k : nat) : list nat := map fresh (seq 0 k).
Lemma made_S k : made (S k) = made k ++ [fresh k].
Proof. unfold made. rewrite seq_S, map_app. reflexivity. Qed.
Lemma made_in k x : In x (made k) <-> exists i, (i < k)%nat /\ x = fresh i.
Proof.
  unfold made. rewrite in_map_iff. split.
  - intros (i & <- & I). apply in_seq in I. exists i. split; [lia|reflexivity].
  - intros (i & L & ->). exists i. split; [reflexivity|]. apply in_seq. lia.
Qed.
Lemma fresh_not k : ~ In (fresh k) (made k).
Proof. rewrite made_in. intros (i & L & E). apply inj in E. lia. Qed.
(** The document [T] is all that has been made. *)
Definition holds (h : pheap) (k : nat) (T : ptree) : Prop := ddoc h T /\ addrs T = made k /\ (forall x, ~ In x (made k) -> h x = h0 x).
Lemma holds_fresh h k T : holds h k T -> h (fresh k) = None.
Proof. intros (_ & _ & O). rewrite O by apply fresh_not. apply free. Qed.
Definition rel (s : hstate) (st : pstate) : Prop :=
  hs_buf s = buf st /\ hs_opaque s = opaque st /\
  match stack st with
  | [] => hs_parent s = None /\
          match top st with
          | None => hs_first s = None /\ hs_made s = 0%nat /\ hs_heap s = h0 /\ opaque st = false
          | Some n => exists T, hs_first s = Some (addr T) /\ holds (hs_heap s) (hs_made s) T /\ shows T n
          end
  | f :: l => top st = None /\ opaque st = true /\ exists c a kids,
          opened c l /\ hs_parent s = Some a /\ Forall2 shows kids (rev (fr_kids f)) /\
          hs_first s = Some (addr (plug c (D a (PElem (fr_name f) (fr_attrs f)) kids))) /\
          holds (hs_heap s) (hs_made s) (plug c (D a (PElem (fr_name f) (fr_attrs f)) kids))
  end.
(** What is left when NULL is returned: nothing, except the nodes in [lost]. *)
Definition left_over (h : pheap) (lost : list nat) : Prop := forall x, ~ In x lost -> h x = h0 x.
Lemma delete_holds h k T fuel : holds h k T -> (2 * k <= fuel)%nat -> exists h', delete fuel h (addr T) = Some (Ok h') /\ forall x, h' x = h0 x.
Proof.
  intros (Dc & A & O) F. destruct (delete_root h T fuel Dc) as (h' & E & D1 & D2).
  { rewrite A. unfold made. rewrite map_length, seq_length. exact F. }
  exists h'. split; [exact E|]. intro x. rewrite A in D1, D2. destruct (in_dec Nat.eq_dec x (made k)) as [I|I].
  - rewrite (D1 x I). apply made_in in I as (i & _ & ->). symmetry. apply free.
  - rewrite (D2 x I). now apply O.
Qed.
Lemma error_rel s st fuel : rel s st -> (2 * hs_made s <= fuel)%nat -> exists h, h_error fuel s = HEnd h None /\ left_over h [].
Proof.
  intros (_ & _ & R) F. unfold h_error, h_delete. destruct (stack st) as [|f l].
  - destruct R as (_ & R). destruct (top st).
    + destruct R as (T & E & H & _). rewrite E. destruct (delete_holds _ _ _ fuel H F) as (h' & -> & X). exists h'. split; [reflexivity|]. intros x _. apply X.
    + destruct R as (E & _ & H & _). rewrite E. exists (hs_heap s). split; [reflexivity|]. rewrite H. now intros x _.
  - destruct R as (_ & _ & c & a & kids & _ & _ & _ & E & H). rewrite E. destruct (delete_holds _ _ _ fuel H F) as (h' & -> & X). exists h'. split; [reflexivity|]. intros x _. apply X.
Qed.
(** A new node below an open element. *)
Lemma add_kid h k c l a v kids w : opened c l -> holds h k (plug c (D a v kids)) ->
  exists h', new_node h (fresh k) (Some a) w = Ok h' /\ holds h' (S k) (plug c (D a v (kids ++ [D (fresh k) w []]))).
Proof.
  intros O H. pose proof (holds_fresh _ _ _ H) as Fr. destruct H as (Dc & A & X).
  destruct (new_child h c a v kids (fresh k) w Dc Fr) as (h' & E & Dc' & X'). exists h'. split; [exact E|]. split; [exact Dc'|]. split.
  - rewrite made_S, <- A. apply (opened_addrs c l O). cbn [addrs]. rewrite flat_map_app. cbn [flat_map app addrs]. reflexivity.
  - intros x Nx. rewrite made_S, in_app_iff in Nx. cbn [In] in Nx. rewrite X'; [apply X; tauto|intros ->; tauto|]. rewrite A. tauto.
Qed.
Lemma add_top w : exists h', new_node h0 (fresh 0) None w = Ok h' /\ holds h' 1 (D (fresh 0) w []).
Proof.
  destruct (new_root h0 (fresh 0) w (free 0)) as (h' & E & Dc & X). exists h'. split; [exact E|]. split; [exact Dc|]. split; [reflexivity|].
  intros x Nx. apply X. intros ->. apply Nx. now left.
Qed.
Fixpoint depth (c : ctx payload) : nat := match c with Hole => O | In_ c' _ _ _ _ => S (depth c') end.
Lemma depth_addrs c : forall t : ptree, (depth c < length (addrs (plug c t)))%nat.
Proof.
  induction c as [|c IH a v l r]; intro t; cbn [plug depth].
  - destruct t. cbn [addrs List.length]. lia.
  - pose proof (Permutation_length (plug_addrs c (D a v (l ++ t :: r)))) as Q. rewrite Q, app_length. clear Q IH. cbn [addrs List.length]. rewrite flat_map_app. cbn [flat_map]. rewrite !app_length.
    destruct t as [b w k]. cbn [addrs List.length]. enough (depth c <= length (caddrs c))%nat by lia. clear. induction c as [|c IH a v l r]; cbn [depth caddrs List.length]; [lia|]. rewrite !app_length. lia.
Qed.
Lemma root_spec (h : pheap) (c : ctx payload) : forall fuel t, ddoc h (plug c t) -> (depth c < fuel)%nat -> root_of fuel h (addr t) = Some (Ok (addr (plug c t))).
Proof.
  induction c as [|c IH a v l r]; intros fuel t Dc F; destruct fuel as [|fuel]; try lia; cbn [plug depth] in *.
  - destruct t as [a v l]. destruct Dc as [L _]. apply linked_eq in L as [P _]. cbn [root_of addr]. rewrite P. reflexivity.
  - pose proof Dc as [L _]. apply plug_linked in L as [L C]. apply linked_eq in L as [P R]. apply row_app in R as [_ R]. cbn [row] in R. destruct R as [Lt _].
    destruct t as [b w k]. apply linked_eq in Lt as [Pb _]. cbn [root_of addr]. rewrite Pb. cbn [c_parent].
    apply (IH fuel (D a v (l ++ D b w k :: r)) Dc). lia.
Qed.
Lemma root_self c (t : ptree) : NoDup (addrs (plug c t)) -> addr (plug c t) = addr t -> c = Hole.
Proof.
  intros N E.
  - destruct c as [|c a v l r]; [reflexivity|]. exfalso. cbn [plug] in *.
    assert (I : In (addr (plug c (D a v (l ++ t :: r)))) (a :: caddrs c)).
    { clear. revert a v l r t. induction c as [|c IH b w l' r']; intros a v l r t; cbn [plug caddrs addr]; [now left|]. right. specialize (IH b w l' r' (D a v (l ++ t :: r))). cbn [In] in *. rewrite !in_app_iff. tauto. }
    rewrite E in I. assert (N' : NoDup (addrs (D a v (l ++ t :: r)) ++ caddrs c)) by (eapply Permutation_NoDup; [apply plug_addrs|exact N]).
    cbn [addrs app] in N'. apply NoDup_cons_iff in N' as [N0 N']. apply NoDup_app_iff in N' as (_ & _ & N3).
    assert (It : In (addr t) (flat_map addrs (l ++ t :: r))) by (apply in_flat_map; exists t; split; [apply in_or_app; right; now left|apply addr_in]).
    destruct I as [I|I]; [apply N0; rewrite I; apply in_or_app; now left|]. exact (N3 _ It I).
Qed.
(** * One step *)
Definition agrees (k : nat) (r : res stepr) (x : hres) : Prop :=
  match r with
  | Ret (Go st' t') => exists s', x = HGo s' t' /\ rel s' st' /\ (hs_made s' <= k)%nat
  | Ret (End (Some n)) => exists h T k', x = HEnd h (Some (addr T)) /\ holds h k' T /\ shows T n
  | Ret (End None) => exists h, x = HEnd h None /\ left_over h []
  | Fail => exists h lost, x = HEnd h None /\ left_over h lost /\ (length lost <= 1)%nat
  | OverRead => x = HOver
  | NoFuel => x = HLoop
  end.
Lemma agrees_error k s st fuel : rel s st -> (2 * hs_made s <= fuel)%nat -> agrees k Fail (h_error fuel s).
Proof. intros R F. destruct (error_rel s st fuel R F) as (h & E & L). exists h, []. auto. Qed.
Lemma agrees_read {A} k (r : res A) bad f g : agrees k Fail bad -> (forall a, r = Ret a -> agrees k (f a) (g a)) -> agrees k (rbind r f) (h_read r bad g).
Proof. intros B G. destruct r as [a| | |]; cbn [rbind h_read]; [now apply G|exact B|reflexivity|reflexivity]. Qed.
Lemma agrees_if k (b : bool) x y x' y' : agrees k x x' -> agrees k y y' -> agrees k (if b then x else y) (if b then x' else y').
Proof. now destruct b. Qed.
Lemma agrees_more k k' r x : (k <= k')%nat -> agrees k r x -> agrees k' r x.
Proof. intros L A. destruct r as [[st t|n]| | |]; cbn [agrees] in *; auto. destruct A as (s & E & R & M). exists s. split; [exact E|]. split; [exact R|lia]. Qed.
Lemma second_rel s st : rel s st -> h_second_root s = second_root st.
Proof.
  intros (_ & _ & R). unfold h_second_root, second_root. destruct (stack st) as [|f l].
  - destruct R as (-> & R). destruct (top st); [destruct R as (T & -> & _); reflexivity|destruct R as (-> & _); reflexivity].
  - destruct R as (_ & _ & c & a & kids & _ & -> & _). reflexivity.
Qed.
Lemma rel_kid s f l tp o a c kids b w n h : opened c l -> Forall2 shows kids (rev (fr_kids f)) -> tp = None -> o = true ->
  hs_first s = Some (addr (plug c (D a (PElem (fr_name f) (fr_attrs f)) kids))) ->
  shows (D b w []) n -> holds h (S (hs_made s)) (plug c (D a (PElem (fr_name f) (fr_attrs f)) (kids ++ [D b w []]))) ->
  rel (mkHS h (S (hs_made s)) (Some a) (or_first (hs_first s) b) [] o) (mkP (mkFrame (fr_name f) (fr_attrs f) (n :: fr_kids f) :: l) tp [] o).
Proof.
  intros O F2 -> -> Ef Sh H. split; [reflexivity|]. split; [reflexivity|]. cbn [stack top opaque hs_parent hs_first hs_heap hs_made]. split; [reflexivity|]. split; [reflexivity|].
  exists c, a, (kids ++ [D b w []]). cbn [fr_name fr_attrs fr_kids]. split; [exact O|]. split; [reflexivity|]. split.
  - cbn [rev]. apply Forall2_app; [exact F2|]. constructor; [exact Sh|constructor].
  - split; [|exact H]. rewrite Ef. cbn [or_first]. f_equal. apply plug_root. reflexivity.
Qed.
Lemma special_sim s st name b t fuel : rel s st -> (2 * hs_made s <= fuel)%nat ->
  agrees (S (hs_made s)) (special name b st t) (h_special fresh fuel name b s t).
Proof.
  intros R F. unfold special, h_special. rewrite (second_rel s st R). destruct (second_root st) eqn:SR; [now apply (agrees_error _ s st)|].
  destruct R as (RB & RO & R). destruct (stack st) as [|f l] eqn:Es.
  - destruct R as (Ep & R). unfold second_root in SR. rewrite Es in SR. destruct (top st) as [n|] eqn:Et; [discriminate|]. destruct R as (Ef & Em & Eh & Eo). rewrite Ep, Eh, Em, Ef. cbn [or_first].
    destruct (add_top (PElem name [])) as (h' & E & H). rewrite E. destruct b.
    + cbn [agrees]. eexists. split; [reflexivity|]. split; [|cbn [hs_made]; lia]. split; [reflexivity|]. split; [reflexivity|]. unfold push. cbn [stack top opaque]. rewrite Es, Et. split; [reflexivity|]. split; [reflexivity|].
      exists Hole, (fresh 0), []. cbn [fr_name fr_attrs fr_kids plug rev]. split; [constructor|]. split; [reflexivity|]. split; [constructor|]. split; [reflexivity|exact H].
    + cbn [agrees]. eexists. split; [reflexivity|]. split; [|cbn [hs_made]; lia]. unfold attach. rewrite Es, Et. split; [reflexivity|]. split; [exact RO|]. cbn [stack top hs_parent]. split; [reflexivity|].
      exists (D (fresh 0) (PElem name []) []). split; [reflexivity|]. split; [exact H|]. constructor. constructor.
  - destruct R as (Et & Eo & c & a & kids & O & Ep & F2 & Ef & H). rewrite Ep.
    destruct (add_kid (hs_heap s) (hs_made s) c l a (PElem (fr_name f) (fr_attrs f)) kids (PElem name []) O H) as (h' & E & H'). rewrite E. cbn [agrees]. eexists. split; [reflexivity|]. split; [|cbn [hs_made]; lia].
    unfold attach. rewrite Es, RO. apply (rel_kid s f l (top st) (opaque st) a c kids (fresh (hs_made s)) (PElem name [])); auto. constructor. constructor.
Qed.
Lemma close_sim s st name ch t fuel : rel s st -> (2 * hs_made s <= fuel)%nat -> agrees (S (hs_made s)) (close_tag name ch st t) (h_close fuel name ch s t).
Proof.
  intros R F. pose proof (agrees_error (S (hs_made s)) s st fuel R F) as ER. unfold close_tag, h_close. destruct R as (RB & RO & R). destruct (stack st) as [|f l] eqn:Es.
  - destruct R as (-> & _). exact ER.
  - destruct R as (Et & Eo & c & a & kids & O & Ep & F2 & Ef & H). rewrite Ep. pose proof H as ((L & _) & A & X).
    apply plug_linked in L as [L _]. apply linked_eq in L as [P _]. rewrite P. cbn [c_val c_parent]. destruct (str_eqb name (fr_name f)); [|exact ER].
    apply agrees_read; [exact ER|]. intros t1 _. cbn [agrees]. eexists. split; [reflexivity|]. split; [|cbn [hs_made]; lia].
    assert (Sh : shows (D a (PElem (fr_name f) (fr_attrs f)) kids) (close_frame f)) by (constructor; exact F2).
    inversion O as [E1 E2|c' a' kids' f' l' O' F2' E1 E2]; subst.
    + unfold attach. cbn [stack top opaque close_frame]. rewrite Et. split; [reflexivity|]. split; [exact RO|]. cbn [stack top hs_parent hpar]. split; [reflexivity|].
      cbn [plug] in *. eexists. split; [exact Ef|]. split; [exact H|exact Sh].
    + unfold attach. cbn [stack top opaque]. split; [reflexivity|]. split; [exact RO|]. cbn [stack top hs_parent hpar opaque]. split; [exact Et|]. split; [exact Eo|].
      exists c', a', (kids' ++ [D a (PElem (fr_name f) (fr_attrs f)) kids]). cbn [fr_name fr_attrs fr_kids]. split; [exact O'|]. split; [reflexivity|]. split.
      * cbn [rev]. apply Forall2_app; [exact F2'|]. constructor; [exact Sh|constructor].
      * split; [exact Ef|exact H].
Qed.
Lemma finish_sim k s st fuel : rel s st -> (2 * S (hs_made s) <= fuel)%nat -> agrees k (Ret (End (finish st))) (h_finish fuel s).
Proof.
  intros R F. pose proof (error_rel s st fuel R ltac:(lia)) as ER. destruct R as (RB & RO & R). unfold finish, h_finish. destruct (stack st) as [|f l] eqn:Es.
  - destruct R as (-> & R). destruct (top st) as [n|].
    + destruct R as (T & Ef & H & Sh). cbn [agrees]. exists (hs_heap s), T, (hs_made s). rewrite Ef. auto.
    + destruct R as (Ef & _ & Eh & _). cbn [agrees]. exists (hs_heap s). rewrite Ef. split; [reflexivity|]. rewrite Eh. now intros x _.
  - destruct R as (Et & Eo & c & a & kids & O & Ep & F2 & Ef & H). rewrite Ep.
    assert (RS : root_of fuel (hs_heap s) a = Some (Ok (addr (plug c (D a (PElem (fr_name f) (fr_attrs f)) kids))))).
    { apply (root_spec (hs_heap s) c fuel (D a (PElem (fr_name f) (fr_attrs f)) kids)); [apply H|].
      pose proof (depth_addrs c (D a (PElem (fr_name f) (fr_attrs f)) kids)) as Q. destruct H as (_ & A & _). rewrite A in Q. unfold made in Q. rewrite map_length, seq_length in Q. lia. }
    rewrite RS. destruct l as [|f2 l].
    + inversion O; subst. cbn [plug addr] in *. rewrite Nat.eqb_refl. cbn [agrees]. exists (hs_heap s), (D a (PElem (fr_name f) (fr_attrs f)) kids), (hs_made s). split; [reflexivity|]. split; [exact H|]. constructor. exact F2.
    + replace (Nat.eqb _ a) with false; [exact ER|]. symmetry. apply Nat.eqb_neq. intro E. apply (root_self c (D a (PElem (fr_name f) (fr_attrs f)) kids)) in E; [subst c; inversion O|]. apply H.
Qed.
Lemma holds_set h k c a v kids b w w' : holds h k (plug c (D a v (kids ++ [D b w []]))) ->
  exists h', modify h b (set_val w') = Ok h' /\ holds h' k (plug c (D a v (kids ++ [D b w' []]))).
Proof.
  intros (Dc & A & X). destruct (set_value h (In_ c a v kids []) b w [] w' Dc) as (h' & E & Dc' & X'). exists h'. split; [exact E|]. split; [exact Dc'|]. split.
  - rewrite <- A. clear. revert a v kids. induction c as [|c IH a0 v0 l0 r0]; intros a v kids; cbn [plug].
    + cbn [addrs]. rewrite !flat_map_app. reflexivity.
    + assert (G : forall t t' : ptree, addrs t' = addrs t -> addrs (plug c (D a0 v0 (l0 ++ t' :: r0))) = addrs (plug c (D a0 v0 (l0 ++ t :: r0)))).
      { clear. intros t t' E. revert a0 v0 l0 r0 t t' E. induction c as [|c IH a1 v1 l1 r1]; intros a0 v0 l0 r0 t t' E; cbn [plug].
        - cbn [addrs]. rewrite !flat_map_app. cbn [flat_map]. now rewrite E.
        - apply IH. cbn [addrs]. rewrite !flat_map_app. cbn [flat_map]. now rewrite E. }
      apply G. cbn [addrs]. rewrite !flat_map_app. reflexivity.
  - intros x Nx. rewrite X'; [now apply X|]. intros ->. apply Nx. rewrite <- A. apply in_parts. right. left. now left.
Qed.
Lemma open_sim s st name ch t fuel : rel s st -> buf st = [] -> (2 * S (S (hs_made s)) <= fuel)%nat -> agrees (S (hs_made s)) (open_element name ch st t) (h_open fresh fuel name ch s t).
Proof.
  intros R B0 F. unfold open_element, h_open. rewrite (second_rel s st R). destruct (second_root st) eqn:SR; [apply (agrees_error _ s st); [exact R|lia]|].
  destruct R as (RB & RO & R). destruct (stack st) as [|f l] eqn:Es.
  - destruct R as (Ep & R). unfold second_root in SR. rewrite Es in SR. destruct (top st) as [n|] eqn:Et; [discriminate|]. destruct R as (Ef & Em & Eh & Eo). rewrite Ep, Eh, Em, Ef.
    destruct (add_top (PElem name [])) as (h' & E & H). rewrite E. apply agrees_read.
    + destruct (mxml_isspace ch).
      * cbn [h_error h_delete hs_first hs_heap]. exists h', [fresh 0]. split; [reflexivity|]. split; [|cbn; lia]. intros x Nx. apply H. exact Nx.
      * cbn [h_delete]. destruct (delete_holds h' 1 _ fuel H) as (h1 & Ed & X); [lia|]. cbn [addr] in Ed. rewrite Ed. unfold h_error. cbn [h_delete hs_first hs_heap]. exists h1, []. split; [reflexivity|]. split; [|cbn; lia]. intros x _. apply X.
    + intros ((ch1 & attrs) & t1) _. cbn [addr] in *.
      destruct (set_value h' Hole (fresh 0) (PElem name []) [] (PElem name attrs)) as (h2 & E2 & D2 & X2); [apply H|]. rewrite E2.
      assert (H2 : holds h2 1 (D (fresh 0) (PElem name attrs) [])).
      { split; [exact D2|]. split; [reflexivity|]. intros x Nx. rewrite X2; [now apply H|]. intros ->. apply Nx. now left. }
      assert (RA : rel (mkHS h2 1 None (Some (fresh 0)) [] (hs_opaque s)) (attach (Elem name attrs []) st)).
      { unfold attach. rewrite Es, Et. split; [reflexivity|]. split; [exact RO|]. cbn [stack top hs_parent]. split; [reflexivity|]. exists (D (fresh 0) (PElem name attrs) []). split; [reflexivity|]. split; [exact H2|]. constructor. constructor. }
      cbn [or_first]. destruct (ch1 =? EOF); [apply finish_sim; [exact RA|cbn [hs_made]; lia]|]. destruct (ch1 =? 47); cbn [agrees].
      * eexists. split; [reflexivity|]. split; [exact RA|cbn [hs_made]; lia].
      * eexists. split; [reflexivity|]. split; [|cbn [hs_made]; lia]. unfold push. rewrite Es, Et. split; [reflexivity|]. split; [reflexivity|]. cbn [stack top opaque]. split; [reflexivity|]. split; [reflexivity|].
        exists Hole, (fresh 0), []. cbn [fr_name fr_attrs fr_kids plug rev]. split; [constructor|]. split; [reflexivity|]. split; [constructor|]. split; [reflexivity|exact H2].
  - destruct R as (Et & Eo & c & a & kids & O & Ep & F2 & Ef & H). rewrite Ep. set (v := PElem (fr_name f) (fr_attrs f)) in *.
    destruct (add_kid (hs_heap s) (hs_made s) c l a v kids (PElem name []) O H) as (h' & E & H'). rewrite E.
    assert (AF : forall ks, addr (plug c (D a v ks)) = addr (plug c (D a v kids))) by (intro; now apply plug_root).
    apply agrees_read.
    + destruct (mxml_isspace ch).
      * unfold h_error. cbn [hs_heap hs_first]. rewrite Ef. cbn [h_delete]. rewrite <- (AF (kids ++ [D (fresh (hs_made s)) (PElem name []) []])). destruct (delete_holds h' (S (hs_made s)) _ fuel H') as (h1 & -> & X); [lia|].
        exists h1, []. split; [reflexivity|]. split; [|cbn; lia]. intros x _. apply X.
      * cbn [h_delete]. destruct H' as (Dc & A & X).
        destruct (delete_subtree h' c a v kids (D (fresh (hs_made s)) (PElem name []) []) [] fuel Dc) as (h1 & E1 & D1 & G1 & G2); [cbn [addrs flat_map List.length]; lia|].
        cbn [addr] in E1. rewrite E1. rewrite app_nil_r in D1. unfold h_error. cbn [hs_heap hs_first]. rewrite Ef. cbn [h_delete].
        assert (HH : holds h1 (hs_made s) (plug c (D a v kids))).
        { split; [exact D1|]. split; [apply H|]. intros x Nx. destruct (Nat.eq_dec x (fresh (hs_made s))) as [-> |Nf]; [rewrite G1 by (now left); symmetry; apply free|].
          rewrite G2; [apply X|]; rewrite ?A, made_S, in_app_iff; cbn [In]; intuition. }
        destruct (delete_holds h1 (hs_made s) _ fuel HH) as (h2 & -> & X2); [lia|]. exists h2, []. split; [reflexivity|]. split; [|cbn; lia]. intros x _. apply X2.
    + intros ((ch1 & attrs) & t1) _. destruct (holds_set h' (S (hs_made s)) c a v kids _ _ (PElem name attrs) H') as (h2 & E2 & H2). rewrite E2.
      assert (RA : rel (mkHS h2 (S (hs_made s)) (Some a) (or_first (hs_first s) (fresh (hs_made s))) [] (hs_opaque s)) (attach (Elem name attrs []) st)).
      { unfold attach. rewrite Es, RO. apply (rel_kid s f l (top st) (opaque st) a c kids (fresh (hs_made s)) (PElem name attrs)); auto. constructor. constructor. }
      destruct (ch1 =? EOF); [apply finish_sim; [exact RA|cbn [hs_made]; lia]|]. destruct (ch1 =? 47); cbn [agrees].
      * eexists. split; [reflexivity|]. split; [exact RA|cbn [hs_made]; lia].
      * eexists. split; [reflexivity|]. split; [|cbn [hs_made]; lia]. unfold push. rewrite Es, Et. split; [reflexivity|]. split; [reflexivity|]. cbn [stack top opaque hs_parent hs_first hs_heap hs_made]. split; [reflexivity|]. split; [reflexivity|].
        exists (In_ c a v kids []), (fresh (hs_made s)), []. cbn [fr_name fr_attrs fr_kids plug rev]. split; [now constructor|]. split; [reflexivity|]. split; [constructor|]. split; [|exact H2].
        rewrite Ef. cbn [or_first]. f_equal. symmetry. apply AF.
Qed.
Lemma tag_sim s st t fuel : rel s st -> buf st = [] -> (2 * S (S (hs_made s)) <= fuel)%nat -> agrees (S (hs_made s)) (tag st t) (h_tag fresh fuel s t).
Proof.
  intros R B0 F. assert (ER : forall k, agrees k Fail (h_error fuel s)) by (intro k; apply (agrees_error k s st); [exact R|lia]).
  unfold tag, h_tag. apply agrees_read; [apply ER|]. intros ((ch & name) & t1) _.
  assert (SP : forall (r : res (Z * cstr * list tok)) b, agrees (S (hs_made s)) (rbind r (fun r2 => let '(ch2, name2, t2) := r2 in if ch2 =? 62 then special name2 b st t2 else Fail))
            (h_read r (h_error fuel s) (fun r2 => let '(ch2, name2, t2) := r2 in if ch2 =? 62 then h_special fresh fuel name2 b s t2 else h_error fuel s))).
  { intros r b. apply agrees_read; [apply ER|]. intros ((ch2 & name2) & t2) _. apply agrees_if; [|apply ER]. apply special_sim; [exact R|lia]. }
  apply agrees_if; [apply SP|]. apply agrees_if; [apply SP|].
  assert (OP : agrees (S (hs_made s)) (open_element name ch st t1) (h_open fresh fuel name ch s t1)) by (apply open_sim; auto).
  destruct name as [|x rest]; [exact OP|]. 
  destruct (Z.eq_dec x 63) as [-> |N1]; [apply SP|]. destruct (Z.eq_dec x 33) as [-> |N2]; [apply SP|]. destruct (Z.eq_dec x 47) as [-> |N3]; [apply close_sim; [exact R|lia]|].
  assert (E1 : forall A (p q r o : A), match x with 63 => p | 33 => q | 47 => r | _ => o end = o).
  { intros. destruct x as [|p0|]; try reflexivity. repeat (destruct p0 as [p0|p0|]; try reflexivity); congruence. }
  rewrite !E1. exact OP.
Qed.
(** After the root has been closed every tag is an error. *)
Lemma tag_outside s st t fuel : hs_parent s = None -> hs_first s <> None -> stack st = [] -> top st <> None ->
  match tag st t with Fail => h_tag fresh fuel s t = h_error fuel s | OverRead => h_tag fresh fuel s t = HOver | NoFuel => h_tag fresh fuel s t = HLoop | Ret _ => False end.
Proof.
  intros P Fi Es Et. unfold tag, h_tag.
  assert (S1 : second_root st = true) by (unfold second_root; rewrite Es; now destruct (top st)).
  assert (S2 : h_second_root s = true) by (unfold h_second_root; rewrite P; now destruct (hs_first s)).
  set (good := fun (r : res stepr) (x : hres) => match r with Fail => x = h_error fuel s | OverRead => x = HOver | NoFuel => x = HLoop | Ret _ => False end).
  assert (RD : forall A (r : res A) f g, (forall a, good (f a) (g a)) -> good (rbind r f) (h_read r (h_error fuel s) g)).
  { intros A r f g G. destruct r as [a| | |]; cbn [rbind h_read]; [apply G|reflexivity|reflexivity|reflexivity]. }
  change (good (rbind (collect true name_before name_after (fun _ => false) None t []) (fun r => let '(ch, name, t1) := r in
    if str_eqb name COMMENT then rbind (collect false comment_before never (fun _ => false) None t1 name) (fun r2 => let '(ch2, name2, t2) := r2 in if ch2 =? 62 then special name2 false st t2 else Fail)
    else if str_eqb name CDATA then rbind (collect false cdata_before never (fun _ => false) None t1 name) (fun r2 => let '(ch2, name2, t2) := r2 in if ch2 =? 62 then special name2 false st t2 else Fail)
    else match name with
       | 63 :: _ => rbind (collect false pi_before never (fun _ => false) None t1 name) (fun r2 => let '(ch2, name2, t2) := r2 in if ch2 =? 62 then special name2 true st t2 else Fail)
       | 33 :: _ => rbind (if ch =? 62 then Ret (ch, name, t1) else collect true decl_before never (fun _ => false) None t1 (name ++ utf8 ch)) (fun r2 => let '(ch2, name2, t2) := r2 in if ch2 =? 62 then special name2 true st t2 else Fail)
       | 47 :: rest => close_tag rest ch st t1
       | _ => open_element name ch st t1
       end)) (h_tag fresh fuel s t)).
  apply RD. intros ((ch & name) & t1).
  assert (SP : forall (r : res (Z * cstr * list tok)) b, good (rbind r (fun r2 => let '(ch2, name2, t2) := r2 in if ch2 =? 62 then special name2 b st t2 else Fail))
            (h_read r (h_error fuel s) (fun r2 => let '(ch2, name2, t2) := r2 in if ch2 =? 62 then h_special fresh fuel name2 b s t2 else h_error fuel s))).
  { intros r b. apply RD. intros ((ch2 & name2) & t2). unfold special, h_special. rewrite S1, S2. destruct (ch2 =? 62); reflexivity. }
  assert (OP : good (open_element name ch st t1) (h_open fresh fuel name ch s t1)) by (unfold open_element, h_open; rewrite S1, S2; reflexivity).
  destruct (str_eqb name COMMENT); [apply SP|]. destruct (str_eqb name CDATA); [apply SP|].
  destruct name as [|x rest]; [exact OP|]. 
  destruct (Z.eq_dec x 63) as [-> |N1]; [apply SP|]. destruct (Z.eq_dec x 33) as [-> |N2]; [apply SP|].
  destruct (Z.eq_dec x 47) as [-> |N3]; [unfold close_tag, h_close; rewrite Es, P; reflexivity|].
  assert (E1 : forall A (p q r o : A), match x with 63 => p | 33 => q | 47 => r | _ => o end = o).
  { intros. destruct x as [|p0|]; try reflexivity. repeat (destruct p0 as [p0|p0|]; try reflexivity); congruence. }
  rewrite !E1. exact OP.
Qed.
Lemma rel_buf s st b : rel s st -> rel (with_buf b s) (mkP (stack st) (top st) b (opaque st)).
Proof. intros (RB & RO & R). split; [reflexivity|]. split; [exact RO|]. exact R. Qed.
Lemma pstate_eta st : mkP (stack st) (top st) (buf st) (opaque st) = st. Proof. now destruct st. Qed.
Lemma step_sim s st t fuel : rel s st -> (2 * S (S (S (hs_made s))) <= fuel)%nat -> agrees (S (S (hs_made s))) (step st t) (h_step fresh fuel s t).
Proof.
  intros R F. unfold step, h_step. destruct t as [|[c| |] l]; [apply finish_sim; [exact R|lia]| |apply finish_sim; [exact R|lia]|reflexivity].
  pose proof R as (RB & RO & R'). destruct (c =? 60).
  - unfold h_flush, flush. rewrite RB. destruct (buf st) as [|b0 b] eqn:EB.
    { apply (agrees_more (S (hs_made s))); [lia|]. cbn [hs_made]. change (hs_made s) with (hs_made (with_buf [] s)). apply tag_sim; [now apply rel_buf|reflexivity|cbn [hs_made with_buf]; lia]. }
    rewrite RO. destruct (opaque st) eqn:EO.
    + destruct (stack st) as [|f k] eqn:Es.
      * destruct R' as (Ep & R'). destruct (top st) as [n|] eqn:Et; [|destruct R' as (_ & _ & _ & X); discriminate].
        destruct R' as (T & Ef & H & Sh). rewrite Ep. pose proof (holds_fresh _ _ _ H) as Fr. destruct (new_root (hs_heap s) (fresh (hs_made s)) (PText (b0 :: b)) Fr) as (h' & E & _ & X). rewrite E. cbn [obind].
        rewrite Ef. cbn [or_first]. unfold attach. rewrite Es, Et. cbn [stack top].
        match goal with |- agrees _ (tag ?st' l) (h_tag _ _ ?s' l) => pose proof (tag_outside s' st' l fuel eq_refl ltac:(discriminate) eq_refl ltac:(discriminate)) as TO; set (st1 := st') in *; set (s1 := s') in * end.
        assert (HE : exists h1, h_error fuel s1 = HEnd h1 None /\ left_over h1 [fresh (hs_made s)]).
        { unfold h_error, h_delete, s1. cbn [hs_heap hs_first with_buf]. destruct H as ((L & N) & A & O).
          assert (Nf : ~ In (fresh (hs_made s)) (addrs T)) by (rewrite A; apply fresh_not).
          destruct (delete_root h' T fuel) as (h1 & E1 & D1 & D2).
          - split; [|exact N]. eapply linked_frame; [|exact L]. intros x Ix. apply X. intros ->. contradiction.
          - rewrite A. unfold made. rewrite map_length, seq_length. lia.
          - rewrite E1. exists h1. split; [reflexivity|]. intros x Nx. cbn [In] in Nx. destruct (in_dec Nat.eq_dec x (addrs T)) as [I|I].
            + rewrite (D1 x I). rewrite A in I. apply made_in in I as (i & _ & ->). symmetry. apply free.
            + rewrite (D2 x I), X by (intros ->; tauto). apply O. now rewrite <- A. }
        destruct (tag st1 l) as [r| | |]; [contradiction| | |]; cbn [agrees]; rewrite TO; [|reflexivity|reflexivity].
        destruct HE as (h1 & E1 & L1). exists h1, [fresh (hs_made s)]. split; [exact E1|]. split; [exact L1|cbn; lia].
      * destruct R' as (Et & _ & cx & a & kids & O & Ep & F2 & Ef & H). rewrite Ep.
        destruct (add_kid (hs_heap s) (hs_made s) cx k a (PElem (fr_name f) (fr_attrs f)) kids (PText (b0 :: b)) O H) as (h' & E & H'). rewrite E. cbn [obind].
        match goal with |- agrees _ (tag ?st' l) (h_tag _ _ ?s' l) => assert (RR : rel s' st') end.
        { unfold attach, with_buf. rewrite Es. cbn [stack top hs_heap hs_made hs_parent hs_first hs_opaque].
          apply (rel_kid s f k (top st) true a cx kids (fresh (hs_made s)) (PText (b0 :: b))); auto. constructor. }
        apply (tag_sim _ _ l fuel) in RR; [exact RR|reflexivity|cbn [hs_made with_buf]; lia].
    + apply (agrees_more (S (hs_made s))); [lia|]. cbn [stack top]. pose proof (rel_buf s st [] R) as RR. rewrite EO in RR.
      match goal with |- agrees _ (tag ?st' l) (h_tag _ _ ?s' l) => assert (RR' : rel s' st') end.
      { destruct RR as (_ & _ & RR). split; [reflexivity|]. split; [reflexivity|]. exact RR. }
      apply (tag_sim _ _ l fuel) in RR'; [exact RR'|reflexivity|cbn [hs_made with_buf]; lia].
  - rewrite RO. set (st1 := if mxml_isspace c && negb (opaque st) then mkP (stack st) (top st) [] (opaque st) else st).
    set (s1 := if mxml_isspace c && negb (opaque st) then with_buf [] s else s).
    assert (R1 : rel s1 st1) by (unfold s1, st1; destruct (_ && _); [now apply rel_buf|exact R]).
    assert (M1 : hs_made s1 = hs_made s) by (unfold s1; destruct (_ && _); reflexivity).
    assert (B1 : forall b, agrees (S (S (hs_made s))) (Ret (Go (mkP (stack st1) (top st1) (buf st1 ++ b) (opaque st1)) l)) (HGo (with_buf (hs_buf s1 ++ b) s1) l)).
    { intro b. cbn [agrees]. eexists. split; [reflexivity|]. split; [|cbn [hs_made with_buf]; lia]. destruct R1 as (RB1 & RO1 & R1). rewrite RB1. apply (rel_buf s1 st1 (buf st1 ++ b)). split; auto. }
    destruct (c =? 38).
    + apply agrees_read; [apply (agrees_error _ s st); [exact R|lia]|]. intros (v & l') _. cbn [agrees fst snd]. eexists. split; [reflexivity|]. split; [|cbn [hs_made with_buf]; lia].
      destruct R1 as (RB1 & RO1 & R1). rewrite RB1. apply (rel_buf s1 st1 (buf st1 ++ utf8 v)). split; auto.
    + assert (OE : hs_opaque s1 = opaque st1) by apply R1. rewrite OE. destruct (opaque st1 || negb (mxml_isspace c)); [apply B1|]. cbn [agrees]. eexists. split; [reflexivity|]. split; [exact R1|lia].
Qed.
(** The whole input. *)
Definition answers_as (r : res (option node)) (x : hres) : Prop :=
  match r with
  | Ret (Some n) => exists h T k, x = HEnd h (Some (addr T)) /\ holds h k T /\ shows T n
  | Ret None => exists h, x = HEnd h None /\ left_over h []
  | Fail => exists h lost, x = HEnd h None /\ left_over h lost /\ (length lost <= 1)%nat
  | OverRead => x = HOver
  | NoFuel => x = HLoop
  end.
Lemma run_sim fuel : forall n s st t, rel s st -> (2 * (hs_made s + 2 * n + 1) <= fuel)%nat -> answers_as (run_parser n st t) (h_run fresh fuel n s t).
Proof.
  induction n as [|n IH]; intros s st t R F; cbn [run_parser h_run]; [reflexivity|].
  pose proof (step_sim s st t fuel R ltac:(lia)) as A. destruct (step st t) as [[st' t'|r]| | |]; cbn [agrees rbind answers_as] in *.
  - destruct A as (s' & E & R' & M). rewrite E. apply IH; [exact R'|lia].
  - destruct r as [x|]; [destruct A as (h & T & k & E & H); rewrite E; exists h, T, k; auto|destruct A as (h & E & H); rewrite E; exists h; auto].
  - destruct A as (h & lost & E & H). rewrite E. exists h, lost. auto.
  - now rewrite A.
  - now rewrite A.
Qed.
Lemma load_sim fuel t : (4 * length t + 6 <= fuel)%nat -> answers_as (run_parser (S (length t)) (mkP [] None [] false) t) (load_nodes fresh fuel t h0).
Proof.
  intro F. apply run_sim; [|cbn [hs_made]; lia]. split; [reflexivity|]. split; [reflexivity|]. cbn. auto.
Qed.
End Sim.
