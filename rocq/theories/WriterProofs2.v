(** The writer's walk over linked nodes writes the tree they show. *)
From Verif Require Import CBase CBaseProofs XmlEntity XmlModel SpecXml WsModel WsProofs NodeModel SpecNode NodeBuild NodeProofs NodeProofs2 NodeProofs3 NodeProofs4 NodeProofs5 WriterModel SpecWriter WriterProofs.

Notation ptree := (dtree payload).
Fixpoint visits (t : ptree) : nat := match t with D _ _ l => S (list_sum (map (fun k => S (visits k)) l)) end.
Definition row_visits (l : list ptree) : nat := list_sum (map (fun k => S (visits k)) l).
Lemma visits_eq a v l : visits (D a v l) = S (row_visits l). Proof. reflexivity. Qed.
Definition resume (r : outcome (cstr * Z)) (k : cstr -> Z -> option (outcome (cstr * Z))) : option (outcome (cstr * Z)) :=
  match r with UB => Some UB | Ok (s, col) => k s col end.
Lemma resume_seq f g col K : resume ((f ;; g) col) K = resume (f col) (fun s c => resume (g c) (fun s' c' => K (s ++ s') c')).
Proof. unfold pseq. destruct (f col) as [(s, c)|]; [|reflexivity]. cbn [obind fst snd resume]. destruct (g c) as [(s', c')|]; reflexivity. Qed.
Lemma resume_ext r K K' : (forall s c, K s c = K' s c) -> resume r K = resume r K'.
Proof. intro E. destruct r as [(s, c)|]; [apply E|reflexivity]. Qed.
Lemma cell_at (h : nheap payload) c a v (l : list ptree) : document h (plug c (D a v l)) -> h a = Some (mkCell (hpar c) (hprev c) (hnext c) (head_or l None) (last_or l None) v).
Proof. intros (L & _). apply plug_linked in L as (L & _). apply linked_eq in L as (E & _). exact E. Qed.
Section Walk.
Context (h : nheap payload) (node : nat) (ask : nat -> place -> outcome cstr) (cb : checked_cb).
Definition walked (s : ptree) : Prop := forall c n, document h (plug c s) -> shows s n -> answers cb ask (plug c s) ->
  (forall x, In x (faddrs (tkids s)) -> x <> node) ->
  forall k out col, write_ptr (visits s + k) h node ask (Enter (addr s)) out col =
    resume (write_col cb (ancestors c) n col) (fun t col' => write_ptr k h node ask (Leave (addr s)) (out ++ t) col').
Lemma walk_row a nm at_ c k : forall r l x nx nr,
  Forall walked (x :: r) -> document h (plug c (D a (PElem nm at_) (l ++ x :: r))) -> shows x nx -> Forall2 shows r nr -> answers cb ask (plug c (D a (PElem nm at_) (l ++ x :: r))) ->
  (forall y, In y (faddrs (x :: r)) -> y <> node) ->
  forall out col, write_ptr (row_visits (x :: r) + k) h node ask (Enter (addr x)) out col =
    resume ((kids_col cb (nm :: ancestors c) (nx :: nr) ;; close_tag (ask a) nm) col) (fun t col' => write_ptr k h node ask (Leave a) (out ++ t) col').
Proof.
  induction r as [|y r IH]; intros l x nx nr W Doc S1 S2 A N out col.
  - inversion S2; subst. inversion W as [|? ? W1 _]; subst. change (row_visits [x]) with (S (visits x) + 0)%nat.
    replace (S (visits x) + 0 + k)%nat with (visits x + S k)%nat by lia.
    rewrite (W1 (In_ c a (PElem nm at_) l []) nx Doc S1 A).
    2:{ intros y Hy. apply N. destruct x as [b w q]. cbn [faddrs flat_map]. apply in_or_app. left. cbn. right. exact Hy. }
    cbn [ancestors kids_col]. rewrite resume_seq. rewrite resume_seq. apply resume_ext. intros s1 c1. unfold pnil. cbn [resume write_ptr].
    destruct x as [b w q]. cbn [addr].
    assert (E : h b = Some (mkCell (Some a) (last_or l None) None (head_or q None) (last_or q None) w)) by exact (cell_at h (In_ c a (PElem nm at_) l []) b w q Doc).
    rewrite E. cbn [c_next c_parent]. replace (Nat.eqb b node) with false by (symmetry; apply Nat.eqb_neq, N; cbn; auto).
    rewrite (cell_at h c a _ _ Doc). cbn [c_val name_of obind]. destruct (close_tag (ask a) nm c1) as [(s2, c2)|]; [|reflexivity]. cbn [resume].
    rewrite app_nil_r, app_assoc. reflexivity.
  - inversion S2 as [|? ny ? nr' Sy Sr]; subst. inversion W as [|? ? W1 W2]; subst.
    change (row_visits (x :: y :: r)) with (S (visits x) + row_visits (y :: r))%nat.
    replace (S (visits x) + row_visits (y :: r) + k)%nat with (visits x + S (row_visits (y :: r) + k))%nat by lia.
    rewrite (W1 (In_ c a (PElem nm at_) l (y :: r)) nx Doc S1 A).
    2:{ intros z Hz. apply N. destruct x as [b w q]. cbn [faddrs flat_map]. apply in_or_app. left. cbn. right. exact Hz. }
    cbn [ancestors]. change (kids_col cb (nm :: ancestors c) (nx :: ny :: nr')) with (write_col cb (nm :: ancestors c) nx ;; kids_col cb (nm :: ancestors c) (ny :: nr')).
    rewrite !resume_seq. apply resume_ext. intros s1 c1. cbn [write_ptr].
    destruct x as [b w q]. cbn [addr].
    assert (E : h b = Some (mkCell (Some a) (last_or l None) (Some (addr y)) (head_or q None) (last_or q None) w)) by exact (cell_at h (In_ c a (PElem nm at_) l (y :: r)) b w q Doc).
    rewrite E. cbn [c_next]. assert (L : l ++ D b w q :: y :: r = (l ++ [D b w q]) ++ y :: r) by (rewrite <- app_assoc; reflexivity).
    rewrite (IH (l ++ [D b w q]) y ny nr'); auto.
    + rewrite resume_seq. apply resume_ext. intros s2 c2. apply resume_ext. intros s3 c3. rewrite <- !app_assoc. reflexivity.
    + rewrite <- L. exact Doc.
    + rewrite <- L. exact A.
    + intros z Hz. apply N. cbn [faddrs flat_map]. apply in_or_app. right. exact Hz.
Qed.
Lemma walk_tree s : walked s.
Proof.
  induction s as [a v l IH] using dtree_ind2. intros c n Doc Sh A N k out col. rewrite visits_eq. cbn [addr Nat.add write_ptr].
  rewrite (cell_at _ _ _ _ _ Doc). cbn [c_val c_child]. pose proof (A c (D a v l) n eq_refl Sh) as Q. cbn [addr] in Q.
  inversion Sh as [? nm at_ ts ks F|]; subst.
  - rewrite write_col_elem.
    assert (O : forall b col0, open_tag (ask a) nm at_ b col0 = open_tag (cb (ancestors c) (Elem nm at_ ks)) nm at_ b col0) by (intros; unfold open_tag, pseq, pws; now rewrite !Q).
    assert (C : forall col0, close_tag (ask a) nm col0 = close_tag (cb (ancestors c) (Elem nm at_ ks)) nm col0) by (intros; unfold close_tag, pseq, pws; now rewrite !Q).
    destruct l as [|x r]; inversion F as [|? nx ? nr Fx Fr]; subst; cbn [head_or].
    + rewrite O. rewrite resume_seq. destruct (open_tag (cb (ancestors c) (Elem nm at_ [])) nm at_ false col) as [(s1, c1)|]; [|reflexivity]. cbn [resume]. unfold pnil. cbn [resume]. rewrite app_nil_r. reflexivity.
    + rewrite O. rewrite resume_seq. destruct (open_tag (cb (ancestors c) (Elem nm at_ (nx :: nr))) nm at_ true col) as [(s1, c1)|]; [|reflexivity]. cbn [resume].
      rewrite (walk_row a nm at_ c k r [] x nx nr IH Doc Fx Fr A N). rewrite !resume_seq. apply resume_ext. intros s2 c2. rewrite C. apply resume_ext. intros s3 c3. rewrite <- !app_assoc. reflexivity.
  - cbn [head_or write_col]. reflexivity.
Qed.
End Walk.
(** mxml_write_node on a node without next sibling. *)
Lemma write_ptr_spec h ask cb c s n fuel : document h (plug c s) -> hnext c = None -> shows s n -> answers cb ask (plug c s) -> (2 * List.length (addrs s) <= fuel)%nat ->
  write_ptr fuel h (addr s) ask (Enter (addr s)) [] 0 = Some (write_col cb (ancestors c) n 0).
Proof.
  intros Doc Nx Sh A Hf. 
  assert (V : forall t : ptree, (visits t + 1 = 2 * List.length (addrs t))%nat).
  { induction t as [a v l IH] using dtree_ind2. rewrite visits_eq. cbn [addrs List.length].
    assert (G : (row_visits l = 2 * List.length (flat_map addrs l))%nat); [|lia]. unfold row_visits. induction IH as [|t l Ht _ IHl]; [reflexivity|]. cbn [map list_sum fold_right flat_map]. change (fold_right Nat.add 0%nat (map (fun k => S (visits k)) l)) with (list_sum (map (fun k => S (visits k)) l)). rewrite app_length. lia. }
  specialize (V s). replace fuel with (visits s + S (fuel - visits s - 1))%nat by lia.
  rewrite (walk_tree h (addr s) ask cb s c n Doc Sh A).
  2:{ intros x Hx ->. destruct Doc as (_ & ND). apply NoDup_parts in ND as (ND & _). destruct s as [a v l]. cbn in ND, Hx. inversion ND; subst. contradiction. }
  destruct (write_col cb (ancestors c) n 0) as [(t, col)|]; [|reflexivity]. cbn [resume write_ptr]. destruct s as [a v l]. cbn [addr].
  rewrite (cell_at _ _ _ _ _ Doc). cbn [c_next]. rewrite Nx, Nat.eqb_refl. reflexivity.
Qed.
