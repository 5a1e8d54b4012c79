(** C50, C51, and C33 for the linked nodes of minixml. [plug c (D p v l)] is any document in which
    node [p] has the children [l]; [document h t] says that the nodes of [t] lie at different
    addresses and every parent, sibling and child link is exactly what the tree [t] says. *)
From Verif Require Import CBase CBaseProofs XmlEntity XmlModel WalkModel NodeModel SpecNode NodeBuild NodeProofs NodeProofs2 NodeProofs3 NodeProofs4 NodeProofs5 NodeProofs6.

(** C50: a new node becomes the last child of its parent; nothing else changes. *)
Theorem C50_new_child {V} (h : nheap V) c p v l a w :
  document h (plug c (D p v l)) -> h a = None ->
  exists h', new_node h a (Some p) w = Ok h' /\ document h' (plug c (D p v (l ++ [D a w []]))) /\
    (forall x, x <> a -> ~ In x (addrs (plug c (D p v l))) -> h' x = h x).
Proof. exact (new_child h c p v l a w). Qed.
Print Assumptions C50_new_child.
Theorem C50_new_root {V} (h : nheap V) a v : h a = None ->
  exists h', new_node h a None v = Ok h' /\ document h' (D a v []) /\ (forall x, x <> a -> h' x = h x).
Proof. exact (new_root h a v). Qed.
Print Assumptions C50_new_root.
(** mxmlAdd of a separate document [t]: at the end, at the front, behind and before child [k]. *)
Theorem C50_add_ends {V} (h : nheap V) c p v l t :
  document h (plug c (D p v l)) -> document h t -> (forall x, In x (addrs t) -> ~ In x (addrs (plug c (D p v l)))) ->
  (exists h', add_node h p true None (addr t) = Ok h' /\ document h' (plug c (D p v (l ++ [t]))) /\
     (forall x, ~ In x (addrs t) -> ~ In x (addrs (plug c (D p v l))) -> h' x = h x)) /\
  (exists h', add_node h p false None (addr t) = Ok h' /\ document h' (plug c (D p v (t :: l))) /\
     (forall x, ~ In x (addrs t) -> ~ In x (addrs (plug c (D p v l))) -> h' x = h x)).
Proof. intros H T Dis. split; [apply add_last; auto|apply add_first; auto]. Qed.
Print Assumptions C50_add_ends.
Theorem C50_add_beside {V} (h : nheap V) c p v l k r t :
  document h (plug c (D p v (l ++ k :: r))) -> document h t ->
  (forall x, In x (addrs t) -> ~ In x (addrs (plug c (D p v (l ++ k :: r))))) ->
  (exists h', add_node h p true (Some (addr k)) (addr t) = Ok h' /\ document h' (plug c (D p v (l ++ k :: t :: r))) /\
    (forall x, ~ In x (addrs t) -> ~ In x (addrs (plug c (D p v (l ++ k :: r)))) -> h' x = h x)) /\
  (exists h', add_node h p false (Some (addr k)) (addr t) = Ok h' /\ document h' (plug c (D p v (l ++ t :: k :: r))) /\
    (forall x, ~ In x (addrs t) -> ~ In x (addrs (plug c (D p v (l ++ k :: r)))) -> h' x = h x)).
Proof. exact (add_beside h c p v l k r t). Qed.
Print Assumptions C50_add_beside.
(** mxmlRemove: the document without [t], and [t] as a document of its own. *)
Theorem C50_remove {V} (h : nheap V) c p v l t r :
  document h (plug c (D p v (l ++ t :: r))) ->
  exists h', remove h (addr t) = Ok h' /\ document h' (plug c (D p v (l ++ r))) /\ document h' t /\
    (forall x, ~ In x (addrs (plug c (D p v (l ++ t :: r)))) -> h' x = h x).
Proof. exact (remove_spec h c p v l t r). Qed.
Print Assumptions C50_remove.
Lemma detached {V} (h : nheap V) c p v l t r h1 : document h (plug c (D p v (l ++ t :: r))) ->
  remove h (addr t) = Ok h1 -> document h1 t -> forall q after child, add_node h q after child (addr t) = add_node h1 q after child (addr t).
Proof.
  intros [L _] E [D1 _] q after child. destruct (linked_root _ _ _ _ _ D1) as (w & k & _ & C1 & _). apply plug_linked in L as [L _].
  apply linked_eq in L as [_ R]. apply row_app in R as [_ R]. cbn [row] in R. destruct R as [R _]. destruct (linked_root _ _ _ _ _ R) as (w' & k' & _ & C2 & _).
  eapply add_attached; [exact E|exact C1|reflexivity|]. exists (mkCell (Some p) (last_or l None) (head_or r None) (head_or k' None) (last_or k' None) w').
  split; [|discriminate]. rewrite C2. reflexivity.
Qed.
(** mxmlAdd of a node that is part of a document moves it, to the end or to the front of any node
    outside its subtree, or beside any child of such a node. *)
Theorem C50_move {V} (h : nheap V) c p v l t r c2 p2 v2 l2 :
  document h (plug c (D p v (l ++ t :: r))) -> plug c (D p v (l ++ r)) = plug c2 (D p2 v2 l2) ->
  (exists h', add_node h p2 true None (addr t) = Ok h' /\ document h' (plug c2 (D p2 v2 (l2 ++ [t])))) /\
  (exists h', add_node h p2 false None (addr t) = Ok h' /\ document h' (plug c2 (D p2 v2 (t :: l2)))) /\
  (forall a k b, l2 = a ++ k :: b ->
    (exists h', add_node h p2 true (Some (addr k)) (addr t) = Ok h' /\ document h' (plug c2 (D p2 v2 (a ++ k :: t :: b)))) /\
    (exists h', add_node h p2 false (Some (addr k)) (addr t) = Ok h' /\ document h' (plug c2 (D p2 v2 (a ++ t :: k :: b))))).
Proof.
  intros H E. destruct (remove_spec h c p v l t r H) as (h1 & E1 & D1 & D2 & _). pose proof (detached _ _ _ _ _ _ _ _ H E1 D2) as M.
  assert (Dis : forall x, In x (addrs t) -> ~ In x (addrs (plug c2 (D p2 v2 l2)))).
  { intros x X1 X2. rewrite <- E in X2. pose proof (nodup_parts _ _ _ _ _ _ (proj2 H)) as N.
    apply (Permutation.Permutation_in _ (plug_addrs c (D p v (l ++ r)))) in X2. cbn [addrs] in X2. change (flat_map addrs (l ++ r)) with (faddrs (l ++ r)) in X2.
    rewrite faddrs_app in X2. cbn [app] in X2. apply NoDup_cons_iff in N as (N0 & N). rewrite !in_app_iff in N0.
    apply NoDup_app_iff in N as (N1 & N & N3). apply NoDup_app_iff in N as (N2 & N & N5). 
    cbn in X2. rewrite !in_app_iff in X2. destruct X2 as [->|[[X2|X2]|X2]].
    - tauto.
    - apply (N3 x X1). rewrite !in_app_iff. auto.
    - apply (N3 x X1). rewrite !in_app_iff. auto.
    - apply (N3 x X1). rewrite !in_app_iff. auto. }
  rewrite E in D1. split; [|split].
  - destruct (add_last h1 c2 p2 v2 l2 t None D1 D2 Dis (or_introl eq_refl)) as (h' & A & B & _). exists h'. rewrite M. auto.
  - destruct (add_first h1 c2 p2 v2 l2 t None D1 D2 Dis (or_introl eq_refl)) as (h' & A & B & _). exists h'. rewrite M. auto.
  - intros a k b ->. destruct (add_beside h1 c2 p2 v2 a k b t D1 D2 Dis) as ((h' & A & B & _) & (h'' & A' & B' & _)). split; [exists h'|exists h'']; rewrite M; auto.
Qed.
Print Assumptions C50_move.
(** The calls that build an XML tree give a well linked document showing exactly that tree, its nodes
    lying at the addresses that were handed out, in document order. *)
Theorem C50_build n h used rest :
  List.length used = count n -> NoDup (used ++ rest) -> (forall x, In x (used ++ rest) -> h x = None) ->
  exists h' t, make n None (used ++ rest) h = Ok (rest, h') /\ shows t n /\ addrs t = used /\ document h' t /\
    (forall x, ~ In x used -> h' x = h x).
Proof. exact (make_root n h used rest). Qed.
Print Assumptions C50_build.
(** Moving a node behind itself does not leave it where it is: it becomes its own next sibling. *)
Theorem C50_behind_itself_refuted : exists (h h' : nheap nat) t a,
  document h t /\ In a (addrs t) /\ add_node h (addr t) true (Some a) a = Ok h' /\
  (exists c, h' a = Some c /\ c_next c = Some a).
Proof.
  pose (h := fun x : nat => match x with
     | 0 => Some (mkCell None None None (Some 1) (Some 3) 0)
     | 1 => Some (mkCell (Some 0) None (Some 2) None None 0)
     | 2 => Some (mkCell (Some 0) (Some 1) (Some 3) None None 0)
     | 3 => Some (mkCell (Some 0) (Some 2) None None None 0)
     | _ => None end%nat).
  exists h. eexists. exists (D 0 0 [D 1 0 []; D 2 0 []; D 3 0 []])%nat, 2%nat. split; [|split; [|split]].
  - split; [repeat split|]. cbn. repeat (constructor; [cbn; intuition discriminate|]). constructor.
  - cbn. auto.
  - vm_compute. reflexivity.
  - eexists. split; vm_compute; reflexivity.
Qed.
Print Assumptions C50_behind_itself_refuted.

(** C51: deleting a document frees each of its nodes, once, and touches nothing else; deleting a node
    inside one frees exactly its subtree and leaves a document. Freeing or reading a node that is
    not allocated would make the result UB. *)
Theorem C51_delete_document {V} (h : nheap V) t fuel : document h t -> (2 * List.length (addrs t) <= fuel)%nat ->
  exists h', delete fuel h (addr t) = Some (Ok h') /\
    (forall x, In x (addrs t) -> h' x = None) /\ (forall x, ~ In x (addrs t) -> h' x = h x).
Proof. exact (delete_root h t fuel). Qed.
Print Assumptions C51_delete_document.
Theorem C51_delete_subtree {V} (h : nheap V) c p v l t r fuel :
  document h (plug c (D p v (l ++ t :: r))) -> (2 * List.length (addrs t) <= fuel)%nat ->
  exists h', delete fuel h (addr t) = Some (Ok h') /\ document h' (plug c (D p v (l ++ r))) /\
    (forall x, In x (addrs t) -> h' x = None) /\
    (forall x, ~ In x (addrs (plug c (D p v (l ++ t :: r)))) -> h' x = h x).
Proof. exact (delete_subtree h c p v l t r fuel). Qed.
Print Assumptions C51_delete_subtree.
(** Building a document and deleting it leaves every address as it was. *)
Theorem C51_build_delete n h used rest fuel :
  List.length used = count n -> NoDup (used ++ rest) -> (forall x, In x (used ++ rest) -> h x = None) ->
  (2 * count n <= fuel)%nat ->
  exists h1 h2, make n None (used ++ rest) h = Ok (rest, h1) /\ delete fuel h1 (hd O used) = Some (Ok h2) /\ forall x, h2 x = h x.
Proof.
  intros Hu N F Hf. destruct (make_root n h used rest Hu N F) as (h1 & t & E1 & S1 & A1 & D1 & G1).
  destruct (delete_root h1 t fuel D1) as (h2 & E2 & A2 & B2); [rewrite A1, Hu; exact Hf|].
  exists h1, h2. split; [exact E1|]. split.
  - rewrite <- A1. destruct t. exact E2.
  - intro x. destruct (in_dec Nat.eq_dec x used) as [X|X].
    + rewrite A2 by (rewrite A1; exact X). symmetry. apply F, in_or_app. auto.
    + rewrite B2, G1; auto. rewrite A1. exact X.
Qed.
Print Assumptions C51_build_delete.

(** C33 over the links: looking for an element by name below node [s], and again from each element
    found, meets exactly the descendants of [s] with that name, each once, in document order. *)
Theorem C33_linked_search h c s n name fuel up :
  document h (plug c s) -> shows (plug c s) n -> (List.length (addrs s) <= fuel)%nat -> (List.length (addrs (plug c s)) <= up)%nat ->
  find_ptr_loop fuel up h (addr s) name (addr s) =
    Some (Ok (map addr (filter (fun k => is_named name (tval k)) (ddesc s)))).
Proof. exact (find_ptr_all h c s n name fuel up). Qed.
Print Assumptions C33_linked_search.
(** Walking on from a child [t] of node [p] without descending gives the next child, and nothing
    after the last one. *)
Theorem C33_linked_children {V} (h : nheap V) c p v l t r fuel : document h (plug c (D p v (l ++ t :: r))) ->
  walk_ptr fuel h p false (addr t) = Some (Ok (first_addr r)).
Proof.
  intros (H & N). apply plug_linked in H as (H & _). apply linked_eq in H as (_ & R). apply row_app in R as (_ & R). cbn [row] in R. destruct R as (L & _).
  destruct (linked_root _ _ _ _ _ L) as (w & k & _ & E & _). apply nodup_parts in N. apply NoDup_cons_iff in N as (N & _).
  unfold walk_ptr. rewrite E. cbn [c_child c_next c_parent]. replace (Nat.eqb (addr t) p) with false.
  - rewrite Nat.eqb_refl. destruct r; reflexivity.
  - symmetry. apply Nat.eqb_neq. intros X. apply N, in_or_app. left. rewrite <- X. apply addr_in.
Qed.
Print Assumptions C33_linked_children.

(** A concrete document: built, searched, cut and freed. *)
Definition ex_xml : node :=
  let leaf := Elem (s2z "x") [] [] in
  Elem (s2z "r") [] [leaf; Elem (s2z "t") [] [leaf; Opaque (s2z "w"); leaf]; leaf].
Definition ex_supply : list nat := [5; 3; 9; 0; 7; 2; 8]%nat.
Example C50_witness : List.length ex_supply = count ex_xml /\ NoDup ex_supply /\
  match make ex_xml None ex_supply (fun _ => None) with
  | Ok (s, h) => s = [] /\
      find_ptr_loop 20 20 h 5 (s2z "x") 5 = Some (Ok [3; 0; 2; 8]%nat) /\
      find_ptr_loop 20 20 h 9 (s2z "x") 9 = Some (Ok [0; 2]%nat) /\
      match add_node h 5 false (Some 3%nat) 9 with Ok h' => find_ptr_loop 20 20 h' 5 (s2z "x") 5 = Some (Ok [0; 2; 3; 8]%nat) | UB => False end /\
      match delete 20 h 9 with
      | Some (Ok h') => find_ptr_loop 20 20 h' 5 (s2z "x") 5 = Some (Ok [3; 8]%nat) /\ map h' [9; 0; 7; 2]%nat = [None; None; None; None]
      | _ => False
      end /\
      match delete 20 h 5 with Some (Ok h') => map h' ex_supply = map (fun _ => None) ex_supply | _ => False end
  | UB => False
  end.
Proof.
  split; [reflexivity|]. split; [unfold ex_supply; repeat (constructor; [cbn; intuition discriminate|]); constructor|]. vm_compute. auto 10.
Qed.
