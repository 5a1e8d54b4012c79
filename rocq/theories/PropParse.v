(** C70: the reader over linked nodes. [fresh 0], [fresh 1], ... are the addresses that calloc returns for the nodes. *)
From Verif Require Import CBase CBaseProofs XmlEntity XmlModel WalkModel FileModel NodeModel SpecNode NodeBuild NodeProofs NodeProofs2 NodeProofs3 NodeProofs4 NodeProofs5 NodeProofs6 ParseModel ParseProofs PropNode.
Notation length := List.length.

(** Addresses that are all different and not in use. *)
Definition unused (fresh : nat -> nat) (h : nheap payload) : Prop := (forall i j, fresh i = fresh j -> i = j) /\ forall i, h (fresh i) = None.
(** A string or file that XmlModel.v reads as the tree [n]: the reader returns the root of a document of linked nodes that shows exactly [n],
    its nodes are the ones allocated, in document order, and no other memory changes. *)
Definition reads_as (fresh : nat -> nat) (h : nheap payload) (n : node) (x : hres) : Prop :=
  exists h' T, x = HEnd h' (Some (addr T)) /\ document h' T /\ shows T n /\ addrs T = map fresh (seq 0 (count n)) /\ forall a, ~ In a (addrs T) -> h' a = h a.
Lemma loaded_nodes fresh h fuel t n : unused fresh h -> (4 * length t + 6 <= fuel)%nat -> run_parser (S (length t)) (mkP [] None [] false) t = Ret (Some n) ->
  reads_as fresh h n (load_nodes fresh fuel t h).
Proof.
  intros (I & Fr) F E. pose proof (load_sim fresh I h Fr fuel t F) as A. rewrite E in A. destruct A as (h' & T & k & E' & (Dc & Ad & X) & Sh). exists h', T. split; [exact E'|]. split; [exact Dc|]. split; [exact Sh|].
  assert (K : k = count n). { rewrite <- (shows_count T n Sh), Ad. unfold made. now rewrite map_length, seq_length. }
  subst k. split; [exact Ad|]. intros a Na. apply X. now rewrite <- Ad.
Qed.
Theorem C70_string fresh h fuel s n : unused fresh h -> (4 * length (tok8 s) + 6 <= fuel)%nat -> load_string s = Ret (Some n) ->
  reads_as fresh h n (load_nodes fresh fuel (tok8 s) h).
Proof. exact (loaded_nodes fresh h fuel (tok8 s) n). Qed.
Theorem C70_file fresh h fuel s n : unused fresh h -> (4 * length (ftok8 s) + 6 <= fuel)%nat -> load_bytes s = Ret (Some n) ->
  reads_as fresh h n (load_nodes fresh fuel (ftok8 s) h).
Proof. exact (loaded_nodes fresh h fuel (ftok8 s) n). Qed.
(** NULL is returned exactly when XmlModel.v says so; then at most one node stays allocated, none at a missing end tag, and no other memory changes. *)
Lemma rejected_nodes fresh h fuel t : unused fresh h -> (4 * length t + 6 <= fuel)%nat ->
  (run_parser (S (length t)) (mkP [] None [] false) t = Fail -> exists h' lost, load_nodes fresh fuel t h = HEnd h' None /\ (length lost <= 1)%nat /\ forall a, ~ In a lost -> h' a = h a) /\
  (run_parser (S (length t)) (mkP [] None [] false) t = Ret None -> exists h', load_nodes fresh fuel t h = HEnd h' None /\ forall a, h' a = h a) /\
  (run_parser (S (length t)) (mkP [] None [] false) t = OverRead <-> load_nodes fresh fuel t h = HOver) /\ load_nodes fresh fuel t h <> HUB.
Proof.
  intros (I & Fr) F. pose proof (load_sim fresh I h Fr fuel t F) as A. destruct (run_parser (S (length t)) (mkP [] None [] false) t) as [[n|]| | |]; cbn [answers_as] in A.
  - destruct A as (h' & T & k & E & _). rewrite E. repeat split; discriminate.
  - destruct A as (h' & E & L). rewrite E. split; [discriminate|]. split; [intros _; exists h'; split; [reflexivity|intro a; apply L; intros []]|]. split; [split; discriminate|discriminate].
  - destruct A as (h' & lost & E & L & N). rewrite E. split; [intros _; exists h', lost; auto|]. split; [discriminate|]. split; [split; discriminate|discriminate].
  - rewrite A. split; [discriminate|]. split; [discriminate|]. split; [tauto|discriminate].
  - rewrite A. split; [discriminate|]. split; [discriminate|]. split; [split; discriminate|discriminate].
Qed.
Theorem C70_rejected_string fresh h fuel s : unused fresh h -> (4 * length (tok8 s) + 6 <= fuel)%nat ->
  (load_string s = Fail -> exists h' lost, load_nodes fresh fuel (tok8 s) h = HEnd h' None /\ (length lost <= 1)%nat /\ forall a, ~ In a lost -> h' a = h a) /\
  (load_string s = Ret None -> exists h', load_nodes fresh fuel (tok8 s) h = HEnd h' None /\ forall a, h' a = h a) /\
  (load_string s = OverRead <-> load_nodes fresh fuel (tok8 s) h = HOver) /\ load_nodes fresh fuel (tok8 s) h <> HUB.
Proof. exact (rejected_nodes fresh h fuel (tok8 s)). Qed.
Theorem C70_rejected_file fresh h fuel s : unused fresh h -> (4 * length (ftok8 s) + 6 <= fuel)%nat ->
  (load_bytes s = Fail -> exists h' lost, load_nodes fresh fuel (ftok8 s) h = HEnd h' None /\ (length lost <= 1)%nat /\ forall a, ~ In a lost -> h' a = h a) /\
  (load_bytes s = Ret None -> exists h', load_nodes fresh fuel (ftok8 s) h = HEnd h' None /\ forall a, h' a = h a) /\
  (load_bytes s = OverRead <-> load_nodes fresh fuel (ftok8 s) h = HOver) /\ load_nodes fresh fuel (ftok8 s) h <> HUB.
Proof. exact (rejected_nodes fresh h fuel (ftok8 s)). Qed.
(** A node does stay allocated: a malformed start tag of the root, or text between the end of the root and another tag. *)
Theorem C70_leak_refuted : Forall (fun s => load_string s = Fail /\ exists h' a, load_nodes (fun i => i) 200 (tok8 s) (fun _ => None) = HEnd h' None /\ h' a <> None)
  [s2z "<afs name=>"; s2z "<afs></afs>text<"].
Proof.
  assert (G : forall s a, load_string s = Fail -> match load_nodes (fun i => i) 200 (tok8 s) (fun _ => None) with HEnd h' None => match h' a with Some _ => True | None => False end | _ => False end ->
    load_string s = Fail /\ exists h' a, load_nodes (fun i => i) 200 (tok8 s) (fun _ => None) = HEnd h' None /\ h' a <> None).
  { intros s a E H. split; [exact E|]. destruct (load_nodes (fun i => i) 200 (tok8 s) (fun _ => None)) as [| h' [r|] | | |]; try contradiction. exists h', a. split; [reflexivity|]. now destruct (h' a). }
  constructor; [apply (G _ 0%nat); [reflexivity|vm_compute; exact Logic.I]|]. constructor; [apply (G _ 1%nat); [reflexivity|vm_compute; exact Logic.I]|constructor].
Qed.
(** What every load function does: read a document and delete it. Memory is as before. *)
Theorem C70_load_delete fresh h fuel s n : unused fresh h -> (4 * length (tok8 s) + 6 <= fuel)%nat -> (2 * count n <= fuel)%nat -> load_string s = Ret (Some n) ->
  exists h1 a h2, load_nodes fresh fuel (tok8 s) h = HEnd h1 (Some a) /\ delete fuel h1 a = Some (Ok h2) /\ forall x, h2 x = h x.
Proof.
  intros U F F2 E. pose proof U as (I & Fr). destruct (C70_string fresh h fuel s n U F E) as (h1 & T & E1 & Dc & Sh & A & X). exists h1, (addr T).
  destruct (delete_root h1 T fuel Dc) as (h2 & E2 & D1 & D2); [rewrite (shows_count T n Sh); exact F2|]. exists h2. split; [exact E1|]. split; [exact E2|]. intro x.
  destruct (in_dec Nat.eq_dec x (addrs T)) as [Ix|Ix].
  - rewrite (D1 x Ix). rewrite A in Ix. apply in_map_iff in Ix as (i & <- & _). symmetry. apply Fr.
  - rewrite (D2 x Ix). now apply X.
Qed.
(** * Reading the nodes: through the links one reads what XmlModel.v reads from the tree *)
Lemma shows_desc t : forall n, shows t n -> Forall2 shows (ddesc t) (descendants n).
Proof.
  induction t as [a v l IH] using dtree_ind2. intros n H. inversion H as [? nm at_ ? ks F|]; subst; [|constructor]. cbn [ddesc descendants]. clear H. revert ks F.
  induction IH as [|t l Ht _ IHl]; intros ks F; inversion F; subst; [constructor|]. cbn [flat_map]. constructor; [assumption|]. apply Forall2_app; [now apply Ht|now apply IHl].
Qed.
Lemma filter_shows name : forall ts ns, Forall2 shows ts ns -> Forall2 shows (filter (fun k => is_named name (tval k)) ts) (filter (named name) ns).
Proof.
  induction 1 as [|t n ts ns H F IH]; [constructor|]. cbn [filter]. rewrite (shows_named t n name H). destruct (is_named name (tval t)); [constructor; assumption|exact IH].
Qed.
(** Looking for elements by name, from the root or from any node [s] below it, visits nodes that show exactly the elements found in the tree. *)
Theorem C70_elements h c s n m name fuel up : document h (plug c s) -> shows (plug c s) n -> shows s m -> (length (addrs s) <= fuel)%nat -> (length (addrs (plug c s)) <= up)%nat ->
  exists found, find_ptr_loop fuel up h (addr s) name (addr s) = Some (Ok (map addr found)) /\ Forall2 shows found (find_all name m) /\ incl found (ddesc s).
Proof.
  intros Dc Sh Sm F U. exists (filter (fun k => is_named name (tval k)) (ddesc s)). split; [exact (C33_linked_search h c s n name fuel up Dc Sh F U)|]. split.
  - unfold find_all. apply filter_shows. now apply shows_desc.
  - intros x Hx. apply filter_In in Hx. tauto.
Qed.
(** The same document seen from any of its nodes. *)
Lemma below_plug (t : dtree payload) : forall s, In s (ddesc t) -> exists c, t = plug c s.
Proof.
  induction t as [a v l IH] using dtree_ind2. intros s I. cbn [ddesc] in I. apply in_flat_map in I as (k & Ik & I). apply in_split in Ik as (l1 & l2 & ->).
  cbn [In] in I. destruct I as [-> |I].
  - exists (In_ Hole a v l1 l2). reflexivity.
  - rewrite Forall_forall in IH. destruct (IH k ltac:(apply in_or_app; right; now left) s I) as (c & E).
    assert (G : forall c : ctx payload, exists c' : ctx payload, forall t : dtree payload, D a v (l1 ++ plug c t :: l2) = plug c' t).
    { clear. induction c as [|c (c' & IH) b w x y].
      - exists (In_ Hole a v l1 l2). reflexivity.
      - exists (In_ c' b w x y). intro t. cbn [plug]. apply IH. }
    destruct (G c) as (c' & G'). exists c'. rewrite E at 1. apply G'.
Qed.
Theorem C70_from_any_node h (t s : dtree payload) : document h t -> In s (ddesc t) -> exists c : ctx payload, document h (plug c s) /\ plug c s = t.
Proof. intros Dc I. destruct (below_plug t s I) as (c & E). exists c. now rewrite <- E. Qed.
(** Name, attributes, text and children of a node. *)
Theorem C70_fields h c s n fuel : document h (plug c s) -> shows s n ->
  element_ptr h (addr s) = Ok (node_name n) /\ (forall name, attr_ptr h (addr s) name = Ok (node_attr n name)) /\
  (exists text, opaque_ptr h (addr s) = Ok text /\ option_map string_trim text = node_text n) /\
  ((length (tkids s) <= fuel)%nat -> children_ptr fuel h (addr s) = Some (Ok (map addr (tkids s))) /\ Forall2 shows (tkids s) (node_kids n)).
Proof.
  intros [L _] Sh. apply plug_linked in L as [L _]. destruct s as [a v l]. apply linked_eq in L as [P R]. cbn [addr tkids].
  assert (CH : forall par prev nxt l fuel, row h par prev l nxt -> nxt = None -> (length l <= fuel)%nat -> siblings_ptr fuel h (head_or l None) = Some (Ok (map addr l))).
  { clear. intros par prev nxt l. revert prev. induction l as [|[b w k] l IH]; intros prev fuel R -> F; [destruct fuel; reflexivity|]. cbn [row] in R. destruct R as [L R]. apply linked_eq in L as [P _].
    cbn [List.length] in F. destruct fuel as [|fuel]; [lia|]. cbn [head_or siblings_ptr addr map]. rewrite P. cbn [c_next]. rewrite (IH _ fuel R eq_refl) by lia. reflexivity. }
  unfold element_ptr, attr_ptr, opaque_ptr, children_ptr. rewrite P. cbn [c_val c_child].
  inversion Sh as [? nm at_ ? ks F|]; subst.
  - split; [reflexivity|]. split; [reflexivity|]. split.
    + destruct l as [|[b w k] l]; inversion F as [|? k0 ? ks' S0 F0]; subst; cbn [head_or addr]; [exists None; split; reflexivity|].
      cbn [row] in R. destruct R as [L R]. apply linked_eq in L as [Pb _]. rewrite Pb. cbn [c_val]. inversion S0; subst; [exists None|exists (Some x)]; split; reflexivity.
    + intro Fu. split; [exact (CH _ _ _ l fuel R eq_refl Fu)|exact F].
  - split; [reflexivity|]. split; [reflexivity|]. split; [exists (Some x); split; reflexivity|]. intros _. split; [destruct fuel; reflexivity|constructor].
Qed.
(** * Witness: a small document with a declaration, attributes, text and an entity *)
Definition ex_xml70 : cstr := s2z "<?xml version=""1.0""?><a x=""1""> t &amp; <b/><b>u</b></a>".
Example C70_witness : unused (fun i => 3 + 2 * i)%nat (fun _ => None) /\ (4 * length (tok8 ex_xml70) + 6 <= 300)%nat /\
  load_string ex_xml70 = Ret (Some (Elem (s2z "?xml version=""1.0""?") [] [Elem (s2z "a") [(s2z "x", Some (s2z "1"))] [Opaque (s2z " t & "); Elem (s2z "b") [] []; Elem (s2z "b") [] [Opaque (s2z "u")]]])) /\
  match load_nodes (fun i => 3 + 2 * i)%nat 300 (tok8 ex_xml70) (fun _ => None) with
  | HEnd h (Some a) => a = 3%nat /\ find_ptr_loop 20 20 h a (s2z "b") a = Some (Ok [9; 11]%nat) /\ opaque_ptr h 11 = Ok (Some (s2z "u")) /\ children_ptr 9 h 5 = Some (Ok [7; 9; 11]%nat) /\ attr_ptr h 5 (s2z "x") = Ok (Some (s2z "1"))
  | _ => False end.
Proof. split; [split; [intros; lia|reflexivity]|]. split; [apply Nat.leb_le; reflexivity|]. split; [reflexivity|]. vm_compute. auto 10. Qed.
Print Assumptions C70_string.
Print Assumptions C70_file.
Print Assumptions C70_rejected_string.
Print Assumptions C70_rejected_file.
Print Assumptions C70_leak_refuted.
Print Assumptions C70_load_delete.
Print Assumptions C70_elements.
Print Assumptions C70_from_any_node.
Print Assumptions C70_fields.
