(** Tools for the proofs about saved and loaded objects. *)
From Verif Require Import CBase CBaseProofs XmlEntity XmlModel SpecXml EntityProofs Utf8Proofs TrimProofs XmlProofs XmlText XmlRound SimProofs
  TocModel TocXmlModel.

(** * Searching a list of children *)
Definition find_in (n : cstr) (ks : list node) : option node := List.find (named n) (flat_map (fun k => k :: descendants k) ks).
Definition all_in (n : cstr) (ks : list node) : list node := filter (named n) (flat_map (fun k => k :: descendants k) ks).
Lemma find_elem_in n m a ks : find_elem n (Elem m a ks) = find_in n ks.
Proof. reflexivity. Qed.
Lemma find_all_in n m a ks : find_all n (Elem m a ks) = all_in n ks.
Proof. reflexivity. Qed.
Lemma find_app_opt {A} (f : A -> bool) l1 l2 : List.find f (l1 ++ l2) = match List.find f l1 with Some x => Some x | None => List.find f l2 end.
Proof. induction l1 as [|x l1 IH]; [reflexivity|]. cbn. destruct (f x); [reflexivity|exact IH]. Qed.
Lemma find_in_app n k1 k2 : find_in n (k1 ++ k2) = match find_in n k1 with Some x => Some x | None => find_in n k2 end.
Proof. unfold find_in. rewrite flat_map_app. apply find_app_opt. Qed.
Lemma find_in_cons n k ks : find_in n (k :: ks) =
  if named n k then Some k else match find_elem n k with Some x => Some x | None => find_in n ks end.
Proof. unfold find_in, find_elem. cbn [flat_map]. cbn [List.find app]. destruct (named n k); [reflexivity|]. apply find_app_opt. Qed.
Lemma find_in_nil n : find_in n [] = None.
Proof. reflexivity. Qed.
Lemma all_in_app n k1 k2 : all_in n (k1 ++ k2) = all_in n k1 ++ all_in n k2.
Proof. unfold all_in. now rewrite flat_map_app, filter_app. Qed.
Lemma all_in_cons n k ks : all_in n (k :: ks) = (if named n k then [k] else []) ++ find_all n k ++ all_in n ks.
Proof. unfold all_in, find_all. cbn [flat_map]. cbn [app filter]. rewrite filter_app. destruct (named n k); reflexivity. Qed.

(** * Which names occur *)
Definition in_names (L : list cstr) (n : cstr) : bool := existsb (str_eqb n) L.
Fixpoint within (L : list cstr) (t : node) : bool :=
  match t with
  | Elem n _ ks => (in_names L n || is_special n) && forallb (within L) ks
  | Opaque _ => true
  end.
Lemma within_named L n t : within L t = true -> in_names L n = false -> is_special n = false -> named n t = false.
Proof.
  destruct t as [m a ks|s]; [|reflexivity]. cbn. intros H A B. destruct (str_eqb m n) eqn:E; [|reflexivity].
  apply str_eqb_eq in E. subst m. rewrite A, B in H. discriminate.
Qed.
Lemma within_descendants L : forall t, within L t = true -> Forall (fun x => within L x = true) (descendants t).
Proof.
  intro t. induction t as [n a ks IH|s] using node_ind2; [|intros; constructor]. intro H. cbn in H. apply andb_prop in H as (_ & H).
  cbn [descendants]. induction ks as [|k ks IHk]; [constructor|]. cbn in H. apply andb_prop in H as (Hk & H).
  inversion IH as [|? ? K1 K2]; subst. cbn [flat_map app]. constructor; [exact Hk|]. apply Forall_app. auto.
Qed.
Lemma within_find L n t : within L t = true -> in_names L n = false -> is_special n = false -> find_elem n t = None.
Proof.
  intros H A B. unfold find_elem. pose proof (within_descendants L t H) as F. induction F as [|x l Hx F IH]; [reflexivity|].
  cbn. now rewrite (within_named L n x Hx A B).
Qed.
Lemma within_find_all L n t : within L t = true -> in_names L n = false -> is_special n = false -> find_all n t = [].
Proof.
  intros H A B. unfold find_all. pose proof (within_descendants L t H) as F. induction F as [|x l Hx F IH]; [reflexivity|].
  cbn. now rewrite (within_named L n x Hx A B).
Qed.
Lemma within_find_in L n ks : forallb (within L) ks = true -> in_names L n = false -> is_special n = false -> find_in n ks = None.
Proof.
  intros H A B. induction ks as [|k ks IH]; [reflexivity|]. cbn in H. apply andb_prop in H as (Hk & H).
  rewrite find_in_cons, (within_named L n k Hk A B), (within_find L n k Hk A B). auto.
Qed.
Lemma within_all_in L n ks : forallb (within L) ks = true -> in_names L n = false -> is_special n = false -> all_in n ks = [].
Proof.
  intros H A B. induction ks as [|k ks IH]; [reflexivity|]. cbn in H. apply andb_prop in H as (Hk & H).
  rewrite all_in_cons, (within_named L n k Hk A B), (within_find_all L n k Hk A B). auto.
Qed.
Lemma within_mono L M t : (forall n, in_names L n = true -> in_names M n = true) -> within L t = true -> within M t = true.
Proof.
  intro H. induction t as [n a ks IH|s] using node_ind2; [|reflexivity]. cbn. intro K. apply andb_prop in K as (K1 & K2).
  apply andb_true_intro. split.
  - apply orb_prop in K1 as [K1|K1]; [rewrite (H n K1); reflexivity|rewrite K1; apply orb_true_r].
  - apply forallb_forall. intros x Hx. rewrite forallb_forall in K2. rewrite Forall_forall in IH. apply IH; auto.
Qed.
Lemma in_names_incl L M : forallb (in_names M) L = true -> forall n, in_names L n = true -> in_names M n = true.
Proof.
  intros H n K. unfold in_names in *. apply existsb_exists in K as (x & Hx & E). apply str_eqb_eq in E. subst x.
  rewrite forallb_forall in H. now apply (H n).
Qed.
Lemma within_incl L M t : forallb (in_names M) L = true -> within L t = true -> within M t = true.
Proof. intro H. apply within_mono. now apply in_names_incl. Qed.
Lemma within_text_node L n s : in_names L n = true -> forallb (within L) (text_node n s) = true.
Proof. intro H. destruct s as [s|]; [|reflexivity]. cbn. rewrite H. destruct s; reflexivity. Qed.
Lemma within_int_node L n z : in_names L n = true -> forallb (within L) (int_node n z) = true.
Proof. intro H. unfold int_node. cbn. rewrite H. destruct (print_dec z); reflexivity. Qed.
Lemma forallb_map {A B} (f : B -> bool) (g : A -> B) l : forallb f (map g l) = forallb (fun x => f (g x)) l.
Proof. induction l; cbn; congruence. Qed.
Lemma forallb_true {A} (f : A -> bool) l : (forall x, f x = true) -> forallb f l = true.
Proof. intro H. apply forallb_forall. auto. Qed.

(** A list of elements with one name, in which the name does not occur deeper. *)
Lemma all_in_same {A} n (tree : A -> node) L l : (forall x, named n (tree x) = true) ->
  (forall x, forallb (within L) (node_kids (tree x)) = true) -> (forall x, is_element (tree x) = true) ->
  in_names L n = false -> is_special n = false -> all_in n (map tree l) = map tree l.
Proof.
  intros H K E N B. induction l as [|x l IH]; [reflexivity|]. cbn [map]. rewrite all_in_cons, H, IH.
  specialize (K x). specialize (E x). destruct (tree x) as [m a ks|]; [|discriminate]. rewrite find_all_in, (within_all_in L n ks K N B). reflexivity.
Qed.
Lemma find_in_text n m s : is_special n = false -> find_in n (text_node m s) =
  if str_eqb m n then match s with Some x => Some (Elem m [] (text_kids x)) | None => None end else None.
Proof.
  intro B. destruct s as [s|]; [|cbn; now destruct (str_eqb m n)]. cbn [text_node]. rewrite find_in_cons. cbn [named].
  destruct (str_eqb m n); [reflexivity|]. destruct s; reflexivity.
Qed.
Lemma find_in_int n m z : is_special n = false -> find_in n (int_node m z) =
  if str_eqb m n then Some (Elem m [] (text_kids (print_dec z))) else None.
Proof.
  intro B. unfold int_node. rewrite find_in_cons. cbn [named]. destruct (str_eqb m n); [reflexivity|]. destruct (print_dec z); reflexivity.
Qed.
Lemma all_in_text n m s : str_eqb m n = false -> all_in n (text_node m s) = [].
Proof. intro E. destruct s as [s|]; [|reflexivity]. cbn [text_node]. rewrite all_in_cons. cbn [named]. rewrite E. destruct s; reflexivity. Qed.
Lemma all_in_int n m z : str_eqb m n = false -> all_in n (int_node m z) = [].
Proof. intro E. unfold int_node. rewrite all_in_cons. cbn [named]. rewrite E. destruct (print_dec z); reflexivity. Qed.

(** * Loading from a similar tree *)
Lemma sim_self n a ks t : sim (Elem n a ks) t -> at_or_below n t = Some t.
Proof. intro S. unfold at_or_below. rewrite <- (sim_named n _ _ S). cbn. now rewrite str_eqb_refl. Qed.
Lemma sim_doc n a ks d : sim (new_xml [Elem n a ks]) d -> is_special n = false ->
  exists t, at_or_below n d = Some t /\ sim (Elem n a ks) t.
Proof.
  intros S B. unfold at_or_below. rewrite <- (sim_named n _ _ S). pose proof (sim_find n (P := special_plain n B) _ _ S) as F.
  unfold new_xml in F. rewrite find_elem_in, find_in_cons in F. cbn [named] in F. rewrite str_eqb_refl in F.
  unfold new_xml. cbn [named]. destruct (str_eqb XML_DECL n) eqn:E; [apply str_eqb_eq in E; subst n; discriminate B|].
  destruct (find_elem n d) as [t|]; [|destruct F]. exists t. auto.
Qed.
Lemma sim_get_text n {P : plain n} t t' : sim t t' -> (forall x, find_elem n t = Some x -> only_text x) -> get_text n t' = get_text n t.
Proof.
  intros S O. unfold get_text. pose proof (sim_find n _ _ S) as F. destruct (find_elem n t) as [x|]; destruct (find_elem n t') as [y|]; try destruct F; [|reflexivity].
  symmetry. apply sim_text; auto. now constructor.
Qed.
Lemma sim_int_elem n {P : plain n} t t' : sim t t' -> (forall x, find_elem n t = Some x -> only_text x) -> int_elem t' n = int_elem t n.
Proof.
  intros S O. unfold int_elem. pose proof (sim_find n _ _ S) as F. destruct (find_elem n t) as [x|]; destruct (find_elem n t') as [y|]; try destruct F; [|reflexivity].
  f_equal. symmetry. apply sim_text; auto. now constructor.
Qed.
Lemma load_list_ok {A S} (load : node -> option A) (add : S -> A -> S * bool) (tree : A -> node) (P : A -> Prop) (can : A -> A)
  (step : S -> A -> S) : forall l,
  (forall x t, P x -> sim (tree x) t -> load t = Some (can x)) ->
  forall (I : S -> list A -> Prop),
  (forall s x l', I s (x :: l') -> add s (can x) = (step s x, true) /\ I (step s x) l') ->
  forall s, Forall P l -> I s l -> forall ts, Forall2 sim (map tree l) ts -> load_list load add s ts = Some (fold_left step l s).
Proof.
  intros l HL I HI. induction l as [|x l IH]; intros s HP Is ts F; inversion F; subst; [reflexivity|].
  inversion HP; subst. cbn. erewrite HL by eassumption. destruct (HI s x l Is) as (-> & I'). now apply IH.
Qed.
(** When every element is simply appended to a vector. *)
Lemma fold_vec_append {A} (can : A -> A) l : forall v, fold_left (fun v x => vec_append v (can x)) l v =
  match l with [] => v | _ => Some (vec_list v ++ map can l) end.
Proof.
  induction l as [|x l IH]; intro v; [reflexivity|]. cbn [fold_left]. rewrite IH. destruct l; [reflexivity|].
  unfold vec_append. cbn [vec_list]. now rewrite <- app_assoc.
Qed.
Lemma load_list_vec {A} (load : node -> option A) (add : vec A -> A -> vec A * bool) (tree : A -> node) (P : A -> Prop) (can : A -> A) l :
  (forall x t, P x -> sim (tree x) t -> load t = Some (can x)) ->
  (forall v x, P x -> add v (can x) = (vec_append v (can x), true)) ->
  Forall P l -> forall ts, Forall2 sim (map tree l) ts ->
  load_list load add None ts = Some (match l with [] => None | _ => Some (map can l) end).
Proof.
  intros HL HA HP ts F.
  assert (HI : forall (s : vec A) x l', Forall P (x :: l') -> add s (can x) = (vec_append s (can x), true) /\ Forall P l').
  { intros s x l' H. inversion H; subst. auto. }
  rewrite (load_list_ok load add tree P can (fun v x => vec_append v (can x)) l HL (fun _ l => Forall P l) HI None HP HP ts F).
  f_equal. rewrite fold_vec_append. destruct l; reflexivity.
Qed.
Lemma save_list_ok {A} (save : A -> list node * bool) (tree : A -> node) l :
  Forall (fun x => save x = ([tree x], true)) l -> save_list save l = (map tree l, true).
Proof. induction 1 as [|x l H F IH]; [reflexivity|]. cbn. now rewrite H, IH. Qed.

(** * Well-formed trees *)
Definition name_chars (n : cstr) : bool :=
  forallb (fun c => ((48 <=? c) && (c <=? 57)) || ((65 <=? c) && (c <=? 90)) || ((97 <=? c) && (c <=? 122)) || (c =? 45) || (c =? 46) || (c =? 95)) n.
Lemma name_by n : (match n with c :: _ => ((65 <=? c) && (c <=? 90)) || ((97 <=? c) && (c <=? 122)) || (c =? 95) | [] => false end) && name_chars n = true -> name_ok n.
Proof.
  intro H. apply andb_prop in H as (N & H). split; [destruct n; [discriminate|congruence]|]. split; [|destruct n; [discriminate|unfold first_char; lia]]. unfold name_chars in H. rewrite forallb_forall in H.
  apply Forall_forall. intros c I. specialize (H c I). unfold name_char. lia.
Qed.
Lemma wf_build n a ks : name_ok n -> attrs_ok a -> Forall wf ks -> wf (Elem n a ks).
Proof. intros N A F. destruct ks; [now apply wf_leaf|now apply wf_elems]. Qed.
Lemma wf_text_kids n a s : name_ok n -> attrs_ok a -> is_text s -> wf (Elem n a (text_kids s)).
Proof. intros N A T. destruct s as [|c s]; [now apply wf_leaf|]. apply wf_text; auto. discriminate. Qed.
Definition opt_is_text (s : option cstr) : Prop := match s with Some x => is_text x | None => True end.
Lemma no_attrs : attrs_ok [].
Proof. split; constructor. Qed.
Lemma wf_text_node n s : name_ok n -> opt_is_text s -> Forall wf (text_node n s).
Proof. intros N T. destruct s; [|constructor]. repeat constructor. apply wf_text_kids; auto using no_attrs. Qed.
Lemma ascii_text s : Forall (fun c => 32 <= c < 128) s -> is_text s.
Proof. intro H. apply is_text_ascii. eapply Forall_impl; [|exact H]. cbv beta. lia. Qed.
Lemma print_dec_text z : is_text (print_dec z).
Proof. apply ascii_text. eapply Forall_impl; [|apply print_dec_chars]. cbv beta. lia. Qed.
Lemma print_nonneg_text z : 0 <= z -> is_text (print_nonneg z).
Proof. intro H. apply ascii_text. eapply Forall_impl; [|apply print_nonneg_digits; exact H]. cbv beta. lia. Qed.
Lemma pad_text w s : is_text s -> is_text (pad_zero w s).
Proof. intro H. unfold pad_zero. apply is_text_app; [|exact H]. apply ascii_text. apply Forall_forall. intros c K. apply repeat_spec in K. lia. Qed.
Lemma print_dec_pad_text w z : is_text (print_dec_pad w z).
Proof.
  unfold print_dec_pad. destruct (z <? 0) eqn:E.
  - change (is_text ([45] ++ pad_zero (w - 1) (print_nonneg (- z)))). apply is_text_app; [apply ascii_text; repeat constructor; lia|].
    apply pad_text, print_nonneg_text. lia.
  - apply pad_text, print_nonneg_text. lia.
Qed.
Lemma wf_int_node n z : name_ok n -> Forall wf (int_node n z).
Proof. intro N. unfold int_node. repeat constructor. apply wf_text_kids; auto using no_attrs, print_dec_text. Qed.
Lemma attrs_cons n v a : name_ok n -> is_text v -> existsb (fun p => str_eqb n (fst p)) a = false -> attrs_ok a -> attrs_ok ((n, Some v) :: a).
Proof.
  intros N T E (D & F). split.
  - cbn. constructor; [|exact D]. intro K. apply in_map_iff in K as (p & Ep & Ip).
    assert (H : existsb (fun p => str_eqb n (fst p)) a = true) by (apply existsb_exists; exists p; split; [exact Ip|]; rewrite Ep; apply str_eqb_refl).
    congruence.
  - constructor; [|exact F]. cbn. split; [exact N|]. exists v. auto.
Qed.
(** * A saved object loads *)
Lemma object_round {A} (load : node -> option A) (decl : bool) t x ws nl : wf t -> indenting ws ->
  (forall d, sim (if decl then new_xml [t] else t) d -> load d = Some x) ->
  load_object load (save_text ws nl (if decl then new_xml [t] else t)) = Ok (Some x) /\ is_text (save_text ws nl (if decl then new_xml [t] else t)).
Proof.
  intros W I H. split; [|destruct decl; [apply saved_document_text; auto|now apply saved_text]].
  assert (E : exists d, load_string (save_text ws nl (if decl then new_xml [t] else t)) = Ret (Some d) /\ sim (if decl then new_xml [t] else t) d).
  { destruct decl; [now apply save_load_document|now apply save_load_bare]. }
  destruct E as (d & E & S). unfold load_object. rewrite E.
  destruct (save_text ws nl (if decl then new_xml [t] else t)) eqn:Q; [|now rewrite (H d S)].
  vm_compute in E. discriminate.
Qed.
