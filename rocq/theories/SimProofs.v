(** What a reader of a loaded tree sees. *)
From Verif Require Import CBase CBaseProofs XmlEntity XmlModel SpecXml TrimProofs.

Lemma sim_ind2 (P : node -> node -> Prop) :
  (forall n a a' ks ks', same_attrs a a' -> Forall2 sim (elems ks) (elems ks') -> Forall2 P (elems ks) (elems ks') ->
     (elems ks = [] -> node_text (Elem n a ks) = node_text (Elem n a' ks')) -> P (Elem n a ks) (Elem n a' ks')) ->
  forall t t', sim t t' -> P t t'.
Proof.
  intro H. fix IH 3. intros t t' [n a a' ks ks' At F T]. apply H; [exact At|exact F| |exact T].
  revert F. generalize (elems ks) as l. generalize (elems ks') as l'.
  fix IHl 3. intros l' l [|x y m m' S F]; constructor; [apply IH; exact S|apply IHl; exact F].
Qed.
(** Names that are not those of comments. *)
Class plain (n : cstr) : Prop := plain_name : note_name n = false.
#[export] Hint Extern 0 (plain _) => reflexivity : typeclass_instances.
Definition elem_descendants (t : node) : list node := elems (descendants t).
Lemma elems_kids ks : elems (flat_map (fun k => k :: descendants k) ks) = flat_map (fun k => k :: elem_descendants k) (elems ks).
Proof.
  induction ks as [|k ks IH]; [reflexivity|]. cbn [flat_map]. unfold elems in *. rewrite !filter_app. cbn [filter].
  destruct k as [n [|x a] [|y l]|s]; try (cbn [flat_map filter is_elem]; rewrite IH; reflexivity).
  cbn [is_elem]. destruct (negb (note_name n)); [|exact IH]. cbn [flat_map]. rewrite IH. reflexivity.
Qed.
Lemma sim_descendants t t' : sim t t' -> Forall2 sim (elem_descendants t) (elem_descendants t').
Proof.
  revert t t'. apply sim_ind2. intros n a a' ks ks' _ F IH _. unfold elem_descendants at 1 2. cbn [descendants]. rewrite !elems_kids.
  revert F IH. generalize (elems ks) as l. generalize (elems ks') as l'. intros l' l F. induction F as [|x y m m' S F IHm]; intro G.
  - constructor.
  - inversion G; subst. cbn [flat_map app]. constructor; [exact S|]. apply Forall2_app; [assumption|]. now apply IHm.
Qed.
Lemma special_plain n : is_special n = false -> plain n.
Proof. unfold plain, is_special, note_name. destruct n; [reflexivity|]. intro H. apply orb_false_elim in H as (-> & ->). reflexivity. Qed.
Lemma named_is_elem n x : plain n -> named n x = true -> is_elem x = true.
Proof.
  intros P N. destruct x as [m [|] [|]|]; try reflexivity; [|discriminate]. cbn [named] in N. apply str_eqb_eq in N. subst m. cbn [is_elem]. unfold plain in P. now rewrite P.
Qed.
Lemma named_elems n {P : plain n} l : filter (named n) l = filter (named n) (elems l).
Proof.
  induction l as [|x l IH]; [reflexivity|]. cbn [filter elems]. pose proof (named_is_elem n x P) as H. fold (elems l). destruct (is_elem x); cbn [filter].
  - destruct (named n x); now rewrite IH.
  - destruct (named n x); [discriminate (H eq_refl)|exact IH].
Qed.
Lemma find_elems n {P : plain n} l : List.find (named n) l = List.find (named n) (elems l).
Proof.
  induction l as [|x l IH]; [reflexivity|]. cbn [List.find elems filter]. pose proof (named_is_elem n x P) as H. fold (elems l). destruct (is_elem x); cbn [List.find].
  - destruct (named n x); [reflexivity|exact IH].
  - destruct (named n x); [discriminate (H eq_refl)|exact IH].
Qed.
Lemma sim_named n x y : sim x y -> named n x = named n y.
Proof. now intros []. Qed.
Lemma forall2_filter (f : node -> bool) l l' : (forall x y, sim x y -> f x = f y) -> Forall2 sim l l' -> Forall2 sim (filter f l) (filter f l').
Proof. intros H F. induction F as [|x y l l' S F IH]; cbn; [constructor|]. rewrite <- (H x y S). destruct (f x); [constructor|]; assumption. Qed.
Lemma sim_find_all n {P : plain n} t t' : sim t t' -> Forall2 sim (find_all n t) (find_all n t').
Proof.
  intro S. unfold find_all. rewrite (named_elems n (descendants t)), (named_elems n (descendants t')).
  apply forall2_filter; [apply sim_named|now apply sim_descendants].
Qed.
Definition sim_opt (a b : option node) : Prop :=
  match a, b with Some x, Some y => sim x y | None, None => True | _, _ => False end.
Lemma sim_find n {P : plain n} t t' : sim t t' -> sim_opt (find_elem n t) (find_elem n t').
Proof.
  intro S. unfold find_elem. rewrite (find_elems n (descendants t)), (find_elems n (descendants t')).
  pose proof (sim_descendants t t' S) as F. unfold elem_descendants in F. induction F as [|x y l l' Sx F IH]; cbn; [exact I|].
  rewrite <- (sim_named n x y Sx). destruct (named n x); [exact Sx|exact IH].
Qed.
Lemma sim_attrs t t' n : sim t t' -> node_attr t n = node_attr t' n.
Proof. intros [m a a' ks ks' At _ _]. apply At. Qed.
Lemma same_attrs_refl a : same_attrs a a. Proof. intro. reflexivity. Qed.
Lemma sim_node_name t t' : sim t t' -> node_name t = node_name t'.
Proof. now intros []. Qed.
(** Text elements. *)
Definition only_text (t : node) : Prop := elems (node_kids t) = [].
Lemma sim_text t t' : sim t t' -> only_text t -> node_text t = node_text t'.
Proof. intros [n a a' ks ks' _ F T] O. cbn in O. now apply T. Qed.
Lemma sim_kids t t' : sim t t' -> Forall2 sim (elems (node_kids t)) (elems (node_kids t')).
Proof. now intros []. Qed.
Lemma text_node_text n s : s <> [] -> node_text (Elem n [] (text_kids s)) = Some (string_trim s).
Proof. destruct s; [congruence|reflexivity]. Qed.
Lemma text_node_only n a s : only_text (Elem n a (text_kids s)).
Proof. destruct s; reflexivity. Qed.
Lemma no_blank_bare s : Forall (fun c => ~ (c = 10 \/ c = 13 \/ c = 32)) s -> bare s.
Proof.
  intro F. split; intros c l ->; [now inversion F|]. apply Forall_app in F as (_ & F). now inversion F.
Qed.
Lemma digits_nonneg n : 0 <= n -> Forall (fun c => ~ (c = 10 \/ c = 13 \/ c = 32)) (print_nonneg n).
Proof. intro H. eapply Forall_impl; [|apply print_nonneg_digits; exact H]. cbv beta. lia. Qed.
Lemma print_dec_chars z : Forall (fun c => c = 45 \/ 48 <= c <= 57) (print_dec z).
Proof.
  unfold print_dec. destruct (z <? 0) eqn:E; [constructor; [now left|]|]; (eapply Forall_impl; [|apply print_nonneg_digits; lia]); cbv beta; lia.
Qed.
Lemma print_dec_trim z : string_trim (print_dec z) = print_dec z.
Proof. apply trim_bare, no_blank_bare. eapply Forall_impl; [|apply print_dec_chars]. cbv beta. lia. Qed.
Lemma int_node_text n a z : node_text (Elem n a (text_kids (print_dec z))) = Some (print_dec z).
Proof.
  pose proof (print_dec_nonempty z) as N. destruct (print_dec z) as [|c l] eqn:E; [congruence|]. cbn [text_kids node_text].
  rewrite <- E. now rewrite print_dec_trim.
Qed.
