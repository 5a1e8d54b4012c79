(** Termination of the reader: every function consumes its input, so the fuel always suffices. *)
From Verif Require Import CBase CBaseProofs XmlEntity XmlModel SpecXml.

Notation len := List.length (only parsing).
Lemma rbind_ret {A B} (m : res A) (f : A -> res B) b : rbind m f = Ret b -> exists a, m = Ret a /\ f a = Ret b.
Proof. destruct m; cbn; try discriminate. eauto. Qed.
Lemma rbind_nofuel {A B} (m : res A) (f : A -> res B) :
  m <> NoFuel -> (forall a, m = Ret a -> f a <> NoFuel) -> rbind m f <> NoFuel.
Proof. destruct m; cbn; try congruence. intros _ H. now apply H. Qed.

Lemma getc_shorter t c t' : getc t = Ret (c, t') -> (len t' <= len t)%nat /\ (c <> EOF -> (len t' < len t)%nat).
Proof. destruct t as [|[x| |] l]; cbn; intro E; inversion E; subst; cbn; split; try lia. Qed.
Lemma getc_fuel t : getc t <> NoFuel.
Proof. destruct t as [|[x| |] l]; cbn; discriminate. Qed.
Lemma get_entity_shorter t : forall e v t', get_entity t e = Ret (v, t') -> (len t' < len t)%nat.
Proof.
  induction t as [|[x| |] l IH]; cbn; intros e v t' E; try discriminate.
  destruct (ent_step e x) as [e'|[w|]]; try discriminate.
  - apply IH in E. lia.
  - inversion E; subst. lia.
Qed.
Lemma get_entity_fuel t : forall e, get_entity t e <> NoFuel.
Proof.
  induction t as [|[x| |] l IH]; cbn; intros e; try discriminate.
  destruct (ent_step e x) as [e'|[w|]]; try discriminate. apply IH.
Qed.
Lemma collect_shorter ents bf af ae t : forall ent b c b' t',
  collect ents bf af ae ent t b = Ret (c, b', t') -> (len t' <= len t)%nat.
Proof.
  induction t as [|[x| |] l IH]; intros ent b c b' t' E; cbn in E.
  - destruct ent; inversion E; subst; cbn; lia.
  - destruct ent as [e|].
    + destruct (ent_step e x) as [e'|[w|]]; try discriminate.
      * apply IH in E. cbn. lia.
      * destruct (ae w); [inversion E; subst; cbn; lia|]. apply IH in E. cbn. lia.
    + destruct (ents && (x =? 38)); [apply IH in E; cbn; lia|].
      destruct (bf x b); try discriminate.
      * inversion E; subst. cbn. lia.
      * destruct (af x (b ++ utf8 x)); [inversion E; subst; cbn; lia|]. apply IH in E. cbn. lia.
  - destruct ent; inversion E; subst; cbn; lia.
  - discriminate.
Qed.
Lemma collect_fuel ents bf af ae t : forall ent b, collect ents bf af ae ent t b <> NoFuel.
Proof.
  induction t as [|[x| |] l IH]; intros ent b; cbn.
  - destruct ent; discriminate.
  - destruct ent as [e|].
    + destruct (ent_step e x) as [e'|[w|]]; try discriminate; [apply IH|].
      destruct (ae w); [discriminate|apply IH].
    + destruct (ents && (x =? 38)); [apply IH|].
      destruct (bf x b); try discriminate. destruct (af x (b ++ utf8 x)); [discriminate|apply IH].
  - destruct ent; discriminate.
  - discriminate.
Qed.
Lemma skip_blanks_shorter t : forall ch c t', skip_blanks ch t = Ret (c, t') -> (len t' <= len t)%nat.
Proof.
  induction t as [|[x| |] l IH]; intros ch c t' E; cbn in E; destruct (mxml_isspace ch); try discriminate;
    try (inversion E; subst; cbn; lia). apply IH in E. cbn. lia.
Qed.
Lemma skip_blanks_fuel t : forall ch, skip_blanks ch t <> NoFuel.
Proof. induction t as [|[x| |] l IH]; intros ch; cbn; destruct (mxml_isspace ch); try discriminate. apply IH. Qed.
Lemma skip_to_gt_shorter t : forall ch t', skip_to_gt ch t = Ret t' -> (len t' <= len t)%nat.
Proof.
  induction t as [|[x| |] l IH]; intros ch t' E; cbn in E; destruct ((ch =? 62) || (ch =? EOF)); try discriminate;
    try (inversion E; subst; cbn; lia). apply IH in E. cbn. lia.
Qed.
Lemma skip_to_gt_fuel t : forall ch, skip_to_gt ch t <> NoFuel.
Proof. induction t as [|[x| |] l IH]; intros ch; cbn; destruct ((ch =? 62) || (ch =? EOF)); try discriminate. apply IH. Qed.
Lemma expect_gt_shorter ch a t c a' t' : expect_gt ch a t = Ret (c, a', t') -> (len t' <= len t)%nat.
Proof.
  unfold expect_gt. intro E. apply rbind_ret in E as ((d & t1) & G & E). cbn in E.
  destruct (d =? 62); inversion E; subst. now apply getc_shorter in G.
Qed.
Lemma expect_gt_fuel ch a t : expect_gt ch a t <> NoFuel.
Proof. apply rbind_nofuel; [apply getc_fuel|]. intros (d & t1) _. cbn. destruct (d =? 62); discriminate. Qed.

Lemma parse_attr_shorter a c t c' a' t' : parse_attr a c t = Ret (c', a', t') -> (len t' <= len t)%nat.
Proof.
  unfold parse_attr. intro E.
  apply rbind_ret in E as (((ch & name) & t1) & C1 & E).
  assert (L1 : (len t1 <= len t)%nat) by (destruct (is_quote c); eapply collect_shorter; exact C1).
  destruct (get_attr a name); [discriminate|].
  apply rbind_ret in E as ((ch2 & t2) & C2 & E). apply skip_blanks_shorter in C2.
  destruct (ch2 =? 61); [|discriminate].
  apply rbind_ret in E as ((ch3 & t3) & C3 & E). apply skip_blanks_shorter in C3.
  destruct (ch3 =? EOF); [discriminate|].
  apply rbind_ret in E as (((ch4 & v) & t4) & C4 & E).
  assert (L4 : (len t4 <= len t3)%nat) by (destruct (is_quote ch3); eapply collect_shorter; exact C4).
  inversion E; subst. lia.
Qed.
Lemma parse_attr_fuel a c t : parse_attr a c t <> NoFuel.
Proof.
  unfold parse_attr. apply rbind_nofuel; [destruct (is_quote c); apply collect_fuel|].
  intros ((ch & name) & t1) _. destruct (get_attr a name); [discriminate|].
  apply rbind_nofuel; [apply skip_blanks_fuel|]. intros (ch2 & t2) _. destruct (ch2 =? 61); [|discriminate].
  apply rbind_nofuel; [apply skip_blanks_fuel|]. intros (ch3 & t3) _. destruct (ch3 =? EOF); [discriminate|].
  apply rbind_nofuel; [destruct (is_quote ch3); apply collect_fuel|]. intros ((ch4 & v) & t4) _. discriminate.
Qed.
Lemma parse_element_shorter f : forall a t c a' t', parse_element f a t = Ret (c, a', t') -> (len t' <= len t)%nat.
Proof.
  induction f as [|f IH]; intros a t c a' t' E; [discriminate|]. cbn [parse_element] in E.
  apply rbind_ret in E as ((ch & t1) & G & E). apply getc_shorter in G as (G & _).
  destruct (ch =? EOF); [discriminate|].
  destruct (mxml_isspace ch); [apply IH in E; lia|].
  destruct ((ch =? 47) || (ch =? 63)); [apply expect_gt_shorter in E; lia|].
  destruct (ch =? 60); [discriminate|]. destruct (ch =? 62); [inversion E; subst; lia|].
  apply rbind_ret in E as (((ch2 & a2) & t2) & C & E). apply parse_attr_shorter in C.
  destruct ((ch2 =? 47) || (ch2 =? 63)); [apply expect_gt_shorter in E; lia|].
  destruct (ch2 =? 62); [inversion E; subst; lia|]. apply IH in E. lia.
Qed.
Lemma parse_element_fuel f : forall a t, (len t < f)%nat -> parse_element f a t <> NoFuel.
Proof.
  induction f as [|f IH]; intros a t L; [lia|]. cbn [parse_element].
  apply rbind_nofuel; [apply getc_fuel|]. intros (ch & t1) G. apply getc_shorter in G as (_ & G).
  destruct (ch =? EOF) eqn:E; [discriminate|]. assert (Hn : ch <> EOF) by (now apply Z.eqb_neq). specialize (G Hn).
  destruct (mxml_isspace ch); [apply IH; lia|].
  destruct ((ch =? 47) || (ch =? 63)); [apply expect_gt_fuel|].
  destruct (ch =? 60); [discriminate|]. destruct (ch =? 62); [discriminate|].
  apply rbind_nofuel; [apply parse_attr_fuel|]. intros ((ch2 & a2) & t2) C. apply parse_attr_shorter in C.
  destruct ((ch2 =? 47) || (ch2 =? 63)); [apply expect_gt_fuel|].
  destruct (ch2 =? 62); [discriminate|]. apply IH. lia.
Qed.
(** More fuel does not change a result. *)
Lemma parse_element_more f : forall a t r, parse_element f a t = Ret r -> forall g, (f <= g)%nat -> parse_element g a t = Ret r.
Proof.
  induction f as [|f IH]; intros a t r E g L; [discriminate|]. destruct g as [|g]; [lia|].
  cbn [parse_element] in *. destruct (getc t) as [(ch & t1)| | |]; cbn in *; try discriminate.
  destruct (ch =? EOF); [discriminate|]. destruct (mxml_isspace ch); [apply IH; [assumption|lia]|].
  destruct ((ch =? 47) || (ch =? 63)); [assumption|]. destruct (ch =? 60); [assumption|]. destruct (ch =? 62); [assumption|].
  destruct (parse_attr a ch t1) as [((ch2 & a2) & t2)| | |]; cbn in *; try discriminate.
  destruct ((ch2 =? 47) || (ch2 =? 63)); [assumption|]. destruct (ch2 =? 62); [assumption|].
  apply IH; [assumption|lia].
Qed.
Lemma parse_element_enough f : forall a t, (len t < f)%nat ->
  forall g, (len t < g)%nat -> parse_element f a t = parse_element g a t.
Proof.
  induction f as [|f IH]; intros a t L g Lg; [lia|]. destruct g as [|g]; [lia|]. cbn [parse_element].
  destruct (getc t) as [(ch & t1)| | |] eqn:G; cbn; try reflexivity. apply getc_shorter in G as (_ & G).
  destruct (ch =? EOF) eqn:E; [reflexivity|]. assert (Hn : ch <> EOF) by (now apply Z.eqb_neq). specialize (G Hn).
  destruct (mxml_isspace ch); [apply IH; lia|].
  destruct ((ch =? 47) || (ch =? 63)); [reflexivity|]. destruct (ch =? 60); [reflexivity|]. destruct (ch =? 62); [reflexivity|].
  destruct (parse_attr a ch t1) as [((ch2 & a2) & t2)| | |] eqn:C; cbn; try reflexivity. apply parse_attr_shorter in C.
  destruct ((ch2 =? 47) || (ch2 =? 63)); [reflexivity|]. destruct (ch2 =? 62); [reflexivity|].
  apply IH; lia.
Qed.
Lemma parse_element_any f a t r : parse_element f a t = Ret r -> forall g, (len t < g)%nat -> parse_element g a t = Ret r.
Proof.
  intros E g L. rewrite (parse_element_enough g a t L (Nat.max f g)) by lia. eapply parse_element_more; [exact E|lia].
Qed.

Lemma special_shorter n b st t st' t' : special n b st t = Ret (Go st' t') -> t' = t.
Proof.
  unfold special. destruct (second_root st); [discriminate|].
  destruct (stack st); [destruct b|]; intro E; now inversion E.
Qed.
Lemma close_tag_shorter n ch st t st' t' : close_tag n ch st t = Ret (Go st' t') -> (len t' <= len t)%nat.
Proof.
  unfold close_tag. destruct (stack st); [discriminate|]. destruct (str_eqb n (fr_name f)); [|discriminate].
  intro E. apply rbind_ret in E as (t1 & K & E). apply skip_to_gt_shorter in K. inversion E; subst. exact K.
Qed.
Lemma open_element_shorter n ch st t st' t' : open_element n ch st t = Ret (Go st' t') -> (len t' <= len t)%nat.
Proof.
  unfold open_element. destruct (second_root st); [discriminate|].
  intro E. apply rbind_ret in E as (((c1 & a) & t1) & K & E).
  assert (L : (len t1 <= len t)%nat).
  { destruct (mxml_isspace ch); [eapply parse_element_shorter; exact K|].
    destruct (ch =? 47); [eapply expect_gt_shorter; exact K|]. inversion K; subst. lia. }
  destruct (c1 =? EOF); [discriminate|]. destruct (c1 =? 47); inversion E; subst; exact L.
Qed.
Lemma tag_shorter st t st' t' : tag st t = Ret (Go st' t') -> (len t' <= len t)%nat.
Proof.
  unfold tag. intro E. apply rbind_ret in E as (((ch & name) & t1) & C & E). apply collect_shorter in C.
  assert (S1 : forall bf n b X, rbind (collect X bf never (fun _ => false) None t1 n) (fun r2 : Z * cstr * list tok =>
      let '(ch2, name2, t2) := r2 in if ch2 =? 62 then special name2 b st t2 else Fail) = Ret (Go st' t') -> (len t' <= len t1)%nat).
  { clear. intros bf n b X E. apply rbind_ret in E as (((c2 & n2) & t2) & C & E). apply collect_shorter in C.
    destruct (c2 =? 62); [|discriminate]. apply special_shorter in E. now subst. }
  destruct (str_eqb name COMMENT); [apply S1 in E; lia|].
  destruct (str_eqb name CDATA); [apply S1 in E; lia|].
  assert (O : open_element name ch st t1 = Ret (Go st' t') -> (len t' <= len t)%nat) by (intro O; apply open_element_shorter in O; lia).
  destruct name as [|x rest]; [exact (O E)|].
  assert (D : rbind (if ch =? 62 then Ret (ch, x :: rest, t1) else collect true decl_before never (fun _ => false) None t1 ((x :: rest) ++ utf8 ch))
     (fun r2 : Z * cstr * list tok => let '(ch2, name2, t2) := r2 in if ch2 =? 62 then special name2 true st t2 else Fail) = Ret (Go st' t') -> (len t' <= len t1)%nat).
  { destruct (ch =? 62) eqn:H62; [|apply S1]. cbn. rewrite H62. intro K. apply special_shorter in K. now subst. }
  assert (Dc : close_tag rest ch st t1 = Ret (Go st' t') -> (len t' <= len t)%nat) by (intro K; apply close_tag_shorter in K; lia).
  destruct x as [|p|p]; try exact (O E).
  do 6 (destruct p as [p|p|]; try exact (O E); try (apply S1 in E; lia); try (apply D in E; lia); try exact (Dc E)).
Qed.
Lemma step_shorter st t st' t' : step st t = Ret (Go st' t') -> (len t' < len t)%nat.
Proof.
  unfold step. destruct t as [|[c| |] l]; try discriminate. cbn [len].
  destruct (c =? 60). { intro E. apply tag_shorter in E. lia. }
  destruct (c =? 38).
  { intro E. apply rbind_ret in E as ((v & t1) & G & E). apply get_entity_shorter in G. inversion E; subst. cbn. lia. }
  match goal with |- (if ?b then _ else _) = _ -> _ => destruct b end; intro E; inversion E; subst; lia.
Qed.
Lemma step_fuel st t : step st t <> NoFuel.
Proof.
  unfold step. destruct t as [|[c| |] l]; try discriminate.
  destruct (c =? 60).
  2:{ destruct (c =? 38).
      - apply rbind_nofuel; [apply get_entity_fuel|]. discriminate.
      - match goal with |- (if ?b then _ else _) <> _ => destruct b end; discriminate. }
  generalize (mkP (stack (flush st)) (top (flush st)) [] (opaque st)). clear. intro st.
  unfold tag. apply rbind_nofuel; [apply collect_fuel|]. intros ((ch & name) & t1) _.
  assert (SP : forall n b t, special n b st t <> NoFuel).
  { intros. unfold special. destruct (second_root st); [discriminate|]. destruct (stack st); [destruct b|]; discriminate. }
  assert (S1 : forall bf n b X, rbind (collect X bf never (fun _ => false) None t1 n) (fun r2 : Z * cstr * list tok =>
      let '(ch2, name2, t2) := r2 in if ch2 =? 62 then special name2 b st t2 else Fail) <> NoFuel).
  { intros. apply rbind_nofuel; [apply collect_fuel|]. intros ((c2 & n2) & t2) _. destruct (c2 =? 62); [apply SP|discriminate]. }
  destruct (str_eqb name COMMENT); [apply S1|]. destruct (str_eqb name CDATA); [apply S1|].
  assert (O : open_element name ch st t1 <> NoFuel).
  { unfold open_element. destruct (second_root st); [discriminate|]. apply rbind_nofuel.
    - destruct (mxml_isspace ch); [apply parse_element_fuel; lia|]. destruct (ch =? 47); [apply expect_gt_fuel|discriminate].
    - intros ((c1 & a) & t2) _. destruct (c1 =? EOF); [discriminate|]. destruct (c1 =? 47); discriminate. }
  destruct name as [|x rest]; [exact O|].
  assert (D : rbind (if ch =? 62 then Ret (ch, x :: rest, t1) else collect true decl_before never (fun _ => false) None t1 ((x :: rest) ++ utf8 ch))
     (fun r2 : Z * cstr * list tok => let '(ch2, name2, t2) := r2 in if ch2 =? 62 then special name2 true st t2 else Fail) <> NoFuel).
  { destruct (ch =? 62) eqn:H62; [|apply S1]. cbn. rewrite H62. apply SP. }
  assert (Dc : close_tag rest ch st t1 <> NoFuel).
  { unfold close_tag. destruct (stack st); [discriminate|]. destruct (str_eqb rest (fr_name f)); [|discriminate].
    apply rbind_nofuel; [apply skip_to_gt_fuel|]. discriminate. }
  destruct x as [|p|p]; try exact O.
  do 6 (destruct p as [p|p|]; try exact O; try apply S1; try exact D; try exact Dc).
Qed.
Lemma run_parser_fuel f : forall st t, (len t < f)%nat -> run_parser f st t <> NoFuel.
Proof.
  induction f as [|f IH]; intros st t L; [lia|]. cbn. apply rbind_nofuel; [apply step_fuel|].
  intros [st' t'|r] E; [|discriminate]. apply step_shorter in E. apply IH. lia.
Qed.
(** For every input, loading ends. *)
Lemma load_string_ends s : load_string s <> NoFuel.
Proof. apply run_parser_fuel. lia. Qed.

(** Several iterations of the main loop. *)
Inductive reach : pstate -> list tok -> pstate -> list tok -> Prop :=
| reach_refl st t : reach st t st t
| reach_step st t st1 t1 st2 t2 : step st t = Ret (Go st1 t1) -> reach st1 t1 st2 t2 -> reach st t st2 t2.
Lemma reach_trans st t st1 t1 st2 t2 : reach st t st1 t1 -> reach st1 t1 st2 t2 -> reach st t st2 t2.
Proof. induction 1; [auto|]. intro. eapply reach_step; eauto. Qed.
Lemma reach_one st t st1 t1 : step st t = Ret (Go st1 t1) -> reach st t st1 t1.
Proof. intro. eapply reach_step; [eassumption|apply reach_refl]. Qed.
Lemma run_reach st t st' : reach st t st' [] -> forall f, (len t < f)%nat -> run_parser f st t = Ret (finish st').
Proof.
  intro R. remember [] as e eqn:He. induction R as [st t|st t st1 t1 st2 t2 E R IH]; intros f L; subst; (destruct f as [|f]; [lia|]).
  - reflexivity.
  - cbn. rewrite E. cbn. apply step_shorter in E. apply IH; [reflexivity|lia].
Qed.
