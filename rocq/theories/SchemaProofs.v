(** Proofs about the schema language: numbers as the library prints them, sequences, single elements. *)
From Verif Require Import CBase CBaseProofs XmlModel SpecXml SpecSchema.

(** * Numbers *)
Definition dec (c : Z) : Prop := 48 <= c <= 57.
Lemma dec_digitp c : dec c -> digitp c = true. Proof. unfold dec, digitp. lia. Qed.
Lemma digitp_dec c : digitp c = true -> dec c. Proof. unfold dec, digitp. lia. Qed.
Lemma drop_blanks_head c l : xml_blank c = false -> drop_blanks (c :: l) = c :: l.
Proof. intro H. cbn. now rewrite H. Qed.
Lemma collapse_id s : Forall (fun c => xml_blank c = false) s -> collapse s = s.
Proof.
  intro F. unfold collapse. assert (forall l, Forall (fun c => xml_blank c = false) l -> drop_blanks l = l) as K.
  { intros [|c l] G; [reflexivity|]. inversion G; subst. now apply drop_blanks_head. }
  rewrite (K s F). rewrite K; [apply rev_involutive|]. now apply Forall_rev.
Qed.
Lemma dec_no_blank s : Forall dec s -> Forall (fun c => xml_blank c = false) s.
Proof. apply Forall_impl. intros c H. unfold dec, xml_blank in *. lia. Qed.
Lemma read_all s : Forall dec s -> forall a, read_digits s a = (fold_left (fun a c => 10 * a + (c - 48)) s a, []).
Proof.
  induction 1 as [|c s Hc _ IH]; intro a; [reflexivity|]. cbn [read_digits fold_left]. unfold c_isdigit. unfold dec in Hc.
  replace ((48 <=? c) && (c <=? 57)) with true by lia. apply IH.
Qed.
Lemma digits_value_dec s : s <> [] -> Forall dec s -> digits_value s = Some (fst (read_digits s 0)).
Proof.
  intros N F. rewrite (read_all s F). unfold digits_value. destruct s as [|c s]; [congruence|].
  replace (forallb digitp (c :: s)) with true; [reflexivity|]. symmetry. apply forallb_forall. intros x I. rewrite Forall_forall in F. now apply dec_digitp, F.
Qed.
Lemma integer_dec s : s <> [] -> Forall dec s -> integer_value s = Some (fst (read_digits s 0)).
Proof.
  intros N F. unfold integer_value. rewrite collapse_id by (now apply dec_no_blank). rewrite <- (digits_value_dec s N F).
  destruct s as [|c s]; [congruence|]. inversion F; subst. unfold dec in *. destruct c as [|c|c]; try reflexivity.
  do 6 (destruct c as [c|c|]; try reflexivity); lia.
Qed.
Lemma integer_minus s : s <> [] -> Forall dec s -> integer_value (45 :: s) = Some (- fst (read_digits s 0)).
Proof.
  intros N F. unfold integer_value. rewrite collapse_id by (constructor; [reflexivity|now apply dec_no_blank]). rewrite (digits_value_dec s N F). reflexivity.
Qed.
Lemma print_dec_nonneg z : 0 <= z -> print_dec z = print_nonneg z.
Proof. intro H. unfold print_dec. now replace (z <? 0) with false by lia. Qed.
Lemma nonneg_value n : 0 <= n -> fst (read_digits (print_nonneg n) 0) = n.
Proof. intro H. pose proof (read_print_nonneg0 n [] H I) as E. rewrite app_nil_r in E. now rewrite E. Qed.
Lemma integer_print_nonneg n : 0 <= n -> integer_value (print_nonneg n) = Some n.
Proof. intro H. rewrite integer_dec; [now rewrite nonneg_value|apply print_nonneg_nonempty|now apply print_nonneg_digits]. Qed.
Lemma integer_print_dec z : integer_value (print_dec z) = Some z.
Proof.
  unfold print_dec. destruct (Z.ltb_spec z 0) as [L|L]; [|now apply integer_print_nonneg].
  rewrite integer_minus; [|apply print_nonneg_nonempty|apply print_nonneg_digits; lia]. rewrite nonneg_value by lia. f_equal. lia.
Qed.
Lemma integer_print_pad w z : integer_value (print_dec_pad w z) = Some z.
Proof.
  assert (E : forall w n, 0 <= n -> fst (read_digits (pad_zero w (print_nonneg n)) 0) = n).
  { intros w' n H. unfold pad_zero. rewrite read_digits_zeros by reflexivity. now apply nonneg_value. }
  unfold print_dec_pad. destruct (Z.ltb_spec z 0) as [L|L].
  - rewrite integer_minus; [|apply pad_zero_nonempty, print_nonneg_nonempty|apply pad_zero_digits, print_nonneg_digits; lia]. rewrite E by lia. f_equal. lia.
  - rewrite integer_dec; [|apply pad_zero_nonempty, print_nonneg_nonempty|apply pad_zero_digits, print_nonneg_digits; lia]. now rewrite E.
Qed.
Lemma unsigned_iff s z : integer_value s = Some z -> (xs_unsignedInt s <-> 0 <= z < 2^32).
Proof. intro E. unfold xs_unsignedInt. rewrite E. split; [intros (y & [= <-] & R); exact R|eauto]. Qed.
Lemma unsigned_u32 z : is_u32 z -> xs_unsignedInt (print_nonneg z).
Proof. intros (A & B). apply (unsigned_iff _ z); [now apply integer_print_nonneg|]. lia. Qed.
Lemma unsigned_dec z : xs_unsignedInt (print_dec z) <-> 0 <= z < 2^32.
Proof. apply unsigned_iff, integer_print_dec. Qed.
Lemma unsigned_pad w z : xs_unsignedInt (print_dec_pad w z) <-> 0 <= z < 2^32.
Proof. apply unsigned_iff, integer_print_pad. Qed.
Lemma integer_dec_any z : xs_integer (print_dec z). Proof. unfold xs_integer. rewrite integer_print_dec. discriminate. Qed.
Lemma all_digits_nonneg n : 0 <= n -> all_digits (print_nonneg n).
Proof. intro H. eapply Forall_impl; [|apply print_nonneg_digits, H]. intros c. apply dec_digitp. Qed.
Lemma print_dec_collapse z : collapse (print_dec z) = print_dec z.
Proof.
  apply collapse_id. unfold print_dec. destruct (Z.ltb_spec z 0); [constructor; [reflexivity|]|]; apply dec_no_blank, print_nonneg_digits; lia.
Qed.
Lemma zeros_value z : Forall (eq 48) z -> forall l, read_digits (z ++ l) 0 = read_digits l 0.
Proof. induction 1 as [|c z <- _ IH]; intro l; [reflexivity|]. cbn. apply IH. Qed.
Lemma parent_iff z : ParentIdType (print_dec z) <-> -2 <= z.
Proof.
  unfold ParentIdType. rewrite print_dec_collapse. split.
  - intros (_ & [(y & c & E & F & C) | (_ & F)]).
    + unfold print_dec in E. destruct (Z.ltb_spec z 0) as [L|L]; [|lia]. injection E as E.
      pose proof (nonneg_value (- z) ltac:(lia)) as V. rewrite E, (zeros_value y F) in V. destruct C as [-> | [-> | ->]]; cbn in V; try lia.
    + unfold print_dec in F. destruct (Z.ltb_spec z 0); [|lia]. inversion F as [|? ? K _]; subst. discriminate.
  - intro H. split; [apply integer_dec_any|]. destruct (Z.ltb_spec z 0) as [L|L].
    + left. assert (z = -1 \/ z = -2) as [-> | ->] by lia; [exists [], 49|exists [], 50]; (split; [reflexivity|split; [constructor|auto]]).
    + right. rewrite print_dec_nonneg by lia. split; [apply print_nonneg_nonempty|now apply all_digits_nonneg].
Qed.
Lemma dimension_ok x y : 0 <= x -> 0 <= y -> DimensionType (print_nonneg x ++ s2z "x" ++ print_nonneg y).
Proof. intros X Y. exists (print_nonneg x), 120, (print_nonneg y). split; [reflexivity|]. split; [now apply all_digits_nonneg|]. split; [now left|now apply all_digits_nonneg]. Qed.

(** * Elements *)
Lemma conforms_iff atts c n a ks : conforms (EType atts c) (Elem n a ks) <-> attributes_conform atts a /\ content_conforms c ks.
Proof. split; [intro H; inversion H; auto|intros (A & B); now constructor]. Qed.
Lemma text_iff p ks : content_conforms (Text p) ks <-> children ks = [] /\ p (text_in ks).
Proof. split; [intro H; inversion H; auto|intros (A & B); now constructor]. Qed.
Lemma empty_iff ks : content_conforms Empty ks <-> children ks = [] /\ text_in ks = [].
Proof. split; [intro H; inversion H; auto|intros (A & B); now constructor]. Qed.
Lemma sequence_iff l ks : content_conforms (Sequence l) ks <-> all_blanks (text_in ks) /\ in_sequence l (children ks).
Proof. split; [intro H; inversion H; auto|intros (A & B); now constructor]. Qed.
Definition part_name (p : particle) : cstr := match p with Part n _ _ _ => n end.
Definition in_bounds (p : particle) (g : list node) : Prop :=
  match p with Part _ lo hi t => (lo <= List.length g)%nat /\ (forall m, hi = Some m -> (List.length g <= m)%nat) /\ Forall (conforms t) g end.
Definition called (n : cstr) (k : node) : Prop := exists a ks, k = Elem n a ks.
Lemma occurrences_iff n t l : occurrences n t l <-> Forall (called n) l /\ Forall (conforms t) l.
Proof.
  split.
  - induction 1 as [|n t a ks l C _ (IH1 & IH2)]; [auto|]. split; constructor; auto. now exists a, ks.
  - induction l as [|x l IH]; intros (A & B); [constructor|]. inversion A as [|? ? (a & ks & ->) A']; subst. inversion B; subst. constructor; [assumption|]. apply IH. auto.
Qed.
Lemma sequence_names ps l : in_sequence ps l -> Forall (fun k => exists p, In p ps /\ called (part_name p) k) l.
Proof.
  revert l. induction ps as [|p ps IH]; intros l H; inversion H as [|n lo hi t ps' l1 l2 _ _ O S]; subst; [constructor|].
  apply Forall_app. split.
  - apply occurrences_iff in O as (O & _). eapply Forall_impl; [|exact O]. intros k C. exists (Part n lo hi t). split; [now left|exact C].
  - eapply Forall_impl; [|exact (IH _ S)]. intros k (p & Ip & C). exists p. split; [now right|exact C].
Qed.
Lemma called_same n m k : called n k -> called m k -> n = m.
Proof. intros (a & l & ->) (b & r & E). congruence. Qed.
Lemma split_same {T} (P : T -> Prop) l1 l2 : forall m1 m2, l1 ++ l2 = m1 ++ m2 -> Forall P l1 -> Forall (fun x => ~ P x) l2 -> Forall P m1 -> Forall (fun x => ~ P x) m2 -> l1 = m1 /\ l2 = m2.
Proof.
  induction l1 as [|x l1 IH]; intros m1 m2 E A B C D.
  - destruct m1 as [|y m1]; [auto|]. cbn in E. subst l2. inversion B; inversion C; subst. contradiction.
  - destruct m1 as [|y m1].
    + cbn in E. subst m2. inversion A; inversion D; subst. contradiction.
    + injection E as -> E. inversion A; inversion C; subst. destruct (IH m1 m2 E) as (-> & ->); auto.
Qed.
(** A list that falls into groups of equal names is in sequence iff every group fits its particle. *)
Lemma sequence_groups ps gs : NoDup (map part_name ps) -> Forall2 (fun p g => Forall (called (part_name p)) g) ps gs ->
  (in_sequence ps (List.concat gs) <-> Forall2 in_bounds ps gs).
Proof.
  intros N F. induction F as [|p g ps gs Hg F IH]; [split; [constructor|intros _; constructor]|].
  cbn [map] in N. inversion N as [|? ? Np N']; subst. specialize (IH N'). cbn [List.concat].
  assert (Out : Forall (fun x => ~ called (part_name p) x) (List.concat gs)).
  { clear IH Hg N N'. induction F as [|q h ps gs Hh F IHF]; [constructor|]. cbn [map List.concat] in *. apply Forall_app. split.
    - eapply Forall_impl; [|exact Hh]. intros k C D. apply Np. left. symmetry. eapply called_same; eassumption.
    - apply IHF. intro K. apply Np. now right. }
  split.
  - intro H. inversion H as [|n lo hi t ps' l1 l2 Lo Hi O Sq]; subst. cbn [part_name] in *. apply occurrences_iff in O as (O1 & O2).
    destruct (split_same (called n) l1 l2 g (List.concat gs)) as (-> & ->); auto.
    + eapply Forall_impl; [|exact (sequence_names _ _ Sq)]. intros k (q & Iq & C) D. apply Np. rewrite <- (called_same _ _ _ C D). now apply in_map.
    + constructor; [cbn; auto|]. now apply IH.
  - intro H. inversion H as [|? ? ? ? W Fw]; subst. destruct p as [n lo hi t]. destruct W as (Lo & Hi & C). constructor; auto; [now apply occurrences_iff|now apply IH].
Qed.
(** Proper children: element names do not begin with ! or ?. *)
Definition proper (k : node) : Prop := match k with Elem n _ _ => is_markup_name n = false | Opaque _ => False end.
Lemma proper_own k : proper k -> own_text k = [].
Proof.
  destruct k as [n a ks|s]; [|contradiction]. unfold proper, own_text. intro H. destruct (str_eqb (firstn 8 n) (s2z "![CDATA[")) eqn:E; [|reflexivity].
  apply str_eqb_eq in E. destruct n as [|c n]; [discriminate|]. change (firstn 8 (c :: n)) with (c :: firstn 7 n) in E. injection E as -> _. discriminate.
Qed.
Lemma children_proper ks : Forall proper ks -> children ks = ks /\ text_in ks = [].
Proof.
  induction 1 as [|k l Hk _ (IH1 & IH2)]; [auto|]. unfold children, text_in in *. cbn [filter flat_map]. rewrite (proper_own k Hk), IH2.
  destruct k as [n a ks|s]; [|contradiction]. cbn in Hk. rewrite Hk. cbn [negb]. now rewrite IH1.
Qed.
(** The content of an element whose children fall into groups. *)
Lemma groups_iff ps gs ks : ks = List.concat gs -> Forall proper ks -> NoDup (map part_name ps) -> Forall2 (fun p g => Forall (called (part_name p)) g) ps gs ->
  (content_conforms (Sequence ps) ks <-> Forall2 in_bounds ps gs).
Proof.
  intros -> P N F. destruct (children_proper _ P) as (C & T). rewrite sequence_iff, C, T, (sequence_groups ps gs N F).
  split; [intros (_ & H); exact H|intro H; split; [constructor|exact H]].
Qed.
(** Text elements. *)
Lemma simple_iff p n s : conforms (simple p) (Elem n [] (text_kids s)) <-> p s.
Proof.
  unfold simple. rewrite conforms_iff, text_iff. assert (E : text_in (text_kids s) = s) by (destruct s; [reflexivity|cbn; now rewrite app_nil_r]). rewrite E.
  split; [intros (_ & _ & H); exact H|]. intro H. split; [split; intros ? ? []|]. split; [destruct s; reflexivity|exact H].
Qed.
Lemma called_text n s : Forall (called n) (text_node n s).
Proof. destruct s; repeat constructor. eexists _, _. reflexivity. Qed.
Lemma bounds_one n t k : in_bounds (Part n 1 (Some 1%nat) t) [k] <-> conforms t k.
Proof.
  cbn. split; [intros (_ & _ & F); now inversion F|]. intro C. split; [lia|]. split; [intros m [= <-]; lia|repeat constructor; assumption].
Qed.
Lemma bounds_one_none n t : ~ in_bounds (Part n 1 (Some 1%nat) t) [].
Proof. cbn. lia. Qed.
Lemma bounds_opt n t k : in_bounds (Part n 0 (Some 1%nat) t) [k] <-> conforms t k.
Proof.
  cbn. split; [intros (_ & _ & F); now inversion F|]. intro C. split; [lia|]. split; [intros m [= <-]; lia|repeat constructor; assumption].
Qed.
Lemma bounds_opt_none n t : in_bounds (Part n 0 (Some 1%nat) t) [].
Proof. cbn. split; [lia|]. split; [intros m [= <-]; lia|constructor]. Qed.
Lemma bounds_many n t l : in_bounds (Part n 0 None t) l <-> Forall (conforms t) l.
Proof. cbn. split; [intros (_ & _ & F); exact F|]. intro F. split; [lia|]. split; [discriminate|exact F]. Qed.
Lemma bounds_some n t l : in_bounds (Part n 1 None t) l <-> l <> [] /\ Forall (conforms t) l.
Proof.
  cbn. split; [intros (L & _ & F); split; [destruct l; [cbn in L; lia|discriminate]|exact F]|]. intros (N & F).
  split; [destruct l; [congruence|cbn; lia]|]. split; [discriminate|exact F].
Qed.
(** An element that must be there once, written from an optional string. *)
Lemma one_text n p s : in_bounds (Part n 1 (Some 1%nat) (simple p)) (text_node n s) <-> exists x, s = Some x /\ p x.
Proof.
  destruct s as [s|]; cbn [text_node].
  - rewrite bounds_one, simple_iff. split; [eauto|]. intros (x & [= <-] & H). exact H.
  - split; [intro H; now apply bounds_one_none in H|]. intros (x & [=] & _).
Qed.
Lemma one_int n p z : in_bounds (Part n 1 (Some 1%nat) (simple p)) (int_node n z) <-> p (print_dec z).
Proof. unfold int_node. now rewrite bounds_one, simple_iff. Qed.
