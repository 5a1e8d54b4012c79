(** Reading a text that ends too early: the main loop. *)
From Verif Require Import CBase CBaseProofs XmlEntity XmlModel SpecXml Utf8Proofs XmlTermProofs FileModel FileProofs SpecCut CutProofs.

(** * One tag *)
Notation name_of t := (collect true name_before name_after (fun _ => false) None t []) (only parsing).
Definition long_tag (ents : bool) (bf : Z -> cstr -> verdict) (b : bool) (st : pstate) (t : list tok) (name : cstr) : res stepr :=
  rbind (collect ents bf never (fun _ => false) None t name) (fun r2 => let '(ch2, name2, t2) := r2 in if ch2 =? 62 then special name2 b st t2 else Fail).
Definition decl_part (ch : Z) (st : pstate) (t : list tok) (name : cstr) : res stepr :=
  rbind (if ch =? 62 then Ret (ch, name, t) else collect true decl_before never (fun _ => false) None t (name ++ utf8 ch)) (fun r2 =>
    let '(ch2, name2, t2) := r2 in if ch2 =? 62 then special name2 true st t2 else Fail).
Lemma tag_cases st : exists body : Z * cstr * list tok -> res stepr, (forall t, tag st t = rbind (name_of t) body) /\
  forall ch name,
    (exists bf, (exists r, name = 33 :: r) /\ forall t1, body (ch, name, t1) = long_tag false bf false st t1 name) \/
    ((exists r, name = 63 :: r) /\ forall t1, body (ch, name, t1) = long_tag false pi_before true st t1 name) \/
    ((exists r, name = 33 :: r) /\ forall t1, body (ch, name, t1) = decl_part ch st t1 name) \/
    (exists r, name = 47 :: r /\ forall t1, body (ch, name, t1) = close_tag r ch st t1) \/
    ((forall r, name <> 47 :: r) /\ forall t1, body (ch, name, t1) = open_element name ch st t1).
Proof.
  eexists. split; [intro t; reflexivity|]. intros ch name. cbv beta iota.
  destruct (str_eqb name COMMENT) eqn:E1; [left; eexists; split; [apply str_eqb_eq in E1; subst; eexists|]; reflexivity|].
  destruct (str_eqb name CDATA) eqn:E2; [left; eexists; split; [apply str_eqb_eq in E2; subst; eexists|]; reflexivity|]. right.
  destruct name as [|x r]; [right; right; right; split; [discriminate|reflexivity]|].
  destruct (Z.eq_dec x 63) as [->|N1]; [left; split; [eauto|reflexivity]|].
  destruct (Z.eq_dec x 33) as [->|N2]; [right; left; split; [eauto|reflexivity]|].
  destruct (Z.eq_dec x 47) as [->|N3]; [right; right; left; exists r; split; reflexivity|].
  right. right. right. split; [congruence|]. intro t1.
  destruct x as [|p|p]; try reflexivity. do 6 (destruct p as [p|p|]; try reflexivity); congruence.
Qed.
(** What a tag does to the open elements; [m] is a beginning of the name it brings. *)
Inductive effect (m : cstr) (st : pstate) : pstate -> Prop :=
| eff_elem n a : second_root st = false -> beginning m n -> effect m st (attach (Elem n a []) st)
| eff_open n a : second_root st = false -> beginning m n -> effect m st (push (mkFrame n a []) st)
| eff_close f l : stack st = f :: l -> m = [] -> effect m st (attach (close_frame f) (mkP l (top st) [] (opaque st))).
Lemma beginning_nil {A} (l : list A) : beginning [] l. Proof. now exists l. Qed.
Lemma special_effect m n b st t st' t' : beginning m n -> special n b st t = Ret (Go st' t') -> effect m st st'.
Proof.
  intro B. unfold special. destruct (second_root st) eqn:R; [discriminate|].
  destruct (stack st); [destruct b|]; intro E; injection E as <- <-; first [apply eff_open|apply eff_elem]; auto.
Qed.
Lemma tag_effect st t st' t' : tag st t = Ret (Go st' t') -> exists ch name t1, name_of t = Ret (ch, name, t1) /\
  forall m, beginning m name -> (forall r, m <> 47 :: r) -> effect m st st'.
Proof.
  destruct (tag_cases st) as (body & T & C). rewrite T. intro E. apply rbind_ret in E as (((ch & name) & t1) & N & E). exists ch, name, t1. split; [exact N|].
  intros m B Nm. destruct (C ch name) as [(bf & _ & K)|[(_ & K)|[(_ & K)|[(r & -> & K)|(_ & K)]]]]; rewrite K in E.
  - unfold long_tag in E. apply rbind_ret in E as (((c2 & n2) & t2) & L & E). destruct (c2 =? 62); [|discriminate]. apply collect_grows in L.
    eapply special_effect; [|exact E]. eapply beginning_trans; eassumption.
  - unfold long_tag in E. apply rbind_ret in E as (((c2 & n2) & t2) & L & E). destruct (c2 =? 62); [|discriminate]. apply collect_grows in L.
    eapply special_effect; [|exact E]. eapply beginning_trans; eassumption.
  - unfold decl_part in E. apply rbind_ret in E as (((c2 & n2) & t2) & L & E). destruct (c2 =? 62) eqn:E2; [|discriminate].
    eapply special_effect; [|exact E]. eapply beginning_trans; [exact B|]. destruct (ch =? 62); [injection L as -> -> ->; apply beginning_refl|].
    apply collect_grows in L. eapply beginning_trans; [apply beginning_app|exact L].
  - unfold close_tag in E. destruct (stack st) as [|f l] eqn:S; [discriminate|]. destruct (str_eqb r (fr_name f)); [|discriminate].
    apply rbind_ret in E as (t2 & _ & E). injection E as <- <-. eapply eff_close; [exact S|].
    destruct B as (x & Bx). destruct m as [|y m]; [reflexivity|]. injection Bx as <- _. exfalso. eapply Nm. reflexivity.
  - unfold open_element in E. destruct (second_root st) eqn:R; [discriminate|]. apply rbind_ret in E as (((c1 & a) & t2) & _ & E).
    destruct (c1 =? EOF); [discriminate|]. destruct (c1 =? 47); injection E as <- <-; [apply eff_elem|apply eff_open]; auto.
Qed.
Lemma long_tag_end ents bf b st e' name : ended e' -> long_tag ents bf b st e' name = Fail.
Proof. intro He. unfold long_tag. destruct (collect_end e' ents bf never (fun _ => false) None name He) as [->|(e2 & _ & ->)]; reflexivity. Qed.
Lemma long_tag_cut e q p ents bf b st name st' t' : ended e -> long_tag ents bf b st (map Ch p ++ q) name = Ret (Go st' t') ->
  (exists p', t' = map Ch p' ++ q /\ long_tag ents bf b st (map Ch p ++ e) name = Ret (Go st' (map Ch p' ++ e))) \/ long_tag ents bf b st (map Ch p ++ e) name = Fail.
Proof.
  intros He E. unfold long_tag in *. apply rbind_ret in E as (((c2 & n2) & t2) & L & E). destruct (c2 =? 62) eqn:E2; [|discriminate].
  destruct (collect_cut e q _ _ _ _ p He _ _ _ _ _ L) as [(p' & -> & ->)|[->|(e' & m & _ & _ & _ & ->)]]; cbn [rbind]; [left|right; reflexivity..].
  rewrite E2. exists p'. unfold special in *. destruct (second_root st); [discriminate|]. destruct (stack st); [destruct b|]; injection E as <- <-; auto.
Qed.
Lemma decl_part_cut e q p ch st name st' t' : ended e -> decl_part ch st (map Ch p ++ q) name = Ret (Go st' t') ->
  (exists p', t' = map Ch p' ++ q /\ decl_part ch st (map Ch p ++ e) name = Ret (Go st' (map Ch p' ++ e))) \/ decl_part ch st (map Ch p ++ e) name = Fail.
Proof.
  unfold decl_part. destruct (ch =? 62) eqn:E2; [|now apply long_tag_cut].
  intros _ E. cbn [rbind] in *. rewrite E2 in *. left. exists p. unfold special in *. destruct (second_root st); [discriminate|]. destruct (stack st); injection E as <- <-; auto.
Qed.
Lemma tag_cut e q p st st' t' : ended e -> tag st (map Ch p ++ q) = Ret (Go st' t') ->
  (exists p', t' = map Ch p' ++ q /\ tag st (map Ch p ++ e) = Ret (Go st' (map Ch p' ++ e))) \/
  tag st (map Ch p ++ e) = Fail \/
  (exists e', ended e' /\ tag st (map Ch p ++ e) = Ret (Go st' e')) \/
  (exists m, effect m st st' /\ tag st (map Ch p ++ e) = Ret (End (finish (attach (Elem m [] []) st)))).
Proof.
  intros He E. destruct (tag_effect _ _ _ _ E) as (ch0 & name0 & t0 & N0 & Eff).
  destruct (tag_cases st) as (body & T & C). rewrite T in E |- *. apply rbind_ret in E as (((ch & name) & t1) & N & E).
  rewrite N0 in N. injection N as -> -> ->. clear T.
  destruct (collect_cut e q _ _ _ _ p He _ _ _ _ _ N0) as [(p' & -> & ->)|[->|(e' & m & He' & B & _ & ->)]]; cbn [rbind]; [|now right; left|].
  - destruct (C ch name) as [(bf & _ & K)|[(_ & K)|[(_ & K)|[(r & -> & K)|(_ & K)]]]]; rewrite K in *.
    + destruct (long_tag_cut e q p' _ _ _ _ _ _ _ He E) as [H|H]; auto.
    + destruct (long_tag_cut e q p' _ _ _ _ _ _ _ He E) as [H|H]; auto.
    + destruct (decl_part_cut e q p' _ _ _ _ _ He E) as [H|H]; auto.
    + unfold close_tag in *. destruct (stack st) as [|f l]; [discriminate|]. destruct (str_eqb r (fr_name f)); [|discriminate].
      apply rbind_ret in E as (t2 & S & E). injection E as <- <-.
      destruct (skip_to_gt_cut e q p' He _ _ S) as [(p2 & -> & ->)|(e' & He' & ->)]; cbn [rbind]; eauto 6.
    + unfold open_element in *. destruct (second_root st); [discriminate|].
      set (F := fun r : Z * attr_list * list tok => let '(ch1, attrs, t1) := r in _) in E |- *.
      apply rbind_ret in E as (((c1 & a) & t2) & P & E).
      assert (P' : (exists p2, t2 = map Ch p2 ++ q /\ (if mxml_isspace ch then parse_element (S (List.length (map Ch p' ++ e))) [] (map Ch p' ++ e)
           else if ch =? 47 then expect_gt 47 [] (map Ch p' ++ e) else Ret (ch, [], map Ch p' ++ e)) = Ret (c1, a, map Ch p2 ++ e)) \/
           (if mxml_isspace ch then parse_element (S (List.length (map Ch p' ++ e))) [] (map Ch p' ++ e)
           else if ch =? 47 then expect_gt 47 [] (map Ch p' ++ e) else Ret (ch, [], map Ch p' ++ e)) = Fail).
      { destruct (mxml_isspace ch); [eapply parse_element_cut; [exact He|lia|exact P]|]. destruct (ch =? 47); [now apply expect_gt_cut|].
        injection P as <- <- <-. eauto. }
      destruct P' as [(p2 & -> & ->)| ->]; cbn [rbind]; [|now right; left]. unfold F in *. destruct (c1 =? EOF); [discriminate|].
      destruct (c1 =? 47); injection E as <- <-; left; eauto.
  - destruct (C EOF m) as [(bf & _ & K)|[(_ & K)|[(_ & K)|[(r & -> & K)|(Nm & K)]]]]; rewrite K.
    + right. left. now apply long_tag_end.
    + right. left. now apply long_tag_end.
    + right. left. unfold decl_part. change (EOF =? 62) with false. cbv iota. now apply long_tag_end.
    + destruct (C ch name) as [(bf & (r2 & ->) & _)|[((r2 & ->) & _)|[((r2 & ->) & _)|[(r2 & -> & K2)|(Nn & _)]]]]; try (destruct B; discriminate).
      * rewrite K2 in E. unfold close_tag in *. destruct (stack st) as [|f l]; [discriminate|]. destruct (str_eqb r (fr_name f)) eqn:R; [|now right; left].
        destruct (str_eqb r2 (fr_name f)); [|discriminate]. apply rbind_ret in E as (t2 & _ & E). injection E as <- _.
        right. right. left. exists e'. split; [exact He'|]. destruct e'; reflexivity.
      * exfalso. destruct B as (x & ->). now apply (Nn (r ++ x)).
    + unfold open_element. destruct (second_root st) eqn:R; [now right; left|]. right. right. right. exists m.
      split; [now apply Eff|]. reflexivity.
Qed.
Lemma tag_end_cut e q p st r : ended e -> tag st (map Ch p ++ q) = Ret (End r) ->
  exists name a, second_root st = false /\ r = finish (attach (Elem name a []) st) /\
  (tag st (map Ch p ++ e) = Ret (End r) \/ tag st (map Ch p ++ e) = Fail \/
   exists m, beginning m name /\ tag st (map Ch p ++ e) = Ret (End (finish (attach (Elem m [] []) st)))).
Proof.
  intros He E. destruct (tag_cases st) as (body & T & C). rewrite T in E |- *. apply rbind_ret in E as (((ch & name) & t1) & N & E). clear T.
  assert (O : (forall r, name <> 47 :: r) /\ forall t1, body (ch, name, t1) = open_element name ch st t1).
  { destruct (C ch name) as [(bf & _ & K)|[(_ & K)|[(_ & K)|[(r2 & -> & K)|H]]]]; [..|exact H]; exfalso; rewrite K in E.
    - unfold long_tag in E. apply rbind_ret in E as (((c2 & n2) & t2) & L & E). destruct (c2 =? 62); [|discriminate].
      unfold special in E. destruct (second_root st); [discriminate|]. destruct (stack st); discriminate.
    - unfold long_tag in E. apply rbind_ret in E as (((c2 & n2) & t2) & L & E). destruct (c2 =? 62); [|discriminate].
      unfold special in E. destruct (second_root st); [discriminate|]. destruct (stack st); discriminate.
    - unfold decl_part in E. apply rbind_ret in E as (((c2 & n2) & t2) & L & E). destruct (c2 =? 62); [|discriminate].
      unfold special in E. destruct (second_root st); [discriminate|]. destruct (stack st); discriminate.
    - unfold close_tag in E. destruct (stack st) as [|f l]; [discriminate|]. destruct (str_eqb r2 (fr_name f)); [|discriminate].
      apply rbind_ret in E as (t2 & _ & E). discriminate. }
  destruct O as (Nn & K). rewrite K in E. unfold open_element in E. destruct (second_root st) eqn:R; [discriminate|].
  apply rbind_ret in E as (((c1 & a) & t2) & P & E).
  destruct (c1 =? EOF) eqn:Ec; [|destruct (c1 =? 47); discriminate]. injection E as <-.
  exists name, a. split; [reflexivity|]. split; [reflexivity|].
  destruct (collect_cut e q _ _ _ _ p He _ _ _ _ _ N) as [(p' & -> & ->)|[->|(e' & m & He' & B & _ & ->)]]; cbn [rbind]; [|now right; left|].
  - rewrite K. unfold open_element. rewrite R.
    assert (P' : (exists p2, t2 = map Ch p2 ++ q /\ (if mxml_isspace ch then parse_element (S (List.length (map Ch p' ++ e))) [] (map Ch p' ++ e)
           else if ch =? 47 then expect_gt 47 [] (map Ch p' ++ e) else Ret (ch, [], map Ch p' ++ e)) = Ret (c1, a, map Ch p2 ++ e)) \/
           (if mxml_isspace ch then parse_element (S (List.length (map Ch p' ++ e))) [] (map Ch p' ++ e)
           else if ch =? 47 then expect_gt 47 [] (map Ch p' ++ e) else Ret (ch, [], map Ch p' ++ e)) = Fail).
    { destruct (mxml_isspace ch); [eapply parse_element_cut; [exact He|lia|exact P]|]. destruct (ch =? 47); [now apply expect_gt_cut|].
      injection P as <- <- <-. eauto. }
    destruct P' as [(p2 & -> & ->)| ->]; cbn [rbind]; [|now right; left]. rewrite Ec. auto.
  - destruct (C EOF m) as [(bf & _ & K2)|[(_ & K2)|[(_ & K2)|[(r2 & -> & K2)|(Nm & K2)]]]]; rewrite K2.
    + right. left. now apply long_tag_end.
    + right. left. now apply long_tag_end.
    + right. left. unfold decl_part. change (EOF =? 62) with false. cbv iota. now apply long_tag_end.
    + exfalso. destruct B as (x & ->). now apply (Nn (r2 ++ x)).
    + right. right. exists m. split; [exact B|]. unfold open_element. rewrite R. reflexivity.
Qed.

(** * On the way to a document *)
Definition fw (st : pstate) : Prop := stack st = [] \/ top st = None.
Fixpoint on_way (N : cstr) (A : list (cstr * option cstr)) (K : list node) (l : list frame) : Prop :=
  match l with
  | [] => True
  | [b] => fr_name b = N /\ fr_attrs b = A /\ exists k2, K = rev (fr_kids b) ++ k2
  | g :: ((b :: []) as l') => fr_name b = N /\ fr_attrs b = A /\ exists k k2, K = rev (fr_kids b) ++ Elem (fr_name g) (fr_attrs g) k :: k2
  | _ :: l' => on_way N A K l'
  end.
Definition going N A K (st : pstate) : Prop := on_way N A K (stack st) /\ (stack st = [] -> top st = None \/ top st = Some (Elem N A K)).
(** Changing the head frame but not its name and attributes. *)
Lemma on_way_head N A K f f' g l : fr_name f' = fr_name f -> fr_attrs f' = fr_attrs f -> on_way N A K (f' :: g :: l) -> on_way N A K (f :: g :: l).
Proof. intros E1 E2. destruct l as [|b l]; [|exact (fun x => x)]. cbn. now rewrite E1, E2. Qed.
Lemma on_way_tail N A K f g l : on_way N A K (f :: g :: l) -> on_way N A K (g :: l).
Proof.
  destruct l as [|b [|c l]]; cbn; auto. intros (E1 & E2 & k & k2 & ->). eauto.
Qed.
Lemma on_way_kids N A K f l n k : on_way N A K (mkFrame (fr_name f) (fr_attrs f) (n :: k ++ fr_kids f) :: l) -> on_way N A K (f :: l).
Proof.
  destruct l as [|b l]; [|now apply on_way_head]. cbn. intros (E1 & E2 & k2 & ->). repeat split; auto.
  rewrite rev_app_distr, <- !app_assoc. eauto.
Qed.
Lemma going_finish N A K st : going N A K st -> torn (Elem N A K) (finish st).
Proof.
  intros (W & T). unfold finish. destruct (stack st) as [|b [|c l]].
  - destruct (T eq_refl) as [->| ->]; [constructor|]. pose proof (torn_kids N A K []) as H. now rewrite app_nil_r in H.
  - destruct W as (<- & <- & k2 & ->). apply torn_kids.
  - constructor.
Qed.
Lemma fw_effect m st st' : fw st -> effect m st st' -> fw st'.
Proof.
  intros F E. destruct E as [n a R B|n a R B|f l S Em]; unfold fw, attach, push in *; cbn.
  - destruct (stack st) as [|g l]; cbn; [auto|]. destruct F; [discriminate|auto].
  - right. unfold second_root in R. destruct (stack st), (top st); auto; destruct F; congruence.
  - destruct l; cbn; [auto|]. right. destruct F as [F|F]; [congruence|exact F].
Qed.
Lemma effect_back N A K m st st' : fw st -> effect m st st' -> going N A K st' -> going N A K st /\ torn (Elem N A K) (finish (attach (Elem m [] []) st)).
Proof.
  intros F E (W & T). destruct E as [n a R B|n a R B|f l S Em]; unfold going, fw, attach, push, finish, second_root, close_frame in *; cbn in *.
  - destruct (stack st) as [|g [|h l]]; cbn [stack top] in *.
    + destruct (top st) as [y|]; [discriminate|]. specialize (T eq_refl) as [T|T]; [discriminate|]. injection T as <- <- <-.
      repeat split; auto. now constructor.
    + destruct W as (E1 & E2 & k2 & E3). split.
      * split; [|discriminate]. cbn in *. repeat split; auto. rewrite E3, <- app_assoc. eauto.
      * cbn in *. rewrite E1, E2, E3, <- app_assoc. now constructor.
    + split; [|constructor]. split; [|discriminate]. eapply on_way_head; [..|exact W]; reflexivity.
  - destruct (stack st) as [|g [|h l]]; cbn [stack top] in *.
    + destruct (top st) as [y|]; [discriminate|]. destruct W as (E1 & E2 & _). cbn in E1, E2. subst n a. repeat split; auto. now constructor.
    + destruct W as (E1 & E2 & k & k2 & E3). cbn in E3. split.
      * split; [|discriminate]. repeat split; auto. rewrite E3. eauto.
      * cbn. rewrite E1, E2, E3. now constructor.
    + split; [|constructor]. split; [|discriminate]. exact W.
  - rewrite S in *. destruct F as [F|F]; [discriminate|]. destruct l as [|g l]; cbn [stack top] in *.
    + rewrite F in *. specialize (T eq_refl) as [T|T]; [discriminate|]. injection T as <- <- <-. split.
      * split; [|discriminate]. repeat split; auto. exists []. now rewrite app_nil_r.
      * cbn. subst m. constructor.
    + split; [|constructor]. split; [|discriminate]. destruct l as [|b l].
      * cbn in W |- *. destruct W as (E1 & E2 & k2 & E3). repeat split; auto. rewrite E3, <- app_assoc. cbn. eauto.
      * destruct l as [|c l]; [|exact W]. cbn in W |- *. exact W.
Qed.
Definition flushed (st : pstate) : pstate := mkP (stack (flush st)) (top (flush st)) [] (opaque st).
Lemma fw_flushed st : fw st -> fw (flushed st).
Proof.
  intro F. unfold fw, flushed, flush in *. cbn. destruct (buf st); [exact F|]. destruct (opaque st); [|exact F].
  unfold attach. destruct (stack st); cbn; [auto|]. right. destruct F; [discriminate|assumption].
Qed.
Lemma flushed_back N A K st : going N A K (flushed st) -> going N A K st.
Proof.
  unfold going, flushed, flush. cbn. destruct (buf st); [auto|]. destruct (opaque st); [|auto]. unfold attach. destruct (stack st) as [|f fs]; cbn [stack top].
  - intros (_ & T). split; [exact I|]. intros _. destruct (top st); auto.
  - intros (W & _). split; [|discriminate]. eapply (on_way_kids _ _ _ _ _ _ []). exact W.
Qed.

(** * The main loop *)
Lemma step_at_end st e : ended e -> step st e = Ret (End (finish st)).
Proof. intro He. destruct e as [|b l]; [reflexivity|]. apply ended_tl in He as (-> & _). reflexivity. Qed.
Lemma run_at_end f st e : ended e -> (0 < f)%nat -> run_parser f st e = Ret (finish st).
Proof. intros He L. destruct f; [lia|]. cbn. now rewrite step_at_end. Qed.
Lemma finish_going N A K st : fw st -> finish st = Some (Elem N A K) -> going N A K st.
Proof.
  intros F E. unfold finish, going in *. destruct (stack st) as [|b [|c l]]; cbn.
  - auto.
  - unfold close_frame in E. injection E as <- <- <-. split; [|discriminate]. repeat split; auto. exists []. now rewrite app_nil_r.
  - discriminate.
Qed.
Definition cut_result (D : node) (r : res (option node)) : Prop := r = Fail \/ exists n, r = Ret n /\ torn D n.
Lemma finish_attach_torn N A K st name a m : finish (attach (Elem name a []) st) = Some (Elem N A K) -> second_root st = false -> fw st -> beginning m name ->
  going N A K st /\ torn (Elem N A K) (finish (attach (Elem m [] []) st)).
Proof.
  unfold finish, attach, second_root, going, close_frame. intros E R F B. destruct (stack st) as [|b [|c l]]; cbn in *.
  - destruct (top st); [discriminate|]. injection E as <- <- <-. repeat split; auto. now constructor.
  - injection E as <- <- <-. split.
    + split; [|discriminate]. repeat split; auto. eauto.
    + now apply (torn_tag _ _ _ _ _ _ []).
  - discriminate.
Qed.
Lemma going_same N A K st st' : stack st' = stack st -> top st' = top st -> going N A K st' -> going N A K st.
Proof. unfold going. now intros -> ->. Qed.
Lemma step_effect st t st' t' : step st t = Ret (Go st' t') -> (stack st' = stack st /\ top st' = top st) \/ effect [] (flushed st) st'.
Proof.
  destruct t as [|[c| |] l]; try discriminate. cbn [step]. destruct (c =? 60).
  - intro E. right. change (tag (flushed st) l = Ret (Go st' t')) in E. destruct (tag_effect _ _ _ _ E) as (? & ? & ? & _ & Eff). apply Eff; [apply beginning_nil|discriminate].
  - intro E. left. set (st1 := if mxml_isspace c && negb (opaque st) then _ else st) in E.
    assert (S1 : stack st1 = stack st /\ top st1 = top st) by (unfold st1; destruct (_ && _); auto).
    destruct (c =? 38); [apply rbind_ret in E as (r & _ & E); injection E as <- <-; exact S1|].
    destruct (_ || _); injection E as <- <-; exact S1.
Qed.
Lemma fw_step st t st' t' : fw st -> step st t = Ret (Go st' t') -> fw st'.
Proof.
  intros F E. destruct (step_effect _ _ _ _ E) as [(E1 & E2)|E1]; [unfold fw in *; now rewrite E1, E2|]. eapply fw_effect; [|exact E1]. now apply fw_flushed.
Qed.
Lemma step_back N A K st t st' t' : fw st -> step st t = Ret (Go st' t') -> going N A K st' -> going N A K st.
Proof.
  intros F E G. destruct (step_effect _ _ _ _ E) as [(E1 & E2)|E1]; [now apply (going_same _ _ _ st st')|].
  apply flushed_back. eapply effect_back; [|exact E1|exact G]. now apply fw_flushed.
Qed.
Lemma step_end_back N A K st t : fw st -> step st t = Ret (End (Some (Elem N A K))) -> going N A K st.
Proof.
  intros F. destruct t as [|[c| |] l]; try discriminate; cbn [step]; intro E.
  - injection E as E. now apply finish_going.
  - destruct (c =? 60).
    + change (tag (flushed st) l = Ret (End (Some (Elem N A K)))) in E. replace l with (map Ch [] ++ l) in E by reflexivity.
      destruct (tag_end_cut [] l [] _ _ ltac:(constructor) E) as (name & a & R & E1 & _). symmetry in E1.
      apply flushed_back. eapply finish_attach_torn; [exact E1|exact R|now apply fw_flushed|apply beginning_refl].
    + exfalso. destruct (c =? 38); [apply rbind_ret in E as (r & _ & E); discriminate|]. match type of E with (if ?b then _ else _) = _ => destruct b end; discriminate.
  - injection E as E. now apply finish_going.
Qed.
Lemma run_going N A K f : forall st t, fw st -> run_parser f st t = Ret (Some (Elem N A K)) -> going N A K st.
Proof.
  induction f as [|f IH]; intros st t F E; [discriminate|]. cbn in E. apply rbind_ret in E as ([st' t'|n] & S1 & E).
  - eapply step_back; [exact F|exact S1|]. eapply IH; [|exact E]. now apply (fw_step st t st' t').
  - injection E as ->. eapply step_end_back; eassumption.
Qed.
Lemma run_cut N A K e q : ended e -> forall f st p, fw st -> run_parser f st (map Ch p ++ q) = Ret (Some (Elem N A K)) ->
  forall g, (List.length (map Ch p ++ e) < g)%nat -> cut_result (Elem N A K) (run_parser g st (map Ch p ++ e)).
Proof.
  intro He. induction f as [|f IH]; intros st p F E g L; [discriminate|]. pose proof (run_going _ _ _ _ _ _ F E) as G.
  destruct p as [|c p].
  { right. exists (finish st). split; [|now apply going_finish]. cbn [map app] in *. apply run_at_end; [exact He|lia]. }
  destruct g as [|g]; [lia|]. cbn [run_parser] in *. apply rbind_ret in E as (r & S1 & E).
  assert (Same : forall p' st', r = Go st' (map Ch p' ++ q) -> step st (map Ch (c :: p) ++ e) = Ret (Go st' (map Ch p' ++ e)) ->
     cut_result (Elem N A K) (rbind (step st (map Ch (c :: p) ++ e)) (fun r => match r with Go st' t' => run_parser g st' t' | End n => Ret n end))).
  { intros p' st' -> S2. pose proof (step_shorter _ _ _ _ S2) as L2. rewrite S2. cbn [rbind]. apply IH; [now apply (fw_step _ _ _ _ F S1)|exact E|lia]. }
  cbn [map app step] in S1, Same |- *. destruct (c =? 60).
  - change (tag (flushed st) (map Ch p ++ q) = Ret r) in S1. change (tag (mkP (stack (flush st)) (top (flush st)) [] (opaque st)) (map Ch p ++ e)) with (tag (flushed st) (map Ch p ++ e)) in *.
    pose proof (fw_flushed st F) as F'. destruct r as [st' t'|n].
    + destruct (tag_cut e q p _ _ _ He S1) as [(p' & -> & T)|[T|[(e' & He' & T)|(m & Eff & T)]]].
      * now apply (Same p' st').
      * rewrite T. now left.
      * rewrite T. cbn [rbind]. assert (G2 : going N A K st').
        { eapply run_going; [|exact E]. destruct (tag_effect _ _ _ _ S1) as (? & ? & ? & _ & Eff). eapply fw_effect; [exact F'|]. apply Eff; [apply beginning_nil|discriminate]. }
        right. exists (finish st'). split; [|now apply going_finish]. apply run_at_end; [exact He'|]. cbn [map app List.length] in L. lia.
      * rewrite T. cbn [rbind]. right. eexists. split; [reflexivity|].
        eapply effect_back; [exact F'|exact Eff|]. eapply run_going; [|exact E]. now apply (fw_effect m (flushed st)).
    + injection E as ->. destruct (tag_end_cut e q p _ _ He S1) as (name & a & R & E1 & T). symmetry in E1.
      destruct T as [T|[T|(m & B & T)]]; rewrite T; cbn [rbind]; [|now left|].
      * right. eexists. split; [reflexivity|]. pose proof (torn_kids N A K []) as H. now rewrite app_nil_r in H.
      * right. eexists. split; [reflexivity|]. now apply (finish_attach_torn N A K (flushed st) name a m).
  - set (st1 := if mxml_isspace c && negb (opaque st) then _ else st) in *. destruct (c =? 38).
    + apply rbind_ret in S1 as ((v & t1) & G1 & S1). injection S1 as <-. destruct (get_entity_cut e q p He _ _ _ G1) as [(p' & -> & G2)|G2].
      * eapply Same; [reflexivity|]. rewrite G2. reflexivity.
      * rewrite G2. now left.
    + destruct (opaque st1 || negb (mxml_isspace c)); injection S1 as <-; eapply Same; reflexivity.
Qed.

(** * Truncated files *)
Lemma ftok8_rfc c r : good_cp c -> ftok8 (rfc_utf8 c ++ r) = Ch c :: ftok8 r.
Proof.
  intro G. destruct (both_rfc c) as (t & E); [unfold good_cp in G; lia|]. destruct (E r) as (E1 & ->). rewrite tok8_rfc in E1 by assumption.
  destruct (E []) as (E2 & _). rewrite tok8_rfc in E2 by assumption. cbn [tok8] in E2. rewrite app_nil_r in E2. now rewrite <- E2.
Qed.
Lemma cons_inv {A} (a b : A) l m : a :: l = b :: m -> a = b /\ l = m. Proof. intro E. now injection E. Qed.
Lemma cut_char c q r : good_cp c -> rfc_utf8 c = q ++ r -> q <> [] -> r <> [] -> ftok8 q = [Bad].
Proof.
  intros G E Nq Nr.
  assert (M : forall z, 0 <= z mod 64 < 64) by (intro; apply Z.mod_pos_bound; lia).
  assert (Hc : 0 <= c <= 1114111) by (unfold good_cp in G; lia). clear G.
  unfold rfc_utf8 in E. destruct (c <? 128) eqn:E1.
  { destruct q as [|a q]; [congruence|]. apply cons_inv in E as (_ & E). symmetry in E. apply app_eq_nil in E as (-> & ->). congruence. }
  destruct (c <? 2048) eqn:E2.
  { assert (Hx : 0 <= c / 64 < 32) by (split; [apply Z.div_pos; lia|apply Z.div_lt_upper_bound; lia]).
    destruct q as [|a [|b q]]; [congruence| |do 2 (apply cons_inv in E as (_ & E)); symmetry in E; apply app_eq_nil in E as (-> & ->); congruence].
    apply cons_inv in E as (<- & E). rewrite ftok8_cons. replace (192 + c / 64 <? 128) with false by lia.
    replace (192 + c / 64 =? 254) with false by lia. replace (192 + c / 64 =? 255) with false by lia.
    destruct (lead2 _ Hx) as (-> & _). reflexivity. }
  destruct (c <? 65536) eqn:E3.
  { assert (Hx : 0 <= c / 4096 < 16) by (split; [apply Z.div_pos; lia|apply Z.div_lt_upper_bound; lia]).
    destruct q as [|a [|b [|d q]]]; [congruence| | |do 3 (apply cons_inv in E as (_ & E)); symmetry in E; apply app_eq_nil in E as (-> & ->); congruence];
    [apply cons_inv in E as (<- & E)|do 2 (apply cons_inv in E as (<- & E))]; rewrite ftok8_cons; replace (224 + c / 4096 <? 128) with false by lia;
    replace (224 + c / 4096 =? 254) with false by lia; replace (224 + c / 4096 =? 255) with false by lia;
    destruct (lead3 _ Hx) as (L1 & -> & _); apply Z.eqb_neq in L1; rewrite L1; [reflexivity|].
    destruct (is_cont_128 _ (M (c / 64))) as (-> & _). reflexivity. }
  assert (Hx : 0 <= c / 262144 < 8) by (split; [apply Z.div_pos; lia|apply Z.div_lt_upper_bound; lia]).
  destruct q as [|a [|b [|d [|f q]]]]; [congruence| | | |do 4 (apply cons_inv in E as (_ & E)); symmetry in E; apply app_eq_nil in E as (-> & ->); congruence];
  [apply cons_inv in E as (<- & E)|do 2 (apply cons_inv in E as (<- & E))|do 3 (apply cons_inv in E as (<- & E))]; rewrite ftok8_cons; replace (240 + c / 262144 <? 128) with false by lia;
    replace (240 + c / 262144 =? 254) with false by lia; replace (240 + c / 262144 =? 255) with false by lia;
    destruct (lead4 _ Hx) as (L1 & L2 & -> & _); apply Z.eqb_neq in L1, L2; rewrite L1, L2; [reflexivity| |].
  - destruct (is_cont_128 _ (M (c / 4096))) as (-> & _). reflexivity.
  - destruct (is_cont_128 _ (M (c / 4096))) as (-> & _). destruct (is_cont_128 _ (M (c / 64))) as (-> & _). reflexivity.
Qed.
Lemma cut_text cps : Forall good_cp cps -> forall p q, flat_map rfc_utf8 cps = p ++ q ->
  exists cp1 cp2 e, cps = cp1 ++ cp2 /\ ended e /\ ftok8 p = map Ch cp1 ++ e.
Proof.
  induction 1 as [|c cps G _ IH]; intros p q E.
  - cbn in E. symmetry in E. apply app_eq_nil in E as (-> & ->). exists [], [], []. repeat split; auto. constructor.
  - cbn [flat_map] in E.
    assert (X : (exists p2, p = rfc_utf8 c ++ p2 /\ flat_map rfc_utf8 cps = p2 ++ q) \/ exists r, rfc_utf8 c = p ++ r /\ r <> []).
    { clear -E. revert p E. generalize (rfc_utf8 c) as a. induction a as [|x a IHa]; intros p E; [left; exists p; auto|].
      destruct p as [|y p]; [right; exists (x :: a); split; [reflexivity|discriminate]|]. cbn in E. injection E as <- E.
      destruct (IHa p E) as [(p2 & -> & E2)|(r & -> & N)]; [left; exists p2; auto|right; exists r; auto]. }
    destruct X as [(p2 & -> & E2)|(r & E2 & N)].
    + destruct (IH p2 q E2) as (cp1 & cp2 & e & -> & He & Et). exists (c :: cp1), cp2, e. split; [reflexivity|]. split; [exact He|].
      rewrite ftok8_rfc, Et by assumption. reflexivity.
    + exists [], (c :: cps). destruct p as [|x p].
      * exists []. repeat split. constructor.
      * exists [Bad]. split; [reflexivity|]. split; [repeat constructor|]. cbn [map app]. eapply cut_char; [exact G|exact E2|discriminate|exact N].
Qed.
(** Reading a beginning of a text that is read as [D]. *)
Theorem load_cut s D p : is_text s -> load_bytes s = Ret (Some D) -> beginning p s -> cut_result D (load_bytes p).
Proof.
  intros (cps & G & ->) E (q & Eq). destruct (cut_text cps G p q Eq) as (cp1 & cp2 & e & -> & He & Ep). unfold load_bytes in *.
  rewrite ftok8_text in E by assumption. rewrite Ep. rewrite map_app in E.
  destruct D as [N A K|s].
  - eapply run_cut; [exact He| |exact E|apply Nat.lt_succ_diag_r]. now left.
  - exfalso. revert E. generalize (S (List.length (map Ch cp1 ++ map Ch cp2))) as f. generalize (map Ch cp1 ++ map Ch cp2) as t.
    assert (H : forall f st t, (forall s, top st <> Some (Opaque s)) -> run_parser f st t <> Ret (Some (Opaque s))).
    { clear. induction f as [|f IH]; intros st t T; [discriminate|]. cbn. destruct (step st t) as [[st' t'|n]| | |] eqn:S1; cbn [rbind]; try discriminate.
      - apply IH. destruct (step_effect _ _ _ _ S1) as [(_ & ->)|Eff]; [exact T|].
        assert (T2 : forall s, top (flushed st) <> Some (Opaque s)).
        { unfold flushed, flush. cbn. destruct (buf st); [exact T|]. destruct (opaque st); [|exact T]. unfold attach. destruct (stack st); cbn; [|exact T]. destruct (top st); [exact T|discriminate]. }
        change (top (flushed st)) with (top (flush st)) in T2. destruct Eff as [n a _ _|n a _ _|g l _ _]; unfold attach, push; cbn; [destruct (stack (flush st)); cbn|..].
        + destruct (top (flush st)); [exact T2|discriminate].
        + exact T2.
        + exact T2.
        + destruct l; cbn; [|exact T2]. destruct (top (flush st)); [exact T2|discriminate].
      - intro E. injection E as ->. destruct t as [|[c| |] l]; try discriminate; cbn [step] in S1.
        + injection S1 as S1. revert S1. unfold finish. destruct (stack st) as [|g [|? ?]]; try discriminate. apply T.
        + destruct (c =? 60).
          * change (tag (flushed st) l = Ret (End (Some (Opaque s)))) in S1. destruct (tag_end_cut [] l [] _ _ ltac:(constructor) S1) as (name & a & R & E1 & _).
            unfold finish, attach, second_root in *. destruct (stack (flushed st)) as [|g [|? ?]]; cbn in E1, R; try discriminate. destruct (top (flush st)); congruence.
          * destruct (c =? 38); [apply rbind_ret in S1 as (r & _ & S1); discriminate|]. match type of S1 with (if ?b then _ else _) = _ => destruct b end; discriminate.
        + injection S1 as S1. revert S1. unfold finish. destruct (stack st) as [|g [|? ?]]; try discriminate. apply T. }
    intros t f. apply H. discriminate.
Qed.
