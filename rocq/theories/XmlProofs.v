(** Reading back what the writer wrote. *)
From Verif Require Import CBase CBaseProofs XmlEntity XmlModel SpecXml Utf8Proofs XmlTermProofs TrimProofs.

(** * Text *)
Definition plain (c : Z) : Prop := c <> 38 /\ c <> 60 /\ c <> 62 /\ c <> 34.
Lemma escape_app a b : escape (a ++ b) = escape a ++ escape b.
Proof. apply flat_map_app. Qed.
Lemma escape_plain s : Forall plain s -> escape s = s.
Proof.
  induction 1 as [|c s (A & B & C & D) _ IH]; [reflexivity|]. cbn [escape flat_map]. fold (escape s). rewrite IH.
  unfold escape_char, entity_name. apply Z.eqb_neq in A, B, C, D. now rewrite A, B, C, D.
Qed.
Lemma rfc_bytes c : good_cp c -> plain c -> Forall plain (rfc_utf8 c).
Proof.
  intros G P. unfold rfc_utf8. assert (R : 0 <= c <= 1114111) by (unfold good_cp in G; lia).
  assert (M : forall z, 128 <= 128 + z mod 64) by (intro; pose proof (Z.mod_pos_bound z 64); lia).
  assert (Q : forall x, 128 <= x -> plain x) by (unfold plain; lia).
  destruct (c <? 128); [auto|].
  pose proof (Z.div_pos c 64). pose proof (Z.div_pos c 4096). pose proof (Z.div_pos c 262144).
  destruct (c <? 2048); [repeat constructor; apply Q; try apply M; lia|].
  destruct (c <? 65536); repeat (constructor; [apply Q; try apply M; lia|]); constructor.
Qed.
Lemma escape_cp c : good_cp c ->
  (plain c /\ escape (rfc_utf8 c) = rfc_utf8 c) \/
  (rfc_utf8 c = [c] /\ (c = 38 \/ c = 60 \/ c = 62 \/ c = 34)).
Proof.
  intro G. assert (D : plain c \/ (c = 38 \/ c = 60 \/ c = 62 \/ c = 34)) by (unfold plain; lia).
  destruct D as [P|P]; [left|right].
  - split; [assumption|]. apply escape_plain. now apply rfc_bytes.
  - split; [|assumption]. destruct P as [->|[->|[->| ->]]]; reflexivity.
Qed.
(** An attribute value is read up to what follows its escaped form. *)
Lemma collect_escape bf s : (forall c b, plain c -> bf c b = Add) -> is_text s ->
  forall r b, collect true bf never (fun _ => false) None (tok8 (escape s ++ r)) b
            = collect true bf never (fun _ => false) None (tok8 r) (b ++ s).
Proof.
  intros Hb T. pattern s. revert s T. apply text_ind_cps.
  - intros r b. cbn. now rewrite app_nil_r.
  - intros c s G T IH r b. rewrite escape_app, <- app_assoc.
    destruct (escape_cp c G) as [(P & ->)|(E & Q)].
    + rewrite tok8_rfc by assumption. cbn [collect]. destruct P as (P1 & P2). pose proof P1 as P38. apply Z.eqb_neq in P1. rewrite P1. cbn [andb].
      rewrite Hb by (split; assumption). cbn [never]. rewrite IH, (good_utf8 c G), app_assoc. reflexivity.
    + rewrite E. destruct Q as [->|[->|[->| ->]]];
        (etransitivity; [|etransitivity; [apply (IH r)|rewrite <- app_assoc; reflexivity]]); reflexivity.
Qed.
(** Text between two tags goes to the buffer. *)
Lemma reach_escape S tp s : is_text s -> forall r b,
  reach (mkP S tp b true) (tok8 (escape s ++ r)) (mkP S tp (b ++ s) true) (tok8 r).
Proof.
  intro T. pattern s. revert s T. apply text_ind_cps.
  - intros r b. cbn. rewrite app_nil_r. apply reach_refl.
  - intros c s G T IH r b. rewrite escape_app, <- app_assoc, (app_assoc b).
    eapply reach_trans; [apply reach_one|apply IH].
    destruct (escape_cp c G) as [(P & ->)|(E & Q)].
    + rewrite tok8_rfc by assumption. unfold step. destruct P as (P1 & P2 & P3). apply Z.eqb_neq in P1, P2. rewrite P1, P2.
      cbn [stack top buf opaque]. rewrite andb_false_r. cbn [orb stack top buf opaque]. now rewrite (good_utf8 c G).
    + rewrite E. destruct Q as [->|[->|[->| ->]]]; reflexivity.
Qed.
Lemma blank_text w : blank w -> is_text w.
Proof. intro B. apply is_text_ascii. eapply Forall_impl; [|exact B]. cbv beta. lia. Qed.
Lemma blank_escape w : blank w -> escape w = w.
Proof. intro B. apply escape_plain. eapply Forall_impl; [|exact B]. cbv beta. unfold plain. lia. Qed.
Lemma reach_blank S tp w : blank w -> forall r b,
  reach (mkP S tp b true) (tok8 (w ++ r)) (mkP S tp (b ++ w) true) (tok8 r).
Proof. intros B r b. rewrite <- (blank_escape w B) at 1. apply reach_escape. now apply blank_text. Qed.
(** Before the first tag blanks are dropped. *)
Lemma reach_blank_top S tp w : blank w -> forall r,
  reach (mkP S tp [] false) (tok8 (w ++ r)) (mkP S tp [] false) (tok8 r).
Proof.
  induction 1 as [|c w H B IH]; intros r; [apply reach_refl|].
  eapply reach_trans; [apply reach_one|apply IH]. cbn [app].
  replace (tok8 (c :: w ++ r)) with (Ch c :: tok8 (w ++ r)) by (destruct H as [->|[->| ->]]; reflexivity).
  destruct H as [->|[->| ->]]; reflexivity.
Qed.

(** * Names *)
Lemma name_char_plain n : Forall name_char n -> Forall plain n.
Proof. intro F. eapply Forall_impl; [|exact F]. unfold name_char, plain. intro. lia. Qed.
Lemma name_utf8 c : name_char c -> utf8 c = [c].
Proof. intro H. unfold utf8. unfold name_char in H. replace (c <? 128) with true by lia. unfold u8. now rewrite Z.mod_small by lia. Qed.
Lemma name_after_no c x l : x = 47 \/ name_char x -> name_after c (x :: l) = false.
Proof.
  intro H. assert (x <> 63 /\ x <> 33) as (A & B) by (unfold name_char in H; lia).
  unfold name_after, COMMENT, CDATA. cbn [s2z list_ascii_of_string map str_eqb].
  cbn. apply Z.eqb_neq in A, B.
  replace (x =? 63) with false. replace (x =? 33) with false. reflexivity.
Qed.
Lemma name_before_add c b : name_char c -> name_before c b = Add.
Proof.
  intro H. unfold name_before, mxml_isspace. unfold name_char in H.
  replace (c =? 32) with false by lia. replace (c =? 9) with false by lia. replace (c =? 13) with false by lia.
  replace (c =? 10) with false by lia. replace (c =? 62) with false by lia. replace (c =? 47) with false by lia.
  replace (c =? 60) with false by lia. cbn [orb andb].
  match goal with |- (if ?x then _ else _) = _ => replace x with false by lia end. reflexivity.
Qed.
Lemma collect_name n c r : Forall name_char n -> c = 32 \/ c = 62 ->
  forall b, (b = [] /\ n <> []) \/ (exists x l, b = x :: l /\ (x = 47 \/ name_char x)) ->
  collect true name_before name_after (fun _ => false) None (tok8 (n ++ c :: r)) b = Ret (c, b ++ n, tok8 r).
Proof.
  intros F Hc. induction F as [|x n Hx F IH]; intros b Hb.
  - cbn [app]. destruct Hb as [(_ & K)|_]; [congruence|]. rewrite app_nil_r.
    rewrite tok8_ascii by lia. destruct Hc as [->| ->]; reflexivity.
  - cbn [app]. rewrite tok8_ascii by (unfold name_char in Hx; lia). cbn [collect].
    replace (true && (x =? 38)) with false by (unfold name_char in Hx; cbn; lia).
    rewrite name_before_add by assumption. rewrite name_utf8 by assumption.
    assert (Hb' : exists y l, b ++ [x] = y :: l /\ (y = 47 \/ name_char y)).
    { destruct Hb as [(-> & _)|(y & l & -> & K)]; [exists x, []; auto|exists y, (l ++ [x]); auto]. }
    destruct Hb' as (y & l & E & K). rewrite E, name_after_no by assumption. rewrite <- E.
    rewrite IH by (right; rewrite E; eauto). now rewrite <- app_assoc.
Qed.
Lemma str_eqb_first x l y m : x <> y -> str_eqb (x :: l) (y :: m) = false.
Proof. intro H. cbn. apply Z.eqb_neq in H. now rewrite H. Qed.

(** * Attributes *)
Lemma get_attr_none a n : ~ In n (map fst a) -> get_attr a n = None.
Proof.
  induction a as [|(m & v) a IH]; cbn; [reflexivity|]. intro H. replace (str_eqb m n) with false by (symmetry; apply str_eqb_neq; tauto). apply IH. tauto.
Qed.
Lemma set_attr_new a n v : ~ In n (map fst a) -> set_attr a n v = a ++ [(n, v)].
Proof.
  induction a as [|(m & w) a IH]; cbn; [reflexivity|]. intro H. replace (str_eqb m n) with false by (symmetry; apply str_eqb_neq; tauto). f_equal. apply IH. tauto.
Qed.
Lemma write_name_ok n : name_ok n -> write_name n = n.
Proof.
  intros (H & F & _). destruct n as [|x n]; [congruence|]. cbn. replace (is_quote x) with false; [reflexivity|].
  inversion F; subst. unfold name_char in *. unfold is_quote. lia.
Qed.
Lemma aname_add c b : name_char c -> aname_before c b = Add.
Proof.
  intro H. unfold aname_before, mxml_isspace. unfold name_char in H.
  match goal with |- (if ?x then _ else _) = _ => replace x with false by lia end. reflexivity.
Qed.
Lemma collect_aname n r : Forall name_char n -> forall b,
  collect true aname_before never (fun _ => false) None (tok8 (n ++ 61 :: r)) b = Ret (61, b ++ n, tok8 r).
Proof.
  induction 1 as [|x n Hx F IH]; intros b; cbn [app].
  - rewrite app_nil_r. reflexivity.
  - rewrite tok8_ascii by (unfold name_char in Hx; lia). cbn [collect].
    replace (true && (x =? 38)) with false by (unfold name_char in Hx; cbn; lia).
    rewrite aname_add by assumption. rewrite name_utf8 by assumption. cbn [never]. rewrite IH, <- app_assoc. reflexivity.
Qed.
Lemma parse_attr_written acc n v r c l : name_ok n -> is_text v -> ~ In n (map fst acc) -> n = c :: l ->
  parse_attr acc c (tok8 (l ++ 61 :: 34 :: escape v ++ 34 :: r)) = Ret (34, acc ++ [(n, Some v)], tok8 r).
Proof.
  intros (Hn & F & _) T N E. rewrite E in F. inversion F as [|x y Hc Fl]; subst x y.
  unfold parse_attr. replace (is_quote c) with false by (unfold name_char in Hc; unfold is_quote; lia).
  replace (u8 c) with c by (unfold u8; rewrite Z.mod_small; [reflexivity|unfold name_char in Hc; lia]).
  rewrite collect_aname by assumption. cbn [rbind]. change ([c] ++ l) with (c :: l). rewrite <- E.
  rewrite get_attr_none by assumption.
  replace (skip_blanks 61 (tok8 (34 :: escape v ++ 34 :: r))) with (Ret (A:=Z * list tok) (61, tok8 (34 :: escape v ++ 34 :: r)))
    by (clear; destruct (tok8 (34 :: escape v ++ 34 :: r)); reflexivity).
  cbn [rbind]. change (61 =? 61) with true. cbv iota.
  replace (skip_blanks 32 (tok8 (34 :: escape v ++ 34 :: r))) with (Ret (A:=Z * list tok) (34, tok8 (escape v ++ 34 :: r))).
  2:{ rewrite tok8_ascii by lia. cbn. destruct (tok8 (escape v ++ 34 :: r)); reflexivity. }
  cbn [rbind]. change (34 =? EOF) with false. cbv iota. change (is_quote 34) with true. cbv iota.
  rewrite collect_escape; [|unfold quote_before, plain; intros d b P; replace (d =? 34) with false by lia; reflexivity|assumption].
  rewrite tok8_ascii by lia. cbn [collect]. change (true && (34 =? 38)) with false. change (quote_before 34 34 ([] ++ v)) with Stop.
  cbn [rbind app]. now rewrite set_attr_new.
Qed.
Definition tag_end (e : cstr) (ch : Z) : Prop := (e = [62] /\ ch = 62) \/ (e = [32; 47; 62] /\ ch = 47).
Lemma parse_attrs a : forall acc e ch r, attrs_ok a -> (forall n, In n (map fst a) -> ~ In n (map fst acc)) -> tag_end e ch ->
  exists f, parse_element f acc (tok8 (flat_map write_attr a ++ e ++ r)) = Ret (ch, acc ++ a, tok8 r).
Proof.
  induction a as [|(n & v) a IH]; intros acc e ch r (N & F) D K; cbn [flat_map].
  - rewrite app_nil_r. destruct K as [(-> & ->)|(-> & ->)]; [exists 1%nat|exists 2%nat]; reflexivity.
  - inversion N as [|? ? N1 N2]; subst. inversion F as [|? ? (Hn & w & Hw & Tw) F2]; subst. cbn [fst snd] in *. subst v.
    destruct (IH (acc ++ [(n, Some w)]) e ch r) as (f & E); [split; assumption| |assumption|].
    { intros m Hm. rewrite map_app, in_app_iff. cbn. intros [H|[<-|[]]]; [exact (D m (or_intror Hm) H)|exact (N1 Hm)]. }
    exists (S (S f)). unfold write_attr at 1. cbn [fst snd]. rewrite write_name_ok by assumption.
    pose proof Hn as Hn'. destruct Hn as (Hn0 & Hn1 & Hn2). destruct n as [|c l] eqn:En; [congruence|]. inversion Hn1; subst.
    rewrite <- !app_comm_cons, <- !app_assoc, <- !app_comm_cons, <- !app_assoc. rewrite (tok8_ascii 32) by lia.
    rewrite tok8_ascii by (unfold name_char in *; lia).
    cbn [parse_element getc rbind]. change (32 =? EOF) with false. change (mxml_isspace 32) with true. cbv iota.
    replace (c =? EOF) with false by (unfold name_char, EOF in *; lia).
    replace (mxml_isspace c) with false by (unfold name_char, mxml_isspace in *; lia).
    replace ((c =? 47) || (c =? 63)) with false by (unfold name_char in *; lia).
    replace (c =? 60) with false by (unfold name_char in *; lia).
    replace (c =? 62) with false by (unfold name_char in *; lia).
    cbn [app]. rewrite (parse_attr_written acc (c :: l) w); auto; [|apply D; now left].
    cbn [rbind]. change ((34 =? 47) || (34 =? 63)) with false. change (34 =? 62) with false. cbv iota.
    rewrite <- app_assoc in E. exact E.
Qed.

(** * Tags *)
Definition pend (w : cstr) : list node := match w with [] => [] | _ => [Opaque w] end.
Definition add_kids (S : list frame) (l : list node) : list frame :=
  match S with f :: S' => mkFrame (fr_name f) (fr_attrs f) (l ++ fr_kids f) :: S' | [] => [] end.
Lemma flush_pend S tp b op : (op = false -> b = []) ->
  stack (flush (mkP S tp b op)) = add_kids S (pend b) /\ top (flush (mkP S tp b op)) = tp.
Proof.
  intro H. unfold flush. cbn [buf]. destruct b as [|x b].
  - cbn. destruct S as [|[] S]; auto.
  - destruct op; [|specialize (H eq_refl); discriminate]. cbn. destruct S as [|f S]; cbn; [|auto].
    destruct tp; auto.
Qed.
Lemma open_tag_text n a e ch r : name_ok n -> attrs_ok a -> tag_end e ch -> forall st, second_root st = false ->
  tag st (tok8 (n ++ flat_map write_attr a ++ e ++ r)) =
  if ch =? 47 then Ret (Go (attach (Elem n a []) st) (tok8 r)) else Ret (Go (push (mkFrame n a []) st) (tok8 r)).
Proof.
  intros Hn Ha K st R. pose proof Hn as (N0 & N1 & _). destruct n as [|x l] eqn:En; [congruence|]. rewrite <- En in *.
  assert (Hx : name_char x) by (rewrite En in N1; now inversion N1).
  assert (C : exists c t, flat_map write_attr a ++ e ++ r = c :: t /\ (c = 32 \/ c = 62) /\
     (if mxml_isspace c then parse_element (S (List.length (tok8 t))) [] (tok8 t) else if c =? 47 then expect_gt 47 [] (tok8 t) else Ret (c, [], tok8 t))
       = Ret (ch, a, tok8 r)).
  { destruct (parse_attrs a [] e ch r Ha ltac:(intros ? ? []) K) as (f & E). cbn [app] in E.
    assert (SP : forall t, tok8 (32 :: t) = Ch 32 :: tok8 t) by (intro; apply tok8_ascii; lia).
    destruct a as [|(m & v) a].
    - destruct K as [(-> & ->)|(-> & ->)].
      + exists 62, r. repeat split; auto.
      + exists 32, (47 :: 62 :: r). repeat split; auto.
    - exists 32, (write_name m ++ (match v with Some v => 61 :: 34 :: escape v ++ [34] | None => [] end) ++ flat_map write_attr a ++ e ++ r).
      assert (E' : flat_map write_attr ((m, v) :: a) ++ e ++ r = 32 :: write_name m ++ (match v with Some v => 61 :: 34 :: escape v ++ [34] | None => [] end) ++ flat_map write_attr a ++ e ++ r).
      { cbn [flat_map]. unfold write_attr at 1. cbn [fst snd]. now rewrite <- !app_comm_cons, <- !app_assoc. }
      repeat split; auto. change (mxml_isspace 32) with true. cbv iota.
      rewrite E' in E. rewrite SP in E. destruct f as [|f]; [discriminate|]. cbn [parse_element getc rbind] in E.
      change (32 =? EOF) with false in E. change (mxml_isspace 32) with true in E. cbv iota in E.
      eapply parse_element_any; [exact E|lia]. }
  destruct C as (c & t & E & Hc & P). rewrite E. unfold tag.
  rewrite collect_name; [|assumption|assumption|left; auto]. cbn [rbind app].
  replace (str_eqb n COMMENT) with false by (rewrite En; symmetry; apply str_eqb_first; unfold name_char in Hx; cbn; lia).
  replace (str_eqb n CDATA) with false by (rewrite En; symmetry; apply str_eqb_first; unfold name_char in Hx; cbn; lia).
  assert (O : open_element n c st (tok8 t) = if ch =? 47 then Ret (Go (attach (Elem n a []) st) (tok8 r)) else Ret (Go (push (mkFrame n a []) st) (tok8 r))).
  { unfold open_element. rewrite R, P. cbn [rbind]. destruct K as [(_ & ->)|(_ & ->)]; reflexivity. }
  rewrite En in *. destruct x as [|p|p]; try exact O.
  do 6 (destruct p as [p|p|]; try exact O; try (exfalso; unfold name_char in Hx; lia)).
Qed.
Lemma close_tag_text n r f l tp b : name_ok n -> fr_name f = n ->
  step (mkP (f :: l) tp b true) (tok8 (60 :: 47 :: escape n ++ 62 :: r)) =
  Ret (Go (attach (Elem n (fr_attrs f) (rev (pend b ++ fr_kids f))) (mkP l tp [] true)) (tok8 r)).
Proof.
  intros (N0 & N1 & _) Ef. rewrite (escape_plain n) by now apply name_char_plain.
  rewrite tok8_ascii by lia. unfold step. change (60 =? 60) with true. cbv iota.
  destruct (flush_pend (f :: l) tp b true) as (-> & ->); [discriminate|]. unfold tag.
  rewrite (tok8_ascii 47) by lia.
  replace (collect true name_before name_after (fun _ => false) None (Ch 47 :: tok8 (n ++ 62 :: r)) [])
    with (collect true name_before name_after (fun _ => false) None (tok8 (n ++ 62 :: r)) [47]) by reflexivity.
  rewrite collect_name; [|assumption|auto|right; exists 47, []; auto]. cbn [rbind app].
  change (str_eqb (47 :: n) COMMENT) with false.
  change (str_eqb (47 :: n) CDATA) with false.
  cbv iota. unfold close_tag. cbn [stack add_kids fr_name]. rewrite Ef, str_eqb_refl.
  destruct (tok8 r); reflexivity.
Qed.
Lemma cdata_collect s : is_text s -> forall b r,
  (forall x y, b ++ s = x ++ s2z "]]>" ++ y -> (List.length x + 3 <= List.length b)%nat) ->
  collect false cdata_before never (fun _ => false) None (tok8 (s ++ r)) b
  = collect false cdata_before never (fun _ => false) None (tok8 r) (b ++ s).
Proof.
  intro T. pattern s. revert s T. apply text_ind_cps.
  - intros b r _. cbn [app]. now rewrite app_nil_r.
  - intros c s G T IH b r H. rewrite <- app_assoc, tok8_rfc by assumption. cbn [collect andb].
    assert (A : cdata_before c b = Add).
    { unfold cdata_before. destruct (c =? 62) eqn:E; [|reflexivity]. apply Z.eqb_eq in E. subst c. cbn [andb].
      destruct (rev b) as [|x [|y l]] eqn:Rb; try reflexivity.
      destruct ((x =? 93) && (y =? 93)) eqn:Q; [|reflexivity]. exfalso.
      apply andb_true_iff in Q as (Qx & Qy). apply Z.eqb_eq in Qx, Qy. subst x y.
      assert (Eb : b = rev l ++ [93; 93]) by (rewrite <- (rev_involutive b), Rb; cbn; now rewrite <- app_assoc).
      specialize (H (rev l) s). rewrite Eb in H. rewrite !app_length in H. cbn [List.length] in H.
      enough (List.length (rev l) + 3 <= List.length (rev l) + 2)%nat by lia. apply H. cbn. now rewrite <- !app_assoc. }
    rewrite A. cbn [never]. rewrite (good_utf8 c G). rewrite IH; [now rewrite <- app_assoc|].
    intros x y E. rewrite <- app_assoc in E. specialize (H x y E). rewrite app_length. lia.
Qed.
Lemma cdata_tag p r st : cdata_ok p -> second_root st = false ->
  tag st (tok8 (s2z "![CDATA[" ++ p ++ s2z "]]" ++ 62 :: r)) = Ret (Go (attach (cdata_node p) st) (tok8 r)).
Proof.
  intros (T & N) R. unfold tag.
  replace (collect true name_before name_after (fun _ => false) None (tok8 (s2z "![CDATA[" ++ p ++ s2z "]]" ++ 62 :: r)) [])
    with (Ret (A:=Z * cstr * list tok) (91, CDATA, tok8 (p ++ s2z "]]" ++ 62 :: r))) by reflexivity.
  cbn [rbind]. change (str_eqb CDATA COMMENT) with false. change (str_eqb CDATA CDATA) with true. cbv iota.
  rewrite cdata_collect; [|assumption|].
  2:{ intros x y E. destruct (Nat.le_gt_cases (List.length x + 3) (List.length CDATA)) as [L|L]; [exact L|exfalso].
      apply N. 
      assert (X : (List.length x <= 7)%nat \/ exists z, x = CDATA ++ z).
      { destruct (Nat.le_gt_cases (List.length x) 7) as [K|K]; [now left|right].
        exists (skipn 8 x). rewrite <- (firstn_skipn 8 x) at 1. f_equal.
        transitivity (firstn 8 (x ++ s2z "]]>" ++ y)); [rewrite firstn_app; replace (8 - List.length x)%nat with O by lia; cbn [firstn]; now rewrite app_nil_r|].
        rewrite <- E. reflexivity. }
      destruct X as [X|(z & ->)].
      - exfalso. change (List.length CDATA) with 8%nat in L.
        do 8 (destruct x as [|? x]; [cbn in L, E; try lia; inversion E; congruence|]). cbn in X. lia.
      - rewrite <- app_assoc in E. apply app_inv_head in E. eauto. }
  replace (collect false cdata_before never (fun _ => false) None (tok8 (s2z "]]" ++ 62 :: r)) (CDATA ++ p))
    with (Ret (A:=Z * cstr * list tok) (62, CDATA ++ p ++ s2z "]]", tok8 r)).
  2:{ cbn [s2z list_ascii_of_string map app]. rewrite !tok8_ascii by (cbn; lia). cbn [collect andb].
      replace (cdata_before _ (CDATA ++ p)) with Add by reflexivity. cbn [never].
      match goal with |- _ = match cdata_before ?c ?b with _ => _ end => replace (cdata_before c b) with Add by reflexivity end. cbn [never].
      unfold cdata_before.
      replace (rev (((CDATA ++ p) ++ utf8 (Z.of_N (N_of_ascii "]"))) ++ utf8 (Z.of_N (N_of_ascii "]"))))
        with (93 :: 93 :: rev (CDATA ++ p)) by (rewrite !rev_app_distr; reflexivity).
      cbn [Z.eqb Pos.eqb andb]. rewrite <- !app_assoc. reflexivity. }
  cbn [rbind]. change (62 =? 62) with true. cbv iota. unfold special. rewrite R.
  change (CDATA ++ p ++ s2z "]]") with (s2z "![CDATA[" ++ p ++ s2z "]]").
  fold (cdata_node p). destruct (stack st); reflexivity.
Qed.
