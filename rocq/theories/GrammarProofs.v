(** The reader reads every document of the grammar as the tree it stands for. *)
From Verif Require Import CBase CBaseProofs XmlEntity XmlModel SpecXml SpecGrammar EntityProofs Utf8Proofs XmlTermProofs XmlProofs XmlRound PropCdata.

(** * References *)
Lemma ent_char_ascii c : ent_char c = true -> 32 <= c < 128.
Proof. unfold ent_char. lia. Qed.
Lemma get_entity_walk s t : Forall (fun c => ent_char c = true) s -> forall e, (List.length e + List.length s <= 63)%nat ->
  get_entity (tok8 (s ++ 59 :: t)) e = match ent_value (e ++ s) with Some v => Ret (v, tok8 t) | None => Fail end.
Proof.
  induction 1 as [|c s Hc F IH]; intros e L; cbn [app List.length] in *.
  - rewrite app_nil_r, tok8_ascii by lia. cbn [get_entity]. unfold ent_step. change (ent_char 59) with false. cbv iota. change (59 =? 59) with true. cbv iota.
    destruct (ent_value e); reflexivity.
  - rewrite tok8_ascii by now apply ent_char_ascii. cbn [get_entity]. unfold ent_step. rewrite Hc.
    replace (List.length e <? 63)%nat with true by (symmetry; apply Nat.ltb_lt; lia).
    rewrite IH by (rewrite app_length; cbn; lia). now rewrite <- app_assoc.
Qed.
Lemma collect_walk bf s t b : Forall (fun c => ent_char c = true) s -> forall e, (List.length e + List.length s <= 63)%nat ->
  collect true bf never (fun _ => false) (Some e) (tok8 (s ++ 59 :: t)) b =
  match ent_value (e ++ s) with Some v => collect true bf never (fun _ => false) None (tok8 t) (b ++ utf8 v) | None => Fail end.
Proof.
  induction 1 as [|c s Hc F IH]; intros e L; cbn [app List.length] in *.
  - rewrite app_nil_r, tok8_ascii by lia. cbn [collect]. unfold ent_step. change (ent_char 59) with false. cbv iota. change (59 =? 59) with true. cbv iota.
    destruct (ent_value e); reflexivity.
  - rewrite tok8_ascii by now apply ent_char_ascii. cbn [collect]. unfold ent_step. rewrite Hc.
    replace (List.length e <? 63)%nat with true by (symmetry; apply Nat.ltb_lt; lia).
    rewrite IH by (rewrite app_length; cbn; lia). now rewrite <- app_assoc.
Qed.
Lemma dec_fold s : Forall dec_digit s -> forall a, fst (read_digits s a) = fold_left (fun a c => 10 * a + (c - 48)) s a.
Proof.
  induction 1 as [|c s H F IH]; intro a; cbn [read_digits fold_left]; [reflexivity|].
  unfold dec_digit in H. replace (c_isdigit c) with true by (unfold c_isdigit; lia). apply IH.
Qed.
Lemma good_small c : good_cp c -> is_i32 c /\ is_i64 c.
Proof. unfold good_cp, is_i32, is_i64. lia. Qed.
Lemma ent_value_dec s : s <> [] -> Forall dec_digit s -> good_cp (dec_value s) -> ent_value (35 :: s) = Some (dec_value s).
Proof.
  intros N F G.
  assert (A : atoi s = dec_value s).
  { unfold atoi. rewrite read_int_digits by assumption. rewrite dec_fold by assumption. fold (dec_value s).
    destruct (good_small _ G). now rewrite clamp64_small, i32_small. }
  assert (E : ent_value (35 :: s) = if bad_char (atoi s) then None else Some (atoi s)).
  { destruct s as [|c s]; [congruence|]. inversion F; subst. unfold dec_digit in *. unfold ent_value. destruct c as [|p|p]; try lia.
    do 6 (destruct p as [p|p|]; try reflexivity; try lia). }
  rewrite E, A. now rewrite good_not_bad.
Qed.
Lemma hex_digit_spec c d : hex_digit_is c d -> hex_digit c = Some d /\ ent_char c = true /\ 0 <= d.
Proof.
  intros [x H|x H|x H]; unfold hex_digit, ent_char.
  - replace ((48 <=? x) && (x <=? 57)) with true by lia. split; [reflexivity|lia].
  - replace ((48 <=? x) && (x <=? 57)) with false by lia. replace ((65 <=? x) && (x <=? 70)) with true by lia. split; [reflexivity|lia].
  - replace ((48 <=? x) && (x <=? 57)) with false by lia. replace ((65 <=? x) && (x <=? 70)) with false by lia.
    replace ((97 <=? x) && (x <=? 102)) with true by lia. split; [reflexivity|lia].
Qed.
Lemma read_hex_snoc s c d a : Forall (fun c => hex_digit c <> None) s -> hex_digit c = Some d -> read_hex (s ++ [c]) a = 16 * read_hex s a + d.
Proof.
  intros F E. revert a. induction F as [|x s H F IH]; intro a; cbn [app read_hex]; [now rewrite E|].
  destruct (hex_digit x); [apply IH|congruence].
Qed.
Lemma hex_value_spec s v : hex_value s v -> read_hex s 0 = v /\ Forall (fun c => hex_digit c <> None) s /\ Forall (fun c => ent_char c = true) s.
Proof.
  induction 1 as [|s v c d H (E & F1 & F2) D]; [repeat split; constructor|]. destruct (hex_digit_spec _ _ D) as (Dc & Dx & _).
  rewrite (read_hex_snoc s c d) by assumption. rewrite E. repeat split; [apply Forall_app; split; [assumption|constructor; [congruence|constructor]]..].
Qed.
Lemma strtol16_hex s v : hex_value s v -> good_cp v -> strtol16 s = v.
Proof.
  intros H G. destruct (hex_value_spec _ _ H) as (E & F & _). destruct (good_small _ G) as (_ & K).
  assert (X : strtol16 s = clamp64 (read_hex s 0)).
  { unfold strtol16. destruct s as [|c s]; [reflexivity|]. destruct c as [|p|p]; try reflexivity.
    do 6 (destruct p as [p|p|]; try reflexivity). destruct s as [|x s]; [reflexivity|]. destruct s as [|y s]; [reflexivity|].
    inversion F as [|? ? _ F1]; subst. inversion F1 as [|? ? Hx _]; subst.
    replace ((x =? 120) || (x =? 88)) with false; [reflexivity|]. unfold hex_digit in Hx.
    destruct ((48 <=? x) && (x <=? 57)) eqn:?; [lia|]. destruct ((65 <=? x) && (x <=? 70)) eqn:?; [lia|]. destruct ((97 <=? x) && (x <=? 102)) eqn:?; [lia|congruence]. }
  rewrite X, E. now apply clamp64_small.
Qed.
Lemma ent_value_hex s v : hex_value s v -> good_cp v -> ent_value (35 :: 120 :: s) = Some v.
Proof.
  intros H G. unfold ent_value. rewrite (strtol16_hex s v H G). destruct (good_small _ G). rewrite i32_small by assumption. now rewrite good_not_bad.
Qed.
Lemma refers_walk r c : refers r c -> good_cp c /\ exists s, r = 38 :: s ++ [59] /\ Forall (fun c => ent_char c = true) s /\ (List.length s <= 63)%nat /\ ent_value s = Some c.
Proof.
  assert (K : forall n v, forallb ent_char n = true -> (List.length n <= 63)%nat -> ent_value n = Some v -> good_cp v -> good_cp v /\ exists s, 38 :: n ++ [59] = 38 :: s ++ [59] /\ Forall (fun c => ent_char c = true) s /\ (List.length s <= 63)%nat /\ ent_value s = Some v).
  { intros n v H L E G. split; [exact G|]. exists n. repeat split; [|exact L|exact E]. now apply Forall_forall, forallb_forall. }
  assert (G : forall v, v = 38 \/ v = 60 \/ v = 62 \/ v = 34 \/ v = 39 -> good_cp v) by (unfold good_cp; lia).
  intros [| | | | |s N F L Gs|s v N H L Gs].
  - apply (K (s2z "amp") 38); [reflexivity|cbn; lia|vm_compute; reflexivity|apply G; lia].
  - apply (K (s2z "lt") 60); [reflexivity|cbn; lia|vm_compute; reflexivity|apply G; lia].
  - apply (K (s2z "gt") 62); [reflexivity|cbn; lia|vm_compute; reflexivity|apply G; lia].
  - apply (K (s2z "quot") 34); [reflexivity|cbn; lia|vm_compute; reflexivity|apply G; lia].
  - apply (K (s2z "apos") 39); [reflexivity|cbn; lia|vm_compute; reflexivity|apply G; lia].
  - split; [exact Gs|]. exists (35 :: s). repeat split; [|cbn; lia|now apply ent_value_dec].
    constructor; [reflexivity|]. eapply Forall_impl; [|exact F]. unfold dec_digit, ent_char. intros. lia.
  - split; [exact Gs|]. exists (35 :: 120 :: s). repeat split; [|cbn; lia|now apply ent_value_hex].
    constructor; [reflexivity|]. constructor; [reflexivity|]. now apply hex_value_spec with v.
Qed.

(** * Text and attribute values *)
Lemma reach_spells S tp s v : spells text_char s v -> forall r b,
  reach (mkP S tp b true) (tok8 (s ++ r)) (mkP S tp (b ++ v) true) (tok8 r).
Proof.
  induction 1 as [|c s v G (P1 & P2) H IH|x c s v R H IH]; intros r b.
  - cbn. rewrite app_nil_r. apply reach_refl.
  - rewrite <- app_assoc, (app_assoc b). eapply reach_step; [|apply IH].
    rewrite tok8_rfc by assumption. unfold step. apply Z.eqb_neq in P1, P2. rewrite P1, P2.
    cbn [stack top buf opaque]. rewrite andb_false_r. cbn [orb stack top buf opaque]. now rewrite (good_utf8 c G).
  - destruct (refers_walk x c R) as (G & e & -> & F & L & E).
    rewrite <- app_assoc, (app_assoc b). eapply reach_step; [|apply IH].
    cbn [app]. rewrite <- app_assoc. rewrite tok8_ascii by lia. unfold step. change (38 =? 60) with false. change (38 =? 38) with true. cbv iota.
    cbn [app]. rewrite get_entity_walk by (assumption || cbn; lia). cbn [app]. rewrite E. cbn [rbind fst snd stack top buf opaque]. rewrite andb_false_r.
    cbn [stack top buf opaque]. now rewrite (good_utf8 c G).
Qed.
Lemma collect_spells bf (ok : Z -> Prop) s v : (forall c b, ok c -> c <> 38 /\ bf c b = Add) -> spells ok s v -> forall r b,
  collect true bf never (fun _ => false) None (tok8 (s ++ r)) b = collect true bf never (fun _ => false) None (tok8 r) (b ++ v).
Proof.
  intro K. induction 1 as [|c s v G O H IH|x c s v R H IH]; intros r b.
  - cbn. now rewrite app_nil_r.
  - rewrite <- app_assoc, tok8_rfc by assumption. cbn [collect]. destruct (K c b O) as (P & Q). apply Z.eqb_neq in P. rewrite P. cbn [andb]. rewrite Q. cbn [never].
    rewrite IH, (good_utf8 c G), app_assoc. reflexivity.
  - destruct (refers_walk x c R) as (G & e & -> & F & L & E). rewrite <- app_assoc. cbn [app]. rewrite <- app_assoc. rewrite tok8_ascii by lia. cbn [collect].
    change (true && (38 =? 38)) with true. cbv iota. cbn [app]. rewrite collect_walk by (assumption || cbn; lia). cbn [app]. rewrite E.
    rewrite IH, (good_utf8 c G), app_assoc. reflexivity.
Qed.

(** * Names and attributes *)
Lemma space_is c : space c -> mxml_isspace c = true /\ good_cp c /\ rfc_utf8 c = [c] /\ c <> 60 /\ c <> 38.
Proof. intros [->|[->|[->| ->]]]; repeat split; try reflexivity; try discriminate; unfold good_cp; lia. Qed.
Lemma tok8_space c r : space c -> tok8 (c :: r) = Ch c :: tok8 r.
Proof. intros [->|[->|[->| ->]]]; reflexivity. Qed.
Lemma more_good c : name_more c -> good_cp c.
Proof. unfold name_more, name_start, letter, good_cp. lia. Qed.
Lemma more_add c b : name_more c -> name_before c b = Add.
Proof.
  intro H. assert (45 <= c /\ c <> 47 /\ c <> 60 /\ c <> 62 /\ c <> 32 /\ c <> 9 /\ c <> 13 /\ c <> 10) as P by (unfold name_more, name_start, letter in H; lia).
  assert (48 <= c \/ c = 45 \/ c = 46) as Q by (unfold name_more, name_start, letter in H; lia).
  unfold name_before, mxml_isspace.
  replace (c =? 32) with false by lia. replace (c =? 9) with false by lia. replace (c =? 13) with false by lia.
  replace (c =? 10) with false by lia. replace (c =? 62) with false by lia. replace (c =? 47) with false by lia.
  replace (c =? 60) with false by lia. cbn [orb andb].
  match goal with |- (if ?x then _ else _) = _ => replace x with false by lia end. reflexivity.
Qed.
Lemma more_aname c b : name_more c -> aname_before c b = Add.
Proof.
  intro H. unfold aname_before, mxml_isspace. unfold name_more, name_start, letter, good_cp in H.
  match goal with |- (if ?x then _ else _) = _ => replace x with false by lia end. reflexivity.
Qed.
Lemma after_no c x l : x <> 63 -> x <> 33 -> name_after c (x :: l) = false.
Proof.
  intros A B. unfold name_after, COMMENT, CDATA. cbn [s2z list_ascii_of_string map str_eqb].
  cbn. apply Z.eqb_neq in A, B. replace (x =? 63) with false. replace (x =? 33) with false. reflexivity.
Qed.
Lemma rfc_first c : good_cp c -> exists x l, rfc_utf8 c = x :: l /\ (x = c \/ 128 <= x) /\ (c < 128 -> l = []).
Proof.
  intro G. assert (0 <= c) by (unfold good_cp in G; lia). unfold rfc_utf8.
  destruct (Z.ltb_spec c 128); [exists c, []; auto|]. pose proof (Z.div_pos c 64). pose proof (Z.div_pos c 4096). pose proof (Z.div_pos c 262144).
  destruct (c <? 2048); [eexists _, _; split; [reflexivity|]; split; [right; lia|lia]|].
  destruct (c <? 65536); eexists _, _; (split; [reflexivity|]; split; [right; lia|lia]).
Qed.
Lemma collect_more cs c r : Forall name_more cs -> space c \/ c = 62 \/ c = 47 ->
  forall x l, x <> 63 -> x <> 33 ->
  collect true name_before name_after (fun _ => false) None (tok8 (flat_map rfc_utf8 cs ++ c :: r)) (x :: l) = Ret (c, (x :: l) ++ flat_map rfc_utf8 cs, tok8 r).
Proof.
  intros F Hc. induction F as [|d cs H F IH]; intros x l X1 X2; cbn [flat_map].
  - rewrite app_nil_r. cbn [app]. replace (tok8 (c :: r)) with (Ch c :: tok8 r).
    2:{ destruct Hc as [Hc|[-> | ->]]; [now rewrite tok8_space|reflexivity|reflexivity]. }
    destruct Hc as [[-> |[-> |[-> | ->]]]|[-> | ->]]; reflexivity.
  - rewrite <- app_assoc. pose proof (more_good d H) as G. rewrite tok8_rfc by assumption. cbn [collect].
    assert (P : d <> 38) by (unfold name_more, name_start, letter in H; lia). apply Z.eqb_neq in P. rewrite P. cbn [andb].
    rewrite more_add by assumption. rewrite (good_utf8 d G). cbn [app]. rewrite after_no by assumption.
    rewrite app_comm_cons. cbn [app]. rewrite IH by assumption. cbn [app]. now rewrite <- app_assoc.
Qed.
Lemma collect_uname n c r : tag_name n -> space c \/ c = 62 \/ c = 47 ->
  collect true name_before name_after (fun _ => false) None (tok8 (n ++ c :: r)) [] = Ret (c, n, tok8 r).
Proof.
  intros (d & cs & H & F & ->) Hc. cbn [flat_map]. rewrite <- app_assoc. assert (M : name_more d) by (left; exact H). pose proof (more_good d M) as G.
  rewrite tok8_rfc by assumption. cbn [collect].
  assert (P : d <> 38) by (unfold name_start, letter in H; lia). apply Z.eqb_neq in P. rewrite P. cbn [andb].
  rewrite more_add by assumption. rewrite (good_utf8 d G). cbn [app].
  destruct (rfc_first d G) as (x & l & E & K & _). rewrite E. assert (x <> 63 /\ x <> 33) as (X1 & X2) by (unfold name_start, letter in H; lia).
  rewrite after_no by assumption. apply collect_more; assumption.
Qed.
Lemma uname_first n : tag_name n -> exists x l, n = x :: l /\ x <> 63 /\ x <> 33 /\ x <> 47.
Proof.
  intros (d & cs & H & F & ->). assert (M : name_more d) by (left; exact H). destruct (rfc_first d (more_good d M)) as (x & l & E & K & _).
  cbn [flat_map]. rewrite E. exists x, (l ++ flat_map rfc_utf8 cs). split; [reflexivity|]. unfold name_start, letter in H. lia.
Qed.
Lemma collect_anames cs c r b : Forall name_more cs -> space c \/ c = 61 ->
  collect true aname_before never (fun _ => false) None (tok8 (flat_map rfc_utf8 cs ++ c :: r)) b = Ret (c, b ++ flat_map rfc_utf8 cs, tok8 r).
Proof.
  intros F Hc. revert b. induction F as [|d cs H F IH]; intro b; cbn [flat_map].
  - rewrite app_nil_r. cbn [app]. destruct Hc as [[-> |[-> |[-> | ->]]]| ->]; reflexivity.
  - rewrite <- app_assoc. pose proof (more_good d H) as G. rewrite tok8_rfc by assumption. cbn [collect].
    assert (P : d <> 38) by (unfold name_more, name_start, letter in H; lia). apply Z.eqb_neq in P. rewrite P. cbn [andb].
    rewrite more_aname by assumption. rewrite (good_utf8 d G). cbn [never]. rewrite IH. now rewrite <- app_assoc.
Qed.
(** Blanks, starting at a character already read. *)
Lemma skip_over c t : mxml_isspace c = false -> skip_blanks c t = Ret (c, t).
Proof. intro H. destruct t as [|[] t]; cbn; now rewrite H. Qed.
Lemma skip_spaces w c r d : spaces w -> mxml_isspace d = true -> mxml_isspace c = false -> 32 <= c < 128 ->
  skip_blanks d (tok8 (w ++ c :: r)) = Ret (c, tok8 r).
Proof.
  intros F Hd Hc B. revert d Hd. induction F as [|x w H F IH]; intros d Hd; cbn [app].
  - rewrite tok8_ascii by assumption. cbn [skip_blanks]. rewrite Hd. now apply skip_over.
  - rewrite tok8_space by assumption. cbn [skip_blanks]. rewrite Hd. apply IH. now apply space_is.
Qed.
Lemma parse_attr_spelled acc n c l w1 w2 q s v r : attr_name n -> n = c :: l -> ~ In n (map fst acc) -> spaces w1 -> spaces w2 -> q = 34 \/ q = 39 ->
  spells (value_char q) s v -> parse_attr acc c (tok8 (l ++ w1 ++ 61 :: w2 ++ q :: s ++ q :: r)) = Ret (q, acc ++ [(n, Some v)], tok8 r).
Proof.
  intros (d & cs & H & F & En) E N W1 W2 Q V.
  assert (Ed : rfc_utf8 d = [d]) by (unfold rfc_utf8; unfold letter in H; replace (d <? 128) with true by lia; reflexivity).
  cbn [flat_map] in En. rewrite Ed in En. cbn [app] in En. rewrite En in E. injection E as <- <-. rename d into c. rename En into E.
  unfold parse_attr. replace (is_quote c) with false by (unfold letter in H; unfold is_quote; lia).
  replace (u8 c) with c by (unfold u8; rewrite Z.mod_small; [reflexivity|unfold letter in H; lia]).
  assert (C : exists ch t, collect true aname_before never (fun _ => false) None (tok8 (flat_map rfc_utf8 cs ++ w1 ++ 61 :: w2 ++ q :: s ++ q :: r)) [c] = Ret (ch, n, t) /\
    skip_blanks ch t = Ret (61, tok8 (w2 ++ q :: s ++ q :: r))).
  { destruct W1 as [|x w1 Hx W1]; cbn [app].
    - exists 61, (tok8 (w2 ++ q :: s ++ q :: r)). split; [|now apply skip_over]. rewrite collect_anames by auto. now rewrite E.
    - exists x, (tok8 (w1 ++ 61 :: w2 ++ q :: s ++ q :: r)). split; [rewrite collect_anames by auto; now rewrite E|].
      apply skip_spaces; [exact W1|now apply space_is|reflexivity|lia]. }
  destruct C as (ch & t & -> & S1). cbn [rbind]. rewrite get_attr_none by assumption. rewrite S1. cbn [rbind]. change (61 =? 61) with true. cbv iota.
  rewrite skip_spaces; [|exact W2|reflexivity|destruct Q as [-> | ->]; reflexivity|lia]. cbn [rbind].
  replace (q =? EOF) with false by (unfold EOF; lia). replace (is_quote q) with true by (destruct Q as [-> | ->]; reflexivity).
  rewrite (collect_spells _ (value_char q) s v); [|unfold value_char, quote_before; intros x b (A & _ & C); split; [exact A|]; replace (x =? q) with false by lia; reflexivity|exact V].
  rewrite tok8_ascii by lia. cbn [collect]. replace (true && (q =? 38)) with false by (cbn; lia). unfold quote_before at 1. rewrite Z.eqb_refl. cbn [rbind app].
  now rewrite set_attr_new.
Qed.
(** The end of a start tag. *)
Definition closing (e : cstr) (ch : Z) : Prop := exists w, spaces w /\ ((e = w ++ [62] /\ ch = 62) \/ (e = w ++ [47; 62] /\ ch = 47)).
Lemma parse_closing w e ch r acc : spaces w -> (e = [62] /\ ch = 62) \/ (e = [47; 62] /\ ch = 47) ->
  exists f, parse_element f acc (tok8 (w ++ e ++ r)) = Ret (ch, acc, tok8 r).
Proof.
  intros F K. induction F as [|c w H F (f & IH)].
  - cbn [app]. exists 1%nat. destruct K as [(-> & ->)|(-> & ->)]; reflexivity.
  - exists (S f). cbn [app]. rewrite tok8_space by assumption. cbn [parse_element getc rbind]. destruct H as [-> |[-> |[-> | ->]]]; exact IH.
Qed.
Lemma parse_space c t acc f : space c -> parse_element (S f) acc (Ch c :: t) = parse_element f acc t.
Proof. intros [-> |[-> |[-> | ->]]]; reflexivity. Qed.
Lemma parse_attributes a l : attributes a l -> forall acc e ch r, (forall n, In n (map fst l) -> ~ In n (map fst acc)) -> closing e ch ->
  exists f, parse_element f acc (tok8 (a ++ e ++ r)) = Ret (ch, acc ++ l, tok8 r).
Proof.
  induction 1 as [|w n w1 w2 q s v rest l Nw W Hn W1 W2 Q V Ha IH N]; intros acc e ch r D K.
  - destruct K as (w & W & K). cbn [app]. rewrite app_nil_r.
    destruct K as [(-> & ->)|(-> & ->)]; rewrite <- app_assoc; (apply parse_closing; [exact W|auto]).
  - destruct (IH (acc ++ [(n, Some v)]) e ch r) as (f & E); [|exact K|].
    { intros m Hm. rewrite map_app, in_app_iff. cbn. intros [H|[<-|[]]]; [exact (D m (or_intror Hm) H)|exact (N Hm)]. }
    clear Nw. induction W as [|c w Hc W (g & IHw)].
    + cbn [app]. exists (S f). rewrite <- app_assoc in E. cbn [app] in E.
      pose proof Hn as (c & cs & Hc & F & En). 
      assert (Ed : rfc_utf8 c = [c]) by (unfold rfc_utf8; unfold letter in Hc; replace (c <? 128) with true by lia; reflexivity).
      cbn [flat_map] in En. rewrite Ed in En. cbn [app] in En.
      rewrite <- !app_assoc. rewrite <- !app_comm_cons. rewrite <- !app_assoc. rewrite <- !app_comm_cons. rewrite <- !app_assoc. rewrite <- !app_comm_cons. 
      rewrite En at 1. cbn [app]. rewrite tok8_ascii by (unfold letter in Hc; lia).
      cbn [parse_element getc rbind].
      replace (c =? EOF) with false by (unfold letter, EOF in *; lia).
      replace (mxml_isspace c) with false by (unfold letter, mxml_isspace in *; lia).
      replace ((c =? 47) || (c =? 63)) with false by (unfold letter in *; lia).
      replace (c =? 60) with false by (unfold letter in *; lia).
      replace (c =? 62) with false by (unfold letter in *; lia).
      rewrite (parse_attr_spelled acc n c (flat_map rfc_utf8 cs) w1 w2 q s v); auto; [|apply D; now left].
      cbn [rbind]. replace ((q =? 47) || (q =? 63)) with false by lia. replace (q =? 62) with false by lia. exact E.
    + exists (S g). cbn [app]. rewrite tok8_space by assumption. rewrite parse_space by assumption. exact IHw.
Qed.

(** * Tags *)
Lemma tag_of_name st t ch x l t1 : collect true name_before name_after (fun _ => false) None t [] = Ret (ch, x :: l, t1) ->
  x <> 63 -> x <> 33 -> x <> 47 -> tag st t = open_element (x :: l) ch st t1.
Proof.
  intros E A B C. unfold tag. rewrite E. cbn [rbind].
  replace (str_eqb (x :: l) COMMENT) with false by (symmetry; apply str_eqb_first; exact B).
  replace (str_eqb (x :: l) CDATA) with false by (symmetry; apply str_eqb_first; exact B).
  destruct x as [|p|p]; try reflexivity. do 6 (destruct p as [p|p|]; try reflexivity; try (exfalso; congruence)).
Qed.
Lemma open_spelled n a l e ch r st : tag_name n -> attributes a l -> closing e ch -> second_root st = false ->
  tag st (tok8 (n ++ a ++ e ++ r)) =
  if ch =? 47 then Ret (Go (attach (Elem n l []) st) (tok8 r)) else Ret (Go (push (mkFrame n l []) st) (tok8 r)).
Proof.
  intros Hn Ha K R.
  assert (C : exists c t, a ++ e ++ r = c :: t /\ (space c \/ c = 62 \/ c = 47) /\
     (if mxml_isspace c then parse_element (S (List.length (tok8 t))) [] (tok8 t) else if c =? 47 then expect_gt 47 [] (tok8 t) else Ret (c, [], tok8 t))
       = Ret (ch, l, tok8 r)).
  { destruct (parse_attributes a l Ha [] e ch r ltac:(intros ? ? []) K) as (f & E). cbn [app] in E.
    assert (SP : forall c t, a ++ e ++ r = c :: t -> space c -> exists c t, a ++ e ++ r = c :: t /\ (space c \/ c = 62 \/ c = 47) /\
       (if mxml_isspace c then parse_element (S (List.length (tok8 t))) [] (tok8 t) else if c =? 47 then expect_gt 47 [] (tok8 t) else Ret (c, [], tok8 t)) = Ret (ch, l, tok8 r)).
    { intros c t Ec Hc. exists c, t. split; [exact Ec|]. split; [now left|]. destruct (space_is c Hc) as (-> & _).
      rewrite Ec, tok8_space in E by exact Hc. destruct f as [|f]; [discriminate|]. rewrite parse_space in E by exact Hc. eapply parse_element_any; [exact E|lia]. }
    destruct Ha as [|w n0 w1 w2 q s v rest l0 Nw W].
    - destruct K as (w & W & K). destruct W as [|c w Hc W].
      + destruct K as [(-> & ->)|(-> & ->)]; cbn [app]; [exists 62, r|exists 47, (62 :: r)]; repeat split; auto.
      + destruct K as [(-> & ->)|(-> & ->)]; eapply SP; try exact Hc; reflexivity.
    - destruct W as [|c w Hc W]; [congruence|]. eapply SP; [reflexivity|exact Hc]. }
  destruct C as (c & t & E & Hc & P). rewrite E. destruct (uname_first n Hn) as (x & m & En & A & B & D).
  rewrite (tag_of_name st _ c x m (tok8 t)); [|rewrite <- En; now apply collect_uname|assumption..]. rewrite <- En.
  unfold open_element. rewrite R, P. cbn [rbind]. destruct K as (w & _ & [(_ & ->)|(_ & ->)]); reflexivity.
Qed.
Lemma skip_gt w r c : spaces w -> space c \/ c = 62 -> (c = 62 -> w = []) -> skip_to_gt c (tok8 ((if c =? 62 then [] else w ++ [62]) ++ r)) = Ret (tok8 r).
Proof.
  intros F Hc Z. destruct Hc as [Hc| ->]; [|cbn [Z.eqb Pos.eqb app]; now destruct (tok8 r) as [|[] ?]].
  clear Z. replace (c =? 62) with false by (destruct Hc as [-> |[-> |[-> | ->]]]; reflexivity).
  revert c Hc. induction F as [|d w Hd F IH]; intros c Hc.
  - cbn [app]. rewrite tok8_ascii by lia. cbn [skip_to_gt].
    replace ((c =? 62) || (c =? EOF)) with false by (destruct Hc as [-> |[-> |[-> | ->]]]; reflexivity).
    now destruct (tok8 r) as [|[] ?].
  - cbn [app]. rewrite tok8_space by exact Hd. cbn [skip_to_gt].
    replace ((c =? 62) || (c =? EOF)) with false by (destruct Hc as [-> |[-> |[-> | ->]]]; reflexivity). now apply IH.
Qed.
Lemma close_spelled n w r f l tp b : tag_name n -> spaces w -> fr_name f = n ->
  step (mkP (f :: l) tp b true) (tok8 (60 :: 47 :: n ++ w ++ 62 :: r)) =
  Ret (Go (attach (Elem n (fr_attrs f) (rev (pend b ++ fr_kids f))) (mkP l tp [] true)) (tok8 r)).
Proof.
  intros Hn W Ef. rewrite step_at by discriminate. unfold tag. rewrite (tok8_ascii 47) by lia.
  replace (collect true name_before name_after (fun _ => false) None (Ch 47 :: tok8 (n ++ w ++ 62 :: r)) [])
    with (collect true name_before name_after (fun _ => false) None (tok8 (n ++ w ++ 62 :: r)) [47]) by reflexivity.
  assert (C : exists c t, w ++ 62 :: r = c :: t /\ (space c \/ c = 62) /\ skip_to_gt c (tok8 t) = Ret (tok8 r)).
  { destruct W as [|c w Hc W].
    - exists 62, r. repeat split; auto. apply (skip_gt [] r 62); [constructor|auto|auto].
    - exists c, (w ++ 62 :: r). repeat split; auto. assert (N : c <> 62) by (destruct Hc as [-> |[-> |[-> | ->]]]; discriminate).
      pose proof (skip_gt w r c W (or_introl Hc) ltac:(congruence)) as G. apply Z.eqb_neq in N. rewrite N in G. rewrite <- app_assoc in G. exact G. }
  destruct C as (c & t & E & Hc & K). rewrite E.
  assert (F : exists cs, Forall name_more cs /\ n = flat_map rfc_utf8 cs).
  { destruct Hn as (d & cs & H & F & En). exists (d :: cs). split; [constructor; [now left|exact F]|exact En]. }
  destruct F as (cs & F & En). rewrite En at 1. rewrite (collect_more cs c t F ltac:(tauto) 47 [] ltac:(discriminate) ltac:(discriminate)). cbn [rbind app]. rewrite <- En.
  change (str_eqb (47 :: n) COMMENT) with false. change (str_eqb (47 :: n) CDATA) with false. cbv iota.
  unfold close_tag. cbn [stack add_kids fr_name]. rewrite Ef, str_eqb_refl. rewrite K. cbn [rbind]. unfold close_frame. cbn [fr_name fr_attrs fr_kids top opaque]. reflexivity.
Qed.
(** Comments. *)
Lemma comment_no_stop c p : comment_ok p -> forall a b, p = a ++ c :: b -> 0 <= c -> comment_before c (COMMENT ++ a) = Add.
Proof.
  intros (_ & _ & N) a b E _. unfold comment_before. destruct (c =? 62) eqn:Ec; [|reflexivity]. apply Z.eqb_eq in Ec. subst c. cbn [andb].
  destruct (4 <? List.length (COMMENT ++ a))%nat eqn:L; [|reflexivity]. cbn [andb]. apply Nat.ltb_lt in L. rewrite app_length in L. change (List.length COMMENT) with 3%nat in L.
  destruct (rev (COMMENT ++ a)) as [|x [|y [|z m]]] eqn:Q; try reflexivity.
  destruct ((x =? 45) && (y =? 45) && negb (z =? 45)) eqn:H; [|reflexivity]. exfalso. apply andb_true_iff in H as (H & _). apply andb_true_iff in H as (Hx & Hy). apply Z.eqb_eq in Hx, Hy. subst x y.
  rewrite rev_app_distr in Q. change (rev COMMENT) with [45; 45; 33] in Q. rewrite <- (rev_involutive a) in E.
  assert (La : List.length (rev a) = List.length a) by apply rev_length.
  destruct (rev a) as [|x1 [|x2 m']]; cbn in La; try lia.
  cbn [app] in Q. injection Q as -> -> _. apply N. exists (rev m'), (62 :: b ++ [45]). rewrite E. cbn [rev]. rewrite <- !app_assoc. reflexivity.
Qed.
Lemma comment_collect p r : comment_ok p -> forall s a, is_text s -> p = a ++ s ->
  collect false comment_before never (fun _ => false) None (tok8 (s ++ r)) (COMMENT ++ a) = collect false comment_before never (fun _ => false) None (tok8 r) (COMMENT ++ p).
Proof.
  intros H s a T. revert a. pattern s. revert s T. apply text_ind_cps.
  - intros a E. rewrite app_nil_r in E. now subst a.
  - intros c s G T IH a E. rewrite <- app_assoc, tok8_rfc by assumption. cbn [collect andb].
    assert (A : comment_before c (COMMENT ++ a) = Add).
    { destruct (Z.eq_dec c 62) as [-> |Nc].
      - apply (comment_no_stop 62 p H a s); [rewrite E; reflexivity|lia].
      - unfold comment_before. apply Z.eqb_neq in Nc. now rewrite Nc. }
    rewrite A. cbn [never]. rewrite (good_utf8 c G), <- app_assoc. apply IH. now rewrite <- app_assoc.
Qed.
Lemma comment_tag_any p r st : comment_ok p ->
  tag st (tok8 (s2z "!--" ++ p ++ s2z "--" ++ 62 :: r)) = special (s2z "!--" ++ p ++ s2z "--") false st (tok8 r).
Proof.
  intros H. unfold tag.
  replace (collect true name_before name_after (fun _ => false) None (tok8 (s2z "!--" ++ p ++ s2z "--" ++ 62 :: r)) [])
    with (Ret (A:=Z * cstr * list tok) (45, COMMENT, tok8 (p ++ s2z "--" ++ 62 :: r))) by reflexivity.
  cbn [rbind]. change (str_eqb COMMENT COMMENT) with true. cbv iota.
  rewrite <- (app_nil_r COMMENT) at 1. rewrite (comment_collect p _ H p []) by (apply H || reflexivity).
  replace (collect false comment_before never (fun _ => false) None (tok8 (s2z "--" ++ 62 :: r)) (COMMENT ++ p))
    with (Ret (A:=Z * cstr * list tok) (62, COMMENT ++ p ++ s2z "--", tok8 r)).
  2:{ cbn [s2z list_ascii_of_string map app]. rewrite !tok8_ascii by (cbn; lia). cbn [collect andb].
      replace (comment_before _ (COMMENT ++ p)) with Add by reflexivity. cbn [never].
      match goal with |- _ = match comment_before ?c ?b with _ => _ end => replace (comment_before c b) with Add by reflexivity end. cbn [never].
      unfold comment_before.
      replace (rev (((COMMENT ++ p) ++ utf8 (Z.of_N (N_of_ascii "-"))) ++ utf8 (Z.of_N (N_of_ascii "-"))))
        with (45 :: 45 :: rev p ++ rev COMMENT) by (rewrite !rev_app_distr; reflexivity).
      destruct H as (_ & Np & Nd). rewrite !app_length. 
      replace (4 <? _)%nat with true by (symmetry; apply Nat.ltb_lt; destruct p; [congruence|]; cbn; lia).
      destruct (rev p) as [|z m] eqn:Q; [exfalso; apply Np; rewrite <- (rev_involutive p), Q; reflexivity|]. cbn [app].
      assert (Z45 : z <> 45).
      { intros ->. apply Nd. exists (rev m), []. rewrite <- (rev_involutive p), Q. cbn [rev]. rewrite <- !app_assoc. reflexivity. }
      apply Z.eqb_neq in Z45. rewrite Z45. cbn [Z.eqb Pos.eqb andb negb]. rewrite <- !app_assoc. reflexivity. }
  cbn [rbind]. change (62 =? 62) with true. cbv iota. reflexivity.
Qed.
Lemma comment_tag p r st : comment_ok p -> second_root st = false ->
  tag st (tok8 (s2z "!--" ++ p ++ s2z "--" ++ 62 :: r)) = Ret (Go (attach (Elem (s2z "!--" ++ p ++ s2z "--") [] []) st) (tok8 r)).
Proof. intros H R. rewrite comment_tag_any by assumption. unfold special. rewrite R. destruct (stack st); reflexivity. Qed.
(** Failing. *)
Lemma run_fail st t st' t' : reach st t st' t' -> step st' t' = Fail -> forall f, (List.length t < f)%nat -> run_parser f st t = Fail.
Proof.
  intro R. induction R as [st t|st t st1 t1 st2 t2 E R IH]; intros F f L; (destruct f as [|f]; [lia|]); cbn.
  - now rewrite F.
  - rewrite E. cbn. apply step_shorter in E. apply IH; [assumption|]. cbn in *. lia.
Qed.
Lemma load_fail s st' t' : reach (mkP [] None [] false) (tok8 s) st' t' -> step st' t' = Fail -> load_string s = Fail.
Proof. intros R F. unfold load_string. eapply run_fail; [exact R|exact F|lia]. Qed.
(** Blanks after the document element. *)
Lemma reach_blanks_after w : spaces w -> forall tp b op r, exists b', reach (mkP [] (Some tp) b op) (tok8 (w ++ r)) (mkP [] (Some tp) b' op) (tok8 r).
Proof.
  induction 1 as [|c w Hc W IH]; intros tp b op r; [eexists; apply reach_refl|].
  destruct (space_is c Hc) as (M & G & _ & N1 & N2). apply Z.eqb_neq in N1, N2.
  cbn [app]. rewrite tok8_space by assumption.
  assert (exists b1, step (mkP [] (Some tp) b op) (Ch c :: tok8 (w ++ r)) = Ret (Go (mkP [] (Some tp) b1 op) (tok8 (w ++ r)))) as (b1 & E).
  { unfold step. rewrite N1, N2, M. cbn [andb]. destruct op; cbn [negb opaque orb stack top buf]; eexists; reflexivity. }
  destruct (IH tp b1 op r) as (b' & R). exists b'. eapply reach_step; eassumption.
Qed.
Lemma flush_after tp b op : flush (mkP [] (Some tp) b op) = mkP [] (Some tp) [] op.
Proof. unfold flush. destruct b; [reflexivity|]. now destruct op. Qed.
(** Processing instructions. *)
Lemma pi_collect s : is_text s -> forall b r,
  (forall x y, b ++ s = x ++ [63; 62] ++ y -> (List.length x + 2 <= List.length b)%nat) ->
  collect false pi_before never (fun _ => false) None (tok8 (s ++ r)) b
  = collect false pi_before never (fun _ => false) None (tok8 r) (b ++ s).
Proof.
  intro T. pattern s. revert s T. apply text_ind_cps.
  - intros b r _. cbn [app]. now rewrite app_nil_r.
  - intros c s G T IH b r H. rewrite <- app_assoc, tok8_rfc by assumption. cbn [collect andb].
    assert (A : pi_before c b = Add).
    { unfold pi_before. destruct (c =? 62) eqn:E; [|reflexivity]. apply Z.eqb_eq in E. subst c. cbn [andb].
      destruct (rev b) as [|x l] eqn:Rb; try reflexivity.
      destruct (x =? 63) eqn:Q; [|reflexivity]. exfalso. apply Z.eqb_eq in Q. subst x.
      assert (Eb : b = rev l ++ [63]) by (rewrite <- (rev_involutive b), Rb; reflexivity).
      specialize (H (rev l) s). rewrite Eb in H. rewrite !app_length in H. cbn [List.length] in H.
      enough (List.length (rev l) + 2 <= List.length (rev l) + 1)%nat by lia. apply H. cbn. now rewrite <- !app_assoc. }
    rewrite A. cbn [never]. rewrite (good_utf8 c G). rewrite IH; [now rewrite <- app_assoc|].
    intros x y E. rewrite <- app_assoc in E. specialize (H x y E). rewrite app_length. lia.
Qed.
Lemma pi_tag p r st : instruction_ok p ->
  tag st (tok8 (s2z "?" ++ p ++ s2z "?" ++ 62 :: r)) = special (s2z "?" ++ p ++ s2z "?") true st (tok8 r).
Proof.
  intros (T & N). unfold tag.
  replace (collect true name_before name_after (fun _ => false) None (tok8 (s2z "?" ++ p ++ s2z "?" ++ 62 :: r)) [])
    with (Ret (A:=Z * cstr * list tok) (63, [63], tok8 (p ++ s2z "?" ++ 62 :: r))) by reflexivity.
  cbn [rbind]. change (str_eqb [63] COMMENT) with false. change (str_eqb [63] CDATA) with false. cbv iota.
  rewrite pi_collect; [|assumption|].
  2:{ intros x y E. exfalso. apply N. eauto. }
  replace (collect false pi_before never (fun _ => false) None (tok8 (s2z "?" ++ 62 :: r)) ([63] ++ p))
    with (Ret (A:=Z * cstr * list tok) (62, [63] ++ p ++ s2z "?", tok8 r)).
  2:{ cbn [s2z list_ascii_of_string map app]. rewrite !tok8_ascii by (cbn; lia). cbn [collect andb].
      match goal with |- _ = match pi_before ?c ?b with _ => _ end => replace (pi_before c b) with Add by reflexivity end. cbn [never].
      unfold pi_before.
      replace (rev ((63 :: p) ++ utf8 (Z.of_N (N_of_ascii "?")))) with (63 :: rev (63 :: p)) by (rewrite (rev_app_distr (63 :: p)); reflexivity).
      cbn [Z.eqb Pos.eqb andb]. rewrite <- ?app_assoc. reflexivity. }
  cbn [rbind]. reflexivity.
Qed.
(** Declarations. *)
Lemma decl_collect s : is_text s -> ~ In 62 s -> ~ In 38 s -> forall b r,
  collect true decl_before never (fun _ => false) None (tok8 (s ++ 62 :: r)) b = Ret (62, b ++ s, tok8 r).
Proof.
  intro T. pattern s. revert s T. apply text_ind_cps.
  - intros _ _ b r. cbn [app]. now rewrite app_nil_r.
  - intros c s G T IH H62 H38 b r. rewrite <- app_assoc, tok8_rfc by assumption. cbn [collect andb].
    assert (c <> 62 /\ c <> 38) as (A & B).
    { split; intros ->; [apply H62|apply H38]; now left. }
    apply Z.eqb_neq in A, B. rewrite B. unfold decl_before at 1. rewrite A. cbn [never]. rewrite (good_utf8 c G), IH.
    + now rewrite <- app_assoc.
    + intro K. apply H62. apply in_or_app. now right.
    + intro K. apply H38. apply in_or_app. now right.
Qed.
Lemma decl_tag_general p r st : declaration_ok p ->
  tag st (tok8 (s2z "!" ++ p ++ 62 :: r)) = special (s2z "!" ++ p) true st (tok8 r).
Proof.
  intros (n & w & q & Nn & Ln & W & Nw & T & Q62 & Q38 & ->). unfold tag.
  assert (C : forall c t, space c -> collect true name_before name_after (fun _ => false) None (tok8 (s2z "!" ++ n ++ c :: t)) [] = Ret (c, 33 :: n, tok8 t)).
  { intros c t Hc. change (s2z "!" ++ n ++ c :: t) with (33 :: n ++ c :: t). rewrite tok8_ascii by lia. cbn [collect].
    replace (true && (33 =? 38)) with false by reflexivity. replace (name_before 33 []) with Add by reflexivity.
    replace (name_after 33 ([] ++ utf8 33)) with false by reflexivity. change ([] ++ utf8 33) with [33].
    assert (K : forall m b, Forall letter m -> (exists z b', b = 33 :: z :: b' /\ letter z) \/ (b = [33] /\ m <> []) ->
      collect true name_before name_after (fun _ => false) None (tok8 (m ++ c :: t)) b = Ret (c, b ++ m, tok8 t)).
    { intros m b F. revert b. induction F as [|x m Hx F IH]; intros b Hb.
      - rewrite app_nil_r. cbn [app]. rewrite tok8_space by exact Hc. destruct Hb as [(z & b' & -> & _)|(_ & X)]; [|congruence].
        destruct Hc as [-> |[-> |[-> | ->]]]; reflexivity.
      - cbn [app]. rewrite tok8_ascii by (unfold letter in Hx; lia). cbn [collect]. replace (true && (x =? 38)) with false by (unfold letter in Hx; cbn; lia).
        rewrite more_add by (left; left; exact Hx). replace (utf8 x) with [x] by (unfold utf8; unfold letter in Hx; replace (x <? 128) with true by lia; unfold u8; now rewrite Z.mod_small by lia).
        assert (Hb' : exists z b', b ++ [x] = 33 :: z :: b' /\ letter z).
        { destruct Hb as [(z & b' & -> & Lz)|(-> & _)]; [exists z, (b' ++ [x]); auto|exists x, []; auto]. }
        destruct Hb' as (z & b' & Eb & Lz).
        replace (name_after x (b ++ [x])) with false.
        2:{ rewrite Eb. unfold name_after, COMMENT, CDATA. cbn [s2z list_ascii_of_string map]. cbn.
            replace (z =? 45) with false by (unfold letter in Lz; lia). replace (z =? 91) with false by (unfold letter in Lz; lia). reflexivity. }
        rewrite IH by (left; rewrite Eb; eauto). now rewrite <- app_assoc. }
    rewrite K; [reflexivity|exact Ln|right; auto]. }
  destruct W as [|c w Hc W]; [congruence|].
  rewrite <- !app_assoc. cbn [app]. rewrite <- ?app_assoc. rewrite C by exact Hc. cbn [rbind].
  assert (E1 : str_eqb (33 :: n) COMMENT = false /\ str_eqb (33 :: n) CDATA = false).
  { destruct Ln as [|x n Lx Ln]; [congruence|]. unfold COMMENT, CDATA. cbn [s2z list_ascii_of_string map]. cbn.
    replace (x =? 45) with false by (unfold letter in Lx; lia). replace (x =? 91) with false by (unfold letter in Lx; lia). auto. }
  destruct E1 as (-> & ->). destruct (space_is c Hc) as (_ & Gc & Ec & _).
  replace (c =? 62) with false by (destruct Hc as [-> |[-> |[-> | ->]]]; reflexivity).
  rewrite (good_utf8 c Gc), Ec. rewrite (app_assoc w). rewrite decl_collect.
  - cbn [rbind]. change (62 =? 62) with true. cbv iota. f_equal. cbn [s2z list_ascii_of_string map app]. rewrite <- !app_assoc. reflexivity.
  - apply is_text_app; [|exact T]. apply is_text_ascii. eapply Forall_impl; [|exact W]. unfold space. intros. lia.
  - intro K. apply in_app_iff in K as [K|K]; [|auto]. eapply Forall_forall in K; [|exact W]. unfold space in K. lia.
  - intro K. apply in_app_iff in K as [K|K]; [|auto]. eapply Forall_forall in K; [|exact W]. unfold space in K. lia.
Qed.

(** * Documents *)
Definition reads_item (x : cstr) (t : node) : Prop := forall S tp b op r, (S = [] -> tp = None) -> (op = false -> b = []) ->
  (S = [] -> match t with Elem n _ _ => tag_name n | Opaque _ => False end) ->
  exists op', (op = true -> op' = true) /\
  reach (mkP S tp b op) (tok8 (x ++ r)) (mkP (add_kids S (t :: pend b)) (top_after S tp t) [] op') (tok8 r).
Definition reads_content (s : cstr) (ks : list node) : Prop := forall f l tp r,
  exists b ks', ks = ks' ++ pend b /\ reach (mkP (f :: l) tp [] true) (tok8 (s ++ r)) (mkP (add_kids (f :: l) (rev ks')) tp b true) (tok8 r).
Lemma texts_pend v : texts v = pend v. Proof. reflexivity. Qed.
Lemma pend_rev b l : rev (pend b ++ l) = rev l ++ pend b.
Proof. rewrite rev_app_distr. now destruct b. Qed.
Lemma special_tag_name n : tag_name n -> forall p, n <> s2z "!" ++ p /\ n <> s2z "?" ++ p.
Proof. intros H p. destruct (uname_first n H) as (x & l & -> & A & B & _). split; intro E; cbn in E; injection E as E _; congruence. Qed.
Lemma special_in S tp op n b t : S <> [] -> special n b (mkP S tp [] op) t = Ret (Go (attach (Elem n [] []) (mkP S tp [] op)) t).
Proof. intro N. unfold special, second_root. cbn [stack]. destruct S; [congruence|reflexivity]. Qed.
Lemma reads_all : (forall x t, item x t -> reads_item x t) /\ (forall s ks, content s ks -> reads_content s ks).
Proof.
  apply item_content_ind.
  - intros n a l w Hn Ha W S tp b op r T O _. exists op. split; [auto|].
    eapply reach_one. change ((60 :: n ++ a ++ w ++ s2z "/>") ++ r) with (60 :: (n ++ a ++ w ++ s2z "/>") ++ r). rewrite step_at by exact O.
    assert (T' : add_kids S (pend b) = [] -> tp = None) by (rewrite add_kids_empty; exact T).
    rewrite <- !app_assoc. rewrite (app_assoc w).
    rewrite (open_spelled n a l (w ++ s2z "/>") 47); [|exact Hn|exact Ha|exists w; split; [exact W|right; auto]|now apply second_root_no].
    change (47 =? 47) with true. cbv iota. rewrite attach_elem by exact T'. rewrite add_kids_app. now destruct S.
  - intros n a l w s ks w' Hn Ha W _ IH W' S tp b op r T O _. exists true. split; [auto|].
    assert (T' : add_kids S (pend b) = [] -> tp = None) by (rewrite add_kids_empty; exact T).
    match goal with |- reach _ (tok8 ?x) _ _ => replace x with (60 :: n ++ a ++ (w ++ [62]) ++ s ++ 60 :: 47 :: n ++ w' ++ 62 :: r) end.
    2:{ cbn [s2z list_ascii_of_string map app]. repeat (rewrite <- ?app_assoc; cbn [app]). reflexivity. }
    eapply reach_step.
    { rewrite step_at by exact O. rewrite (open_spelled n a l (w ++ [62]) 62); [|exact Hn|exact Ha|exists w; split; [exact W|left; auto]|now apply second_root_no]. reflexivity. }
    unfold push. cbn [stack top].
    destruct (IH (mkFrame n l []) (add_kids S (pend b)) tp (60 :: 47 :: n ++ w' ++ 62 :: r)) as (b' & ks' & -> & R). cbn [app] in R. 
    eapply reach_trans; [exact R|]. cbn [add_kids fr_name fr_attrs fr_kids]. rewrite app_nil_r.
    eapply reach_one. rewrite close_spelled by (assumption || reflexivity). cbn [fr_attrs fr_kids].
    rewrite attach_elem by exact T'. rewrite add_kids_app. rewrite pend_rev, rev_involutive. now destruct S.
  - intros p Hp S tp b op r T O N. exists op. split; [auto|]. destruct S as [|f S]; [destruct (proj1 (special_tag_name _ (N eq_refl) (s2z "--" ++ p ++ s2z "--")) eq_refl)|].
    eapply reach_one.
    match goal with |- step _ (tok8 ?x) = _ => replace x with (60 :: s2z "!--" ++ p ++ s2z "--" ++ 62 :: r) end.
    2:{ cbn [s2z list_ascii_of_string map app]. repeat (rewrite <- ?app_assoc; cbn [app]). reflexivity. }
    rewrite step_at by exact O. rewrite comment_tag; [|exact Hp|now apply second_root_no]. rewrite attach_elem by discriminate. now rewrite add_kids_app.
  - intros p Hp S tp b op r T O N. exists op. split; [auto|]. destruct S as [|f S]; [destruct (proj2 (special_tag_name _ (N eq_refl) (p ++ s2z "?")) eq_refl)|].
    eapply reach_one.
    match goal with |- step _ (tok8 ?x) = _ => replace x with (60 :: s2z "?" ++ p ++ s2z "?" ++ 62 :: r) end.
    2:{ cbn [s2z list_ascii_of_string map app]. repeat (rewrite <- ?app_assoc; cbn [app]). reflexivity. }
    rewrite step_at by exact O. rewrite pi_tag by exact Hp. rewrite special_in by discriminate. rewrite attach_elem by discriminate. now rewrite add_kids_app.
  - intros p Hp S tp b op r T O N. exists op. split; [auto|]. destruct S as [|f S]; [destruct (proj1 (special_tag_name _ (N eq_refl) p) eq_refl)|].
    eapply reach_one.
    match goal with |- step _ (tok8 ?x) = _ => replace x with (60 :: s2z "!" ++ p ++ 62 :: r) end.
    2:{ cbn [s2z list_ascii_of_string map app]. repeat (rewrite <- ?app_assoc; cbn [app]). reflexivity. }
    rewrite step_at by exact O. rewrite decl_tag_general by exact Hp. rewrite special_in by discriminate. rewrite attach_elem by discriminate. now rewrite add_kids_app.
  - intros p Hp S tp b op r T O N. exists op. split; [auto|]. destruct S as [|f S]; [destruct (proj1 (special_tag_name _ (N eq_refl) (s2z "[CDATA[" ++ p ++ s2z "]]")) eq_refl)|].
    eapply reach_one.
    match goal with |- step _ (tok8 ?x) = _ => replace x with (60 :: s2z "![CDATA[" ++ p ++ s2z "]]" ++ 62 :: r) end.
    2:{ cbn [s2z list_ascii_of_string map app]. repeat (rewrite <- ?app_assoc; cbn [app]). reflexivity. }
    rewrite step_at by exact O. rewrite cdata_tag; [|exact Hp|now apply second_root_no]. unfold cdata_node. rewrite attach_elem by discriminate. now rewrite add_kids_app.
  - intros s v Hs f l tp r. exists v, []. split; [reflexivity|]. cbn [rev add_kids app]. pose proof (reach_spells (f :: l) tp s v Hs r []) as R. destruct f; exact R.
  - intros s v x n rest ks Hs _ IHx _ IHc f l tp r.
    destruct (IHx (f :: l) tp v true (rest ++ r)) as (op & Op & R); [discriminate..|]. rewrite (Op eq_refl) in R. cbn [add_kids top_after] in R.
    destruct (IHc (mkFrame (fr_name f) (fr_attrs f) ((n :: pend v) ++ fr_kids f)) l tp r) as (b & ks' & -> & R').
    exists b, (texts v ++ n :: ks'). split; [rewrite <- app_assoc; reflexivity|]. rewrite <- !app_assoc.
    eapply reach_trans; [apply (reach_spells _ _ s v Hs _ [])|]. cbn [app]. eapply reach_trans; [exact R|]. 
    cbn [add_kids fr_name fr_attrs fr_kids] in *. replace (rev (texts v ++ n :: ks') ++ fr_kids f) with (rev ks' ++ (n :: pend v) ++ fr_kids f); [exact R'|].
    rewrite rev_app_distr. cbn [rev]. rewrite <- !app_assoc. cbn [app]. now destruct v.
Qed.
Lemma reach_spaces_top S tp w : spaces w -> forall r, reach (mkP S tp [] false) (tok8 (w ++ r)) (mkP S tp [] false) (tok8 r).
Proof.
  induction 1 as [|c w H B IH]; intros r; [apply reach_refl|].
  eapply reach_step; [|apply IH]. cbn [app]. rewrite tok8_space by exact H. destruct H as [-> |[-> |[-> | ->]]]; reflexivity.
Qed.
Lemma spaces_spell w : spaces w -> spells text_char w w.
Proof.
  induction 1 as [|c w H _ IH]; [constructor|]. destruct (space_is c H) as (_ & G & E & A & B). change (c :: w) with ([c] ++ w). rewrite <- E.
  apply spells_char; [exact G|split; assumption|exact IH].
Qed.
Lemma tok8_bom m r : m = [] \/ m = BOM -> tok8 (m ++ r) = tok8 r.
Proof. intros [-> | ->]; reflexivity. Qed.
Lemma reads_body s ks : body s ks -> forall f l tp r, exists b, reach (mkP (f :: l) tp [] true) (tok8 (s ++ r)) (mkP (add_kids (f :: l) (rev ks)) tp b true) (tok8 r).
Proof.
  induction 1 as [w W|w x n rest ks W Hx _ IH]; intros f l tp r.
  - exists w. cbn [rev add_kids app]. pose proof (reach_spells (f :: l) tp w w (spaces_spell w W) r []) as R. destruct f; exact R.
  - destruct (proj1 reads_all x n Hx (f :: l) tp w true (rest ++ r)) as (op & Op & R); [discriminate..|]. rewrite (Op eq_refl) in R. cbn [add_kids top_after] in R.
    destruct (IH (mkFrame (fr_name f) (fr_attrs f) ((n :: pend w) ++ fr_kids f)) l tp r) as (b & R').
    exists b. rewrite <- !app_assoc.
    eapply reach_trans; [apply (reach_spells _ _ w w (spaces_spell w W) _ [])|]. cbn [app]. eapply reach_trans; [exact R|].
    cbn [add_kids fr_name fr_attrs fr_kids] in *. replace (rev (texts w ++ n :: ks) ++ fr_kids f) with (rev ks ++ (n :: pend w) ++ fr_kids f); [exact R'|].
    rewrite rev_app_distr. cbn [rev]. rewrite <- !app_assoc. cbn [app]. now destruct w.
Qed.
Theorem reads_document s d : document s d -> load_string s = Ret (Some d).
Proof.
  intros [m w p c ks M W Hp Hc|m w p c ks M W Hp Hc|m w x n a ks w' M W Hx Hn W']; unfold load_string; rewrite tok8_bom by exact M.
  - destruct (reads_body c ks Hc (mkFrame (s2z "?" ++ p ++ s2z "?") [] []) [] None []) as (b & R). rewrite app_nil_r in R.
    erewrite run_reach; [| |apply Nat.lt_succ_diag_r].
    2:{ eapply reach_trans; [apply reach_spaces_top; exact W|].
        match goal with |- reach _ (tok8 ?x) _ _ => replace x with (60 :: s2z "?" ++ p ++ s2z "?" ++ 62 :: c) end.
        2:{ cbn [s2z list_ascii_of_string map app]. repeat (rewrite <- ?app_assoc; cbn [app]). reflexivity. }
        eapply reach_step; [|exact R]. rewrite step_at by reflexivity. rewrite pi_tag by exact Hp. reflexivity. }
    cbn [finish stack add_kids]. unfold close_frame. cbn [fr_name fr_attrs fr_kids]. now rewrite app_nil_r, rev_involutive.
  - destruct (reads_body c ks Hc (mkFrame (s2z "!" ++ p) [] []) [] None []) as (b & R). rewrite app_nil_r in R.
    erewrite run_reach; [| |apply Nat.lt_succ_diag_r].
    2:{ eapply reach_trans; [apply reach_spaces_top; exact W|].
        match goal with |- reach _ (tok8 ?x) _ _ => replace x with (60 :: s2z "!" ++ p ++ 62 :: c) end.
        2:{ cbn [s2z list_ascii_of_string map app]. repeat (rewrite <- ?app_assoc; cbn [app]). reflexivity. }
        eapply reach_step; [|exact R]. rewrite step_at by reflexivity. rewrite decl_tag_general by exact Hp. reflexivity. }
    cbn [finish stack add_kids]. unfold close_frame. cbn [fr_name fr_attrs fr_kids]. now rewrite app_nil_r, rev_involutive.
  - destruct (proj1 reads_all x _ Hx [] None [] false w' ltac:(auto) ltac:(auto) ltac:(auto)) as (op & _ & R). cbn [add_kids top_after] in R.
    assert (E : exists b, reach (mkP [] (Some (Elem n a ks)) [] op) (tok8 (w' ++ [])) (mkP [] (Some (Elem n a ks)) b op) []).
    { destruct op; [exists w'; apply (reach_spells [] _ w' w' (spaces_spell w' W') [] [])|exists []; apply (reach_spaces_top [] _ w' W' [])]. }
    destruct E as (b & E). rewrite app_nil_r in E.
    erewrite run_reach; [| |apply Nat.lt_succ_diag_r].
    2:{ eapply reach_trans; [apply reach_spaces_top; exact W|]. eapply reach_trans; [exact R|exact E]. }
    reflexivity.
Qed.
