(** Reading a text that ends too early. *)
From Verif Require Import CBase CBaseProofs XmlEntity XmlModel SpecXml Utf8Proofs XmlTermProofs FileModel SpecCut.

(** The end of the input: no more tokens, or the rests of a character cut in the middle. *)
Definition ended (e : list tok) : Prop := Forall (eq Bad) e.
Lemma ended_tl b e : ended (b :: e) -> b = Bad /\ ended e. Proof. intro H. inversion H; auto. Qed.
Lemma beginning_refl {A} (l : list A) : beginning l l. Proof. exists []. now rewrite app_nil_r. Qed.
Lemma beginning_trans {A} (a b c : list A) : beginning a b -> beginning b c -> beginning a c.
Proof. intros (x & ->) (y & ->). exists (x ++ y). now rewrite app_assoc. Qed.
Lemma beginning_app {A} (a b : list A) : beginning a (a ++ b). Proof. now exists b. Qed.

Lemma getc_end e : ended e -> exists e', ended e' /\ getc e = Ret (EOF, e').
Proof. intro H. destruct e as [|b l]; [exists []; split; [constructor|reflexivity]|]. apply ended_tl in H as (-> & H). exists l. auto. Qed.
Lemma getc_cut e q p c t' : ended e -> getc (map Ch p ++ q) = Ret (c, t') ->
  (exists p', t' = map Ch p' ++ q /\ getc (map Ch p ++ e) = Ret (c, map Ch p' ++ e)) \/ (exists e', ended e' /\ getc (map Ch p ++ e) = Ret (EOF, e')).
Proof.
  intro He. destruct p as [|x p]; cbn.
  - intros _. right. now apply getc_end.
  - intro E. injection E as <- <-. left. eauto.
Qed.
Lemma collect_grows ents bf af ae t : forall ent b c b' t', collect ents bf af ae ent t b = Ret (c, b', t') -> beginning b b'.
Proof.
  induction t as [|[x| |] l IH]; intros ent b c b' t' E; cbn in E.
  - destruct ent; inversion E; subst. apply beginning_refl.
  - destruct ent as [en|].
    + destruct (ent_step en x) as [e'|[w|]]; try discriminate.
      * now apply IH in E.
      * destruct (ae w); [inversion E; subst; apply beginning_app|]. apply IH in E. eapply beginning_trans; [apply beginning_app|exact E].
    + destruct (ents && (x =? 38)); [now apply IH in E|].
      destruct (bf x b); try discriminate.
      * inversion E; subst. apply beginning_refl.
      * destruct (af x (b ++ utf8 x)); [inversion E; subst; apply beginning_app|]. apply IH in E. eapply beginning_trans; [apply beginning_app|exact E].
  - destruct ent; inversion E; subst; apply beginning_refl.
  - discriminate.
Qed.
Lemma collect_end e ents bf af ae ent b : ended e ->
  collect ents bf af ae ent e b = Fail \/ exists e', ended e' /\ collect ents bf af ae ent e b = Ret (EOF, b, e').
Proof.
  intro H. destruct e as [|x l]; cbn.
  - destruct ent; [now left|right; exists []; split; [constructor|reflexivity]].
  - apply ended_tl in H as (-> & H). cbn. destruct ent; [now left|right; eauto].
Qed.
Lemma collect_cut e q ents bf af ae p : ended e -> forall ent b c b' t', collect ents bf af ae ent (map Ch p ++ q) b = Ret (c, b', t') ->
  (exists p', t' = map Ch p' ++ q /\ collect ents bf af ae ent (map Ch p ++ e) b = Ret (c, b', map Ch p' ++ e)) \/
  collect ents bf af ae ent (map Ch p ++ e) b = Fail \/
  exists e' m, ended e' /\ beginning m b' /\ beginning b m /\ collect ents bf af ae ent (map Ch p ++ e) b = Ret (EOF, m, e').
Proof.
  intro He. induction p as [|x p IH]; intros ent b c b' t' E.
  - cbn [map app] in *. apply collect_grows in E. right. destruct (collect_end e ents bf af ae ent b He) as [H|(e' & H1 & H2)]; [now left|].
    right. exists e', b. repeat split; auto. apply beginning_refl.
  - cbn [map app collect] in *. destruct ent as [en|].
    + destruct (ent_step en x) as [e1|[w|]]; try discriminate; [now apply IH|].
      destruct (ae w); [injection E as <- <- <-; left; eauto|].
      destruct (IH _ _ _ _ _ E) as [H|[H|(e' & m & H1 & H2 & H3 & H4)]]; auto. right. right. exists e', m. repeat split; auto. eapply beginning_trans; [apply beginning_app|exact H3].
    + destruct (ents && (x =? 38)); [now apply IH|]. destruct (bf x b); try discriminate; [injection E as <- <- <-; left; eauto|].
      cbv zeta in *. destruct (af x (b ++ utf8 x)); [injection E as <- <- <-; left; eauto|].
      destruct (IH _ _ _ _ _ E) as [H|[H|(e' & m & H1 & H2 & H3 & H4)]]; auto. right. right. exists e', m. repeat split; auto. eapply beginning_trans; [apply beginning_app|exact H3].
Qed.
Lemma skip_blanks_cut e q p : ended e -> forall ch c t', skip_blanks ch (map Ch p ++ q) = Ret (c, t') ->
  (exists p', t' = map Ch p' ++ q /\ skip_blanks ch (map Ch p ++ e) = Ret (c, map Ch p' ++ e)) \/ (exists e', ended e' /\ skip_blanks ch (map Ch p ++ e) = Ret (EOF, e')).
Proof.
  intro He. induction p as [|x p IH]; intros ch c t' E.
  - cbn [map app] in *. destruct (mxml_isspace ch) eqn:B.
    + right. destruct e as [|y l]; cbn; rewrite B; [exists []; split; [constructor|reflexivity]|]. apply ended_tl in He as (-> & He). eauto.
    + left. exists []. cbn [map app]. destruct q; cbn in E; rewrite B in E; injection E as <- <-; (split; [reflexivity|destruct e; cbn; now rewrite B]).
  - cbn [map app skip_blanks] in *. destruct (mxml_isspace ch); [now apply IH|]. injection E as <- <-. left. exists (x :: p). auto.
Qed.
Lemma skip_to_gt_cut e q p : ended e -> forall ch t', skip_to_gt ch (map Ch p ++ q) = Ret t' ->
  (exists p', t' = map Ch p' ++ q /\ skip_to_gt ch (map Ch p ++ e) = Ret (map Ch p' ++ e)) \/ (exists e', ended e' /\ skip_to_gt ch (map Ch p ++ e) = Ret e').
Proof.
  intro He. induction p as [|x p IH]; intros ch t' E.
  - right. cbn [map app]. destruct e as [|y l]; cbn; destruct (_ || _); eauto using Forall_nil.
    apply ended_tl in He as (-> & He). eauto.
  - cbn [map app skip_to_gt] in *. destruct (_ || _); [|now apply IH]. injection E as <-. left. exists (x :: p). auto.
Qed.
Lemma expect_gt_cut e q p ch a c a' t' : ended e -> expect_gt ch a (map Ch p ++ q) = Ret (c, a', t') ->
  (exists p', t' = map Ch p' ++ q /\ expect_gt ch a (map Ch p ++ e) = Ret (c, a', map Ch p' ++ e)) \/ expect_gt ch a (map Ch p ++ e) = Fail.
Proof.
  intro He. unfold expect_gt. intro E. apply rbind_ret in E as ((d & t1) & G & E).
  destruct (getc_cut _ _ p d t1 He G) as [(p' & -> & ->)|(e' & He' & ->)]; cbn in *.
  - destruct (d =? 62); inversion E; subst. left. eauto.
  - now right.
Qed.
Lemma skip_blanks_eof e : skip_blanks EOF e = Ret (EOF, e). Proof. destruct e; reflexivity. Qed.
Lemma parse_attr_cut e q p a ch c a' t' : ended e -> parse_attr a ch (map Ch p ++ q) = Ret (c, a', t') ->
  (exists p', t' = map Ch p' ++ q /\ parse_attr a ch (map Ch p ++ e) = Ret (c, a', map Ch p' ++ e)) \/
  parse_attr a ch (map Ch p ++ e) = Fail \/ (exists e' a'', ended e' /\ parse_attr a ch (map Ch p ++ e) = Ret (EOF, a'', e')).
Proof.
  intros He E. unfold parse_attr in *. apply rbind_ret in E as (((c1 & name) & t1) & C1 & E).
  set (F := fun r : Z * cstr * list tok => let '(ch, name, t1) := r in _) in E |- *.
  assert (C1' : (exists p', t1 = map Ch p' ++ q /\ (if is_quote ch then collect true add_all (fun x _ => x =? ch) (fun x => x =? ch) None (map Ch p ++ e) [u8 ch]
     else collect true aname_before never (fun _ => false) None (map Ch p ++ e) [u8 ch]) = Ret (c1, name, map Ch p' ++ e)) \/
     (if is_quote ch then collect true add_all (fun x _ => x =? ch) (fun x => x =? ch) None (map Ch p ++ e) [u8 ch]
     else collect true aname_before never (fun _ => false) None (map Ch p ++ e) [u8 ch]) = Fail \/
     exists e' m, ended e' /\ (if is_quote ch then collect true add_all (fun x _ => x =? ch) (fun x => x =? ch) None (map Ch p ++ e) [u8 ch]
     else collect true aname_before never (fun _ => false) None (map Ch p ++ e) [u8 ch]) = Ret (EOF, m, e')).
  { destruct (is_quote ch); destruct (collect_cut _ _ _ _ _ _ p He _ _ _ _ _ C1) as [H|[H|(e' & m & H1 & H2 & H3 & H4)]]; eauto 7. }
  destruct C1' as [(p1 & -> & ->)|[->|(e' & m & He' & ->)]]; cbn [rbind].
  2:{ auto. }
  2:{ right. left. unfold F. destruct (get_attr a m); [reflexivity|]. rewrite skip_blanks_eof. reflexivity. }
  clear C1. unfold F in *. destruct (get_attr a name); [discriminate|].
  apply rbind_ret in E as ((c2 & t2) & C2 & E).
  destruct (skip_blanks_cut _ _ p1 He _ _ _ C2) as [(p2 & -> & ->)|(e' & He' & ->)]; cbn [rbind]; [|auto].
  destruct (c2 =? 61); [|discriminate].
  apply rbind_ret in E as ((c3 & t3) & C3 & E).
  destruct (skip_blanks_cut _ _ p2 He _ _ _ C3) as [(p3 & -> & ->)|(e' & He' & ->)]; cbn [rbind]; [|auto].
  destruct (c3 =? EOF); [discriminate|].
  apply rbind_ret in E as (((c4 & v) & t4) & C4 & E). injection E as <- <- <-.
  destruct (is_quote c3); destruct (collect_cut _ _ _ _ _ _ p3 He _ _ _ _ _ C4) as [(p4 & -> & ->)|[->|(e' & m & H1 & H2 & H3 & ->)]]; cbn [rbind]; eauto 7.
Qed.
Lemma parse_element_end f a e' : ended e' -> (0 < f)%nat -> parse_element f a e' = Fail.
Proof. intros He L. destruct f; [lia|]. destruct e' as [|x l]; [reflexivity|]. apply ended_tl in He as (-> & _). reflexivity. Qed.
Lemma parse_element_cut e q f : ended e -> forall g p a c a' t', (List.length (map Ch p ++ e) < g)%nat -> parse_element f a (map Ch p ++ q) = Ret (c, a', t') ->
  (exists p', t' = map Ch p' ++ q /\ parse_element g a (map Ch p ++ e) = Ret (c, a', map Ch p' ++ e)) \/ parse_element g a (map Ch p ++ e) = Fail.
Proof.
  intro He. induction f as [|f IH]; intros g p a c a' t' L E; [discriminate|]. destruct p as [|ch p]; [right; apply parse_element_end; [exact He|lia]|].
  destruct g as [|g]; [lia|]. cbn [parse_element map app getc rbind List.length] in *.
  destruct (ch =? EOF); [discriminate|]. destruct (mxml_isspace ch); [apply IH; [lia|exact E]|].
  destruct ((ch =? 47) || (ch =? 63)); [now apply expect_gt_cut|]. destruct (ch =? 60); [discriminate|].
  destruct (ch =? 62); [injection E as <- <- <-; left; eauto|].
  apply rbind_ret in E as (((c2 & a2) & t2) & C & E).
  destruct (parse_attr_cut _ _ p a ch c2 a2 t2 He C) as [(p' & -> & C')|[->|(e' & a'' & He' & C')]]; cbn [rbind]; [|now right|].
  - rewrite C'. cbn [rbind]. destruct ((c2 =? 47) || (c2 =? 63)); [now apply expect_gt_cut|].
    destruct (c2 =? 62); [injection E as <- <- <-; left; eauto|]. apply IH; [|exact E]. apply parse_attr_shorter in C'. lia.
  - right. rewrite C'. cbn [rbind]. change (parse_element g a'' e' = Fail). apply parse_element_end; [exact He'|lia].
Qed.
Lemma get_entity_cut e q p : ended e -> forall b v t', get_entity (map Ch p ++ q) b = Ret (v, t') ->
  (exists p', t' = map Ch p' ++ q /\ get_entity (map Ch p ++ e) b = Ret (v, map Ch p' ++ e)) \/ get_entity (map Ch p ++ e) b = Fail.
Proof.
  intro He. induction p as [|x p IH]; intros b v t' E.
  - right. destruct e as [|y l]; [reflexivity|]. apply ended_tl in He as (-> & _). reflexivity.
  - cbn [map app get_entity] in *. destruct (ent_step b x) as [b'|[w|]]; try discriminate; [now apply IH|]. injection E as <- <-. left. eauto.
Qed.
