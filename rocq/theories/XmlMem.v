(** Memory behaviour of the Mini-XML reader and writer. *)
From Verif Require Import CBase CBaseProofs XmlEntity XmlModel SpecXml Utf8Proofs XmlTermProofs.

(** * Reading *)
(** No call of the reader reads past the terminator on a stream without [Over]. *)
Definition safe (t : list tok) : Prop := ~ In Over t.
Lemma safe_tl x t : safe (x :: t) -> safe t. Proof. unfold safe. cbn. tauto. Qed.
Lemma safe_hd t : safe (Over :: t) -> False. Proof. unfold safe. cbn. tauto. Qed.
#[local] Hint Resolve safe_tl : safe.
Lemma getc_safe t : safe t -> getc t <> OverRead /\ (forall r, getc t = Ret r -> safe (snd r)).
Proof.
  destruct t as [|[x| |] l]; cbn; intro H; try (split; [discriminate|intros r [= <-]; cbn; eauto with safe]).
  exfalso. now apply safe_hd in H.
Qed.
Lemma get_entity_safe t : forall e, safe t -> get_entity t e <> OverRead /\ (forall r, get_entity t e = Ret r -> safe (snd r)).
Proof.
  induction t as [|[x| |] l IH]; intros e H; cbn; try (split; [discriminate|intros; discriminate]); [|exfalso; now apply safe_hd in H].
  destruct (ent_step e x) as [e'|[w|]]; [apply IH; eauto with safe| |split; [discriminate|intros; discriminate]].
  split; [discriminate|]. intros r [= <-]. eauto with safe.
Qed.
Lemma collect_safe en bf af ae t : forall ent b, safe t ->
  collect en bf af ae ent t b <> OverRead /\ (forall c b' t', collect en bf af ae ent t b = Ret (c, b', t') -> safe t').
Proof.
  induction t as [|[x| |] l IH]; intros ent b H; cbn.
  - destruct ent; split; try discriminate; intros c b' t' [= <- <- <-]; exact H.
  - assert (Hl : safe l) by eauto with safe. destruct ent as [e|].
    + destruct (ent_step e x) as [e'|[w|]]; [now apply IH| |split; [discriminate|intros; discriminate]].
      destruct (ae w); [|now apply IH]. split; [discriminate|]. intros c b' t' [= <- <- <-]. exact Hl.
    + destruct (en && (x =? 38)); [now apply IH|]. destruct (bf x b).
      * split; [discriminate|]. intros c b' t' [= <- <- <-]. exact Hl.
      * split; [discriminate|intros; discriminate].
      * destruct (af x (b ++ utf8 x)); [|now apply IH]. split; [discriminate|]. intros c b' t' [= <- <- <-]. exact Hl.
  - destruct ent; split; try discriminate; intros c b' t' [= <- <- <-]; eauto with safe.
  - exfalso. now apply safe_hd in H.
Qed.
Lemma skip_blanks_safe t : forall ch, safe t -> skip_blanks ch t <> OverRead /\ (forall c t', skip_blanks ch t = Ret (c, t') -> safe t').
Proof.
  induction t as [|[x| |] l IH]; intros ch H; cbn; destruct (mxml_isspace ch);
    try (split; [discriminate|intros c t' [= <- <-]; eauto with safe]); try (exfalso; now apply safe_hd in H).
  apply IH. eauto with safe.
Qed.
Lemma skip_to_gt_safe t : forall ch, safe t -> skip_to_gt ch t <> OverRead /\ (forall t', skip_to_gt ch t = Ret t' -> safe t').
Proof.
  induction t as [|[x| |] l IH]; intros ch H; cbn; destruct ((ch =? 62) || (ch =? EOF));
    try (split; [discriminate|intros t' [= <-]; eauto with safe]); try (exfalso; now apply safe_hd in H).
  apply IH. eauto with safe.
Qed.
Lemma rbind_safe {A B} (m : res A) (f : A -> res B) (Q : B -> Prop) (R : A -> Prop) :
  (m <> OverRead /\ (forall a, m = Ret a -> R a)) -> (forall a, R a -> f a <> OverRead /\ (forall b, f a = Ret b -> Q b)) ->
  rbind m f <> OverRead /\ (forall b, rbind m f = Ret b -> Q b).
Proof.
  intros (H1 & H2) Hf. destruct m as [a| | |]; cbn; [apply Hf; now apply H2|split; [discriminate|intros; discriminate]|congruence|split; [discriminate|intros; discriminate]].
Qed.
Definition safe3 {A B} (r : A * B * list tok) : Prop := safe (snd r).
Lemma collect_safe' en bf af ae t ent b : safe t ->
  collect en bf af ae ent t b <> OverRead /\ (forall r, collect en bf af ae ent t b = Ret r -> safe3 r).
Proof. intro H. destruct (collect_safe en bf af ae t ent b H) as (A & B). split; [exact A|]. intros ((c & b') & t'). apply B. Qed.
Ltac trivial_safe := split; [discriminate|intros; discriminate].
Ltac ret_safe := split; [discriminate|intros ? [= <-]; assumption].
Lemma expect_gt_safe ch a t : safe t -> expect_gt ch a t <> OverRead /\ (forall r, expect_gt ch a t = Ret r -> safe3 r).
Proof.
  intro H. unfold expect_gt. apply (rbind_safe _ _ _ (fun r => safe (snd r))).
  - exact (getc_safe t H).
  - intros (c & t') Hs. cbn in *. destruct (c =? 62); [split; [discriminate|intros ? [= <-]; exact Hs]|trivial_safe].
Qed.
Lemma parse_attr_safe a c t : safe t -> parse_attr a c t <> OverRead /\ (forall r, parse_attr a c t = Ret r -> safe3 r).
Proof.
  intro H. unfold parse_attr. apply (rbind_safe _ _ _ safe3); [destruct (is_quote c); now apply collect_safe'|].
  intros ((ch & name) & t1) H1. unfold safe3 in H1. cbn in H1. destruct (get_attr a name); [trivial_safe|].
  apply (rbind_safe _ _ _ (fun r => safe (snd r))).
  { destruct (skip_blanks_safe t1 ch H1) as (A & B). split; [exact A|]. intros (x & y). apply B. }
  intros (ch2 & t2) H2. cbn in H2. destruct (ch2 =? 61); [|trivial_safe].
  apply (rbind_safe _ _ _ (fun r => safe (snd r))).
  { destruct (skip_blanks_safe t2 32 H2) as (A & B). split; [exact A|]. intros (x & y). apply B. }
  intros (ch3 & t3) H3. cbn in H3. destruct (ch3 =? EOF); [trivial_safe|].
  apply (rbind_safe _ _ _ safe3); [destruct (is_quote ch3); now apply collect_safe'|].
  intros ((ch4 & v) & t4) H4. split; [discriminate|]. intros ? [= <-]. exact H4.
Qed.
Lemma parse_element_safe f : forall a t, safe t -> parse_element f a t <> OverRead /\ (forall r, parse_element f a t = Ret r -> safe3 r).
Proof.
  induction f as [|f IH]; intros a t H; [trivial_safe|]. cbn [parse_element].
  apply (rbind_safe _ _ _ (fun r => safe (snd r))).
  { exact (getc_safe t H). }
  intros (ch & t1) H1. cbn in H1. destruct (ch =? EOF); [trivial_safe|]. destruct (mxml_isspace ch); [now apply IH|].
  destruct ((ch =? 47) || (ch =? 63)); [now apply expect_gt_safe|]. destruct (ch =? 60); [trivial_safe|].
  destruct (ch =? 62); [split; [discriminate|intros ? [= <-]; exact H1]|].
  apply (rbind_safe _ _ _ safe3); [now apply parse_attr_safe|]. intros ((ch2 & a2) & t2) H2. unfold safe3 in H2. cbn in H2.
  destruct ((ch2 =? 47) || (ch2 =? 63)); [now apply expect_gt_safe|].
  destruct (ch2 =? 62); [split; [discriminate|intros ? [= <-]; exact H2]|]. now apply IH.
Qed.
Definition safe_step (r : stepr) : Prop := match r with Go _ t => safe t | End _ => True end.
Lemma special_safe n b st t : safe t -> special n b st t <> OverRead /\ (forall r, special n b st t = Ret r -> safe_step r).
Proof.
  intro H. unfold special. destruct (second_root st); [trivial_safe|].
  destruct (stack st); [destruct b|]; (split; [discriminate|intros ? [= <-]; exact H]).
Qed.
Lemma tag_safe st t : safe t -> tag st t <> OverRead /\ (forall r, tag st t = Ret r -> safe_step r).
Proof.
  intro H. unfold tag. apply (rbind_safe _ _ _ safe3); [now apply collect_safe'|]. intros ((ch & name) & t1) H1. unfold safe3 in H1. cbn [snd] in H1.
  assert (S1 : forall bf n b X, rbind (collect X bf never (fun _ => false) None t1 n) (fun r2 : Z * cstr * list tok =>
      let '(ch2, name2, t2) := r2 in if ch2 =? 62 then special name2 b st t2 else Fail) <> OverRead /\
     (forall r, rbind (collect X bf never (fun _ => false) None t1 n) (fun r2 : Z * cstr * list tok =>
      let '(ch2, name2, t2) := r2 in if ch2 =? 62 then special name2 b st t2 else Fail) = Ret r -> safe_step r)).
  { intros. apply (rbind_safe _ _ _ safe3); [now apply collect_safe'|]. intros ((c2 & n2) & t2) H2.
    destruct (c2 =? 62); [apply special_safe; exact H2|trivial_safe]. }
  destruct (str_eqb name COMMENT); [apply S1|]. destruct (str_eqb name CDATA); [apply S1|].
  assert (O : open_element name ch st t1 <> OverRead /\ (forall r, open_element name ch st t1 = Ret r -> safe_step r)).
  { unfold open_element. destruct (second_root st); [trivial_safe|]. apply (rbind_safe _ _ _ safe3).
    - destruct (mxml_isspace ch); [now apply parse_element_safe|]. destruct (ch =? 47); [now apply expect_gt_safe|].
      split; [discriminate|intros ? [= <-]; exact H1].
    - intros ((c1 & a) & t2) H2. destruct (c1 =? EOF); [split; [discriminate|intros ? [= <-]; exact I]|].
      destruct (c1 =? 47); (split; [discriminate|intros ? [= <-]; exact H2]). }
  destruct name as [|x rest]; [exact O|].
  assert (D : rbind (if ch =? 62 then Ret (ch, x :: rest, t1) else collect true decl_before never (fun _ => false) None t1 ((x :: rest) ++ utf8 ch))
     (fun r2 : Z * cstr * list tok => let '(ch2, name2, t2) := r2 in if ch2 =? 62 then special name2 true st t2 else Fail) <> OverRead /\
     (forall r, rbind (if ch =? 62 then Ret (ch, x :: rest, t1) else collect true decl_before never (fun _ => false) None t1 ((x :: rest) ++ utf8 ch))
     (fun r2 : Z * cstr * list tok => let '(ch2, name2, t2) := r2 in if ch2 =? 62 then special name2 true st t2 else Fail) = Ret r -> safe_step r)).
  { destruct (ch =? 62) eqn:H62; [|apply S1]. cbn. rewrite H62. now apply special_safe. }
  assert (Dc : close_tag rest ch st t1 <> OverRead /\ (forall r, close_tag rest ch st t1 = Ret r -> safe_step r)).
  { unfold close_tag. destruct (stack st); [trivial_safe|]. destruct (str_eqb rest (fr_name f)); [|trivial_safe].
    apply (rbind_safe _ _ _ safe); [now apply skip_to_gt_safe|]. intros t2 H2. split; [discriminate|intros ? [= <-]; exact H2]. }
  destruct x as [|p|p]; try exact O.
  do 6 (destruct p as [p|p|]; try exact O; try apply S1; try exact D; try exact Dc).
Qed.
Lemma step_safe st t : safe t -> step st t <> OverRead /\ (forall r, step st t = Ret r -> safe_step r).
Proof.
  intro H. unfold step. destruct t as [|[c| |] l].
  - split; [discriminate|intros ? [= <-]; exact I].
  - assert (Hl : safe l) by eauto with safe. destruct (c =? 60); [now apply tag_safe|].
    destruct (c =? 38).
    + apply (rbind_safe _ _ _ (fun r => safe (snd r))); [now apply get_entity_safe|]. intros r Hr. split; [discriminate|intros ? [= <-]; exact Hr].
    + match goal with |- (if ?b then _ else _) <> _ /\ _ => destruct b end; (split; [discriminate|intros ? [= <-]; exact Hl]).
  - split; [discriminate|intros ? [= <-]; exact I].
  - exfalso. now apply safe_hd in H.
Qed.
Lemma run_parser_safe f : forall st t, safe t -> run_parser f st t <> OverRead.
Proof.
  induction f as [|f IH]; intros st t H; [discriminate|]. cbn. destruct (step_safe st t H) as (A & B).
  destruct (step st t) as [[st' t'|r]| | |]; cbn; try congruence. apply IH. exact (B _ eq_refl).
Qed.
(** Only a UTF-16 byte order mark leads out of the UTF-8 decoder. *)
Lemma no_mark_tail c l : no_mark (c :: l) -> no_mark l.
Proof. intros H a b. specialize (H (c :: a) b). split; intro E; [apply (proj1 H)|apply (proj2 H)]; cbn [app]; now rewrite E. Qed.
Lemma tok8_safe : forall n l, (List.length l <= n)%nat -> no_mark l -> safe (tok8 l).
Proof.
  assert (E : forall l c, safe (tok8 l) -> c <> Over -> safe (c :: tok8 l)) by (unfold safe; cbn; intuition congruence).
  induction n as [|n IH]; intros l L N; (destruct l as [|c l1]; [unfold safe; cbn; tauto|]); [cbn in L; lia|].
  cbn in L. rewrite tok8_cons. pose proof (no_mark_tail _ _ N) as N1.
  assert (H1 : safe (tok8 l1)) by (apply IH; [lia|exact N1]).
  destruct (c <? 128); [apply E; [exact H1|unfold emit; destruct (bad_char c); discriminate]|].
  destruct (c =? 254) eqn:E1.
  { destruct l1 as [|d l2]; [unfold safe; cbn; intuition congruence|]. destruct (d =? 255) eqn:E2; [|apply E; [exact H1|discriminate]].
    exfalso. apply (proj1 (N [] l2)). cbn [app]. apply Z.eqb_eq in E1, E2. now subst. }
  destruct (c =? 255) eqn:E3.
  { destruct l1 as [|d l2]; [unfold safe; cbn; intuition congruence|]. destruct (d =? 254) eqn:E2; [|apply E; [exact H1|discriminate]].
    exfalso. apply (proj2 (N [] l2)). cbn [app]. apply Z.eqb_eq in E3, E2. now subst. }
  assert (T2 : forall d l2, l1 = d :: l2 -> no_mark l2) by (intros d l2 ->; eapply no_mark_tail; exact N1).
  destruct (Z.land c 224 =? 192).
  { destruct l1 as [|d l2]; [unfold safe; cbn; intuition congruence|]. destruct (is_cont d); [|apply E; [exact H1|discriminate]].
    cbv zeta. apply E; [apply IH; cbn in *; [lia|eauto]|]. match goal with |- (if ?b then _ else _) <> _ => destruct b end; discriminate. }
  destruct (Z.land c 240 =? 224).
  { destruct l1 as [|d [|e l3]]; try (apply E; [exact H1|discriminate]).
    destruct (is_cont d && is_cont e); [|apply E; [exact H1|discriminate]]. cbv zeta.
    assert (H3 : safe (tok8 l3)) by (apply IH; cbn in *; [lia|eapply no_mark_tail, T2; reflexivity]).
    destruct (_ <? 2048); [apply E; [exact H3|discriminate]|]. destruct (_ =? 65279); [exact H3|apply E; [exact H3|discriminate]]. }
  destruct (Z.land c 248 =? 240).
  { destruct l1 as [|d [|e [|f l4]]]; try (apply E; [exact H1|discriminate]).
    destruct (is_cont d && is_cont e && is_cont f); [|apply E; [exact H1|discriminate]]. cbv zeta.
    apply E; [apply IH; cbn in *; [lia|eapply no_mark_tail, no_mark_tail, T2; reflexivity]|]. match goal with |- (if ?b then _ else _) <> _ => destruct b end; discriminate. }
  apply E; [exact H1|discriminate].
Qed.
Theorem load_string_safe s : no_mark s -> exists r, load_string s = r /\ r <> OverRead /\ r <> NoFuel.
Proof.
  intros H. exists (load_string s). repeat split; [|apply load_string_ends].
  apply run_parser_safe. eapply tok8_safe; eauto.
Qed.
(** An input that starts with the little-endian byte order mark. *)
Definition words (l : list (Z * Z)) : cstr := flat_map (fun p => [fst p; snd p]) l.
Lemma le_over l : Forall (fun p => 0 <= fst p < 256 /\ 1 <= snd p < 128) l -> forall f b,
  (List.length l < f)%nat -> run_parser f (mkP [] None b false) (tok16le (words l)) = OverRead.
Proof.
  induction 1 as [|(c & d) l (Hc & Hd) _ IH]; intros f b L; (destruct f as [|f]; [cbn in L; lia|]).
  - reflexivity.
  - cbn [fst snd] in *. cbn [words flat_map fst snd app tok16le]. fold (words l).
    assert (256 <= c + d * 256 <= 32767) by lia.
    replace (bad_char (c + d * 256)) with false by (unfold bad_char; lia).
    replace (is_high (c + d * 256)) with false by (unfold is_high; lia).
    cbn [run_parser step]. replace (c + d * 256 =? 60) with false by lia. replace (c + d * 256 =? 38) with false by lia.
    replace (mxml_isspace (c + d * 256)) with false by (unfold mxml_isspace; lia).
    cbn [andb orb negb stack top buf opaque rbind]. apply IH. cbn in L. lia.
Qed.
Theorem utf16le_over_reads l : Forall (fun p => 0 <= fst p < 256 /\ 1 <= snd p < 128) l ->
  load_string (255 :: 254 :: words l) = OverRead.
Proof.
  intro H. unfold load_string.
  change (tok8 (255 :: 254 :: words l)) with (tok16le (words l)).
  apply le_over; [exact H|]. induction H as [|(c & d) l (Hc & Hd) _ IH]; [cbn; lia|].
  cbn [fst snd] in *. cbn [words flat_map fst snd app tok16le List.length]. fold (words l).
  replace (bad_char (c + d * 256)) with false by (unfold bad_char; lia).
  replace (is_high (c + d * 256)) with false by (unfold is_high; lia). cbn [List.length]. lia.
Qed.

(** * The character buffers: mxml-file.c 603-625, 2106-2120 *)
(** Bytes used and allocated; the buffer starts empty with 64 bytes. *)
Definition grow (used size : Z) : Z :=
  if size - 4 <=? used then (if size <? 1024 then size * 2 else size + 1024) else size.
(** Adding one character: the new state, and whether all bytes stored lie inside the buffer. *)
Definition add_char (ch : Z) (b : Z * Z) : Z * Z * bool :=
  let size := grow (fst b) (snd b) in
  let used := fst b + Z.of_nat (List.length (utf8 ch)) in
  (used, size, (0 <=? fst b) && (used <=? size)).
(** A reader's use of one buffer: characters added ([Some]) and resets to the start ([None], bufptr = buffer). *)
Fixpoint add_chars (ops : list (option Z)) (b : Z * Z) : Z * Z * bool :=
  match ops with
  | [] => (b, true)
  | None :: l => add_chars l (0, snd b)
  | Some ch :: l => let '(b1, ok) := add_char ch b in let '(b2, ok2) := add_chars l b1 in (b2, ok && ok2)
  end.
Theorem buffer_never_overflows ops : forall used size, 0 <= used < size -> 64 <= size ->
  exists used' size', add_chars ops (used, size) = (used', size', true) /\ 0 <= used' < size'.
Proof.
  induction ops as [|[ch|] ops IH]; intros used size H S; cbn [add_chars].
  - exists used, size. auto.
  - unfold add_char. cbn [fst snd].
    assert (L : 1 <= Z.of_nat (List.length (utf8 ch)) <= 4).
    { unfold utf8. destruct (ch <? 128); [cbn; lia|]. destruct (ch <? 2048); [cbn; lia|]. destruct (ch <? 65536); cbn; lia. }
    assert (G : used + Z.of_nat (List.length (utf8 ch)) < grow used size /\ 64 <= grow used size).
    { unfold grow. destruct (size - 4 <=? used) eqn:E; [|lia]. destruct (size <? 1024); lia. }
    destruct (IH (used + Z.of_nat (List.length (utf8 ch))) (grow used size)) as (u & s & E & Hu); [lia|lia|].
    exists u, s. rewrite E. split; [|exact Hu]. f_equal. lia.
  - apply IH; cbn; lia.
Qed.
(** The entity name buffer of 64 bytes: at most 63 characters and the NUL. *)
Lemma entity_buffer e c e' : (List.length e <= 63)%nat -> ent_step e c = More e' -> (List.length e' <= 63)%nat.
Proof.
  intros H. unfold ent_step. destruct (ent_char c).
  - destruct (List.length e <? 63)%nat eqn:E; [|discriminate]. intros [= <-]. apply Nat.ltb_lt in E. rewrite app_length. cbn. lia.
  - destruct (c =? 59); discriminate.
Qed.

(** * Writing: mxmlSaveString and mxmlSaveAllocString *)
(** The memory behind ptr[0]..ptr[1], the write index and the count ptr[2]. *)
Record out := mkOut { o_mem : list Z; o_pos : nat; o_count : Z }.
Fixpoint upd (l : list Z) (i : nat) (x : Z) : list Z :=
  match l, i with
  | [], _ => []
  | _ :: l', O => x :: l'
  | y :: l', S j => y :: upd l' j x
  end.
(** 2618-2633 *)
Definition putc (o : out) (c : Z) : out :=
  if (o_pos o <? List.length (o_mem o))%nat
  then mkOut (upd (o_mem o) (o_pos o) c) (S (o_pos o)) (o_count o + 1)
  else mkOut (o_mem o) (o_pos o) (o_count o + 1).
(** 366-404, for the text [w] that mxml_write_node emits character by character. *)
Definition save_string (w : cstr) (mem : list Z) : list Z * Z :=
  let o := fold_left putc w (mkOut mem O 0) in
  (if Nat.eqb (o_pos o) (List.length mem) then upd (o_mem o) (List.length mem - 1) 0 else upd (o_mem o) (o_pos o) 0,
   i32 (o_count o)).
(** The C string stored at the start of a memory block (None: no terminator inside). *)
Fixpoint cstring (mem : list Z) : option cstr :=
  match mem with
  | [] => None
  | c :: l => if c =? 0 then Some [] else option_map (cons c) (cstring l)
  end.
(** 214-261; [mem1] is the uninitialised 8192-byte array, [mem2] the block malloc returns for the
    second pass (its length is bytes + 1). [None] outside: undefined behaviour (an unterminated string). *)
Definition save_alloc_string (w : cstr) (mem1 : list Z) (mem2 : Z -> list Z) : option (option cstr) :=
  let '(m1, bytes) := save_string w mem1 in
  if bytes <=? 0 then Some None
  else if bytes <? 8191 then option_map Some (cstring m1)
  else let '(m2, bytes2) := save_string w (mem2 (i32 (bytes + 1))) in
       if negb (bytes2 =? bytes) then Some None else option_map Some (cstring m2).

Lemma upd_app a x b y : upd (a ++ x :: b) (List.length a) y = a ++ y :: b.
Proof. induction a as [|z a IH]; cbn; [reflexivity|]. now rewrite IH. Qed.
Lemma putc_all w : forall a b n, (List.length w <= List.length b)%nat ->
  fold_left putc w (mkOut (a ++ b) (List.length a) n) = mkOut (a ++ w ++ skipn (List.length w) b) (List.length a + List.length w) (n + Z.of_nat (List.length w)).
Proof.
  induction w as [|c w IH]; intros a b n L; cbn [fold_left].
  - cbn. f_equal; lia.
  - destruct b as [|x b]; [cbn in L; lia|]. unfold putc at 2. cbn [o_pos o_mem o_count].
    replace (List.length a <? List.length (a ++ x :: b))%nat with true by (symmetry; apply Nat.ltb_lt; rewrite app_length; cbn; lia).
    rewrite upd_app. replace (a ++ c :: b) with ((a ++ [c]) ++ b) by (now rewrite <- app_assoc).
    replace (S (List.length a)) with (List.length (a ++ [c])) by (rewrite app_length; cbn; lia).
    rewrite IH by (cbn in L; lia). rewrite <- app_assoc. cbn [List.length skipn app]. f_equal; [rewrite app_length; cbn; lia|lia].
Qed.
Lemma putc_count w : forall o, o_count (fold_left putc w o) = o_count o + Z.of_nat (List.length w).
Proof.
  induction w as [|c w IH]; intro o; cbn [fold_left List.length]; [lia|]. rewrite IH. unfold putc.
  destruct (o_pos o <? List.length (o_mem o))%nat; cbn [o_count]; lia.
Qed.
Lemma cstring_app w l : ~ In 0 w -> cstring (w ++ 0 :: l) = Some w.
Proof.
  induction w as [|c w IH]; cbn; intro H; [reflexivity|]. replace (c =? 0) with false by (symmetry; apply Z.eqb_neq; intro; apply H; auto).
  rewrite IH by tauto. reflexivity.
Qed.
Lemma save_string_fits w mem : (List.length w < List.length mem)%nat -> Z.of_nat (List.length w) < 2^31 -> ~ In 0 w ->
  cstring (fst (save_string w mem)) = Some w /\ snd (save_string w mem) = Z.of_nat (List.length w).
Proof.
  intros L B N. unfold save_string. pose proof (putc_all w [] mem 0 ltac:(lia)) as E. cbn [app List.length Nat.add] in E. rewrite E.
  cbn [o_pos o_mem o_count fst snd]. replace (Nat.eqb (List.length w) (List.length mem)) with false by (symmetry; apply Nat.eqb_neq; lia).
  split.
  - destruct (skipn (List.length w) mem) as [|x l] eqn:K.
    { apply (f_equal (@List.length _)) in K. rewrite skipn_length in K. cbn in K. lia. }
    rewrite upd_app. now apply cstring_app.
  - rewrite i32_small; [lia|unfold is_i32; lia].
Qed.
Theorem save_alloc_complete w mem1 mem2 :
  Z.of_nat (List.length mem1) = 8192 -> (forall n, 0 <= n -> List.length (mem2 n) = Z.to_nat n) ->
  w <> [] -> ~ In 0 w -> Z.of_nat (List.length w) < 2^31 - 1 ->
  save_alloc_string w mem1 mem2 = Some (Some w).
Proof.
  intros L1 L2 N0 N B. unfold save_alloc_string.
  destruct (save_string w mem1) as (m1, bytes) eqn:E.
  assert (Hb : bytes = Z.of_nat (List.length w)).
  { unfold save_string in E. injection E as _ E. rewrite putc_count in E. cbn in E. rewrite i32_small in E by (unfold is_i32; lia). lia. }
  assert (0 < bytes) by (destruct w; [congruence|cbn in Hb; lia]).
  replace (bytes <=? 0) with false by lia.
  destruct (bytes <? 8191) eqn:S.
  - destruct (save_string_fits w mem1) as (A & _); [lia|lia|exact N|]. rewrite E in A. cbn in A. now rewrite A.
  - rewrite i32_small by (unfold is_i32; lia).
    destruct (save_string_fits w (mem2 (bytes + 1))) as (A & C); [rewrite L2; lia|lia|exact N|].
    destruct (save_string w (mem2 (bytes + 1))) as (m2, b2). cbn in A, C. rewrite C, Hb, Z.eqb_refl. cbn. now rewrite A.
Qed.
