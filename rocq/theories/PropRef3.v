(** C47, continued: the tags of a metadata source. *)
From Verif Require Import CBase RefModel SpecRef RefProofs PropRef CloneModel PropRef2.

Lemma alive_more b b' : (forall x e, entry_of b x = Some e -> exists e', entry_of b' x = Some e' /\ (e_held e <= e_held e')%nat /\ incl (List.concat (e_fields e)) (List.concat (e_fields e'))) ->
  forall x, alive b x -> alive b' x.
Proof.
  intros H x. induction 1 as [x Hx|p e x _ IH Ep Ix].
  - apply alive_held. unfold held in *. destruct (entry_of b x) as [e|] eqn:E; [|lia]. destruct (H x e E) as (e' & E' & L & _). rewrite E'. lia.
  - destruct (H p e Ep) as (e' & E' & _ & I). apply (alive_stored b' p e'); auto.
Qed.
Fixpoint piece_calls (c a n : nat) : list call :=
  match n with O => [] | S n => Create KString [] :: Append KMsource a 0 c :: piece_calls (S c) a n end.
Lemma piece_calls_len n : forall c a, List.length (piece_calls c a n) = (2 * n)%nat.
Proof. induction n as [|n IH]; intros; cbn [piece_calls List.length]; [reflexivity|]. rewrite IH. lia. Qed.
Lemma add_pieces_calls n : forall h a, add_pieces h a n = exec_all h (piece_calls (List.length h) a n).
Proof.
  induction n as [|n IH]; intros h a; [reflexivity|]. cbn [add_pieces piece_calls exec_all exec obind].
  destruct (fetch (h ++ [Some (mkObject KString 1 [])]) a) as [o|]; [|reflexivity]. cbn [obind]. rewrite IH. now rewrite store_len, app_length, Nat.add_1_r.
Qed.
Lemma pieces_ok n : forall b a t rest r, alive b a -> entry_of b a = Some (mkEntry KMsource (t :: rest) r) ->
  exists b', history b (piece_calls (List.length b) a n) b' /\ List.length b' = (List.length b + n)%nat /\
    entry_of b' a = Some (mkEntry KMsource ((t ++ seq (List.length b) n) :: rest) r) /\
    (forall x, (List.length b <= x < List.length b + n)%nat -> entry_of b' x = Some (mkEntry KString [] 0)) /\
    (forall x, (x < List.length b)%nat -> x <> a -> entry_of b' x = entry_of b x).
Proof.
  induction n as [|n IH]; intros b a t rest r Av Ea.
  - exists b. cbn [piece_calls seq]. rewrite app_nil_r, Nat.add_0_r. split; [constructor|]. split; [reflexivity|]. split; [exact Ea|]. split; [lia|auto].
  - set (c := List.length b). pose proof (entry_lt _ _ _ Ea) as La. fold c in La.
    assert (Gb : forall x, entry_of (give b []) x = entry_of b x). { intro x. rewrite entry_give. unfold stored. cbn. destruct (entry_of b x) as [e|]; [|reflexivity]. cbn. f_equal. destruct e. unfold add_held. cbn. f_equal. lia. }
    set (b1 := give b [] ++ [mkEntry KString [] 1]).
    assert (E1 : forall x, (x < c)%nat -> entry_of b1 x = entry_of b x). { intros x L. unfold b1, entry_of. rewrite nth_error_app1 by (rewrite give_len; exact L). apply Gb. }
    assert (Ec : entry_of b1 c = Some (mkEntry KString [] 1)). { unfold b1, entry_of. rewrite nth_error_app2 by (rewrite give_len; apply Nat.le_refl). now rewrite give_len, Nat.sub_diag. }
    assert (L1 : List.length b1 = S c) by (unfold b1; rewrite app_length, give_len; cbn; fold c; lia).
    assert (A1 : alive b1 a). { apply (alive_more b); [|exact Av]. intros x e E. pose proof (entry_lt _ _ _ E). exists e. rewrite E1 by assumption. split; [exact E|]. split; [lia|apply incl_refl]. }
    set (b2 := change (change b1 c (add_held (-1))) a (fun e => mkEntry (e_kind e) (append_field (e_fields e) 0 c) (e_held e))).
    assert (L2 : List.length b2 = S c) by (unfold b2; now rewrite !change_len).
    assert (E2 : forall x, x <> a -> x <> c -> entry_of b2 x = entry_of b1 x). { intros x N1 N2. unfold b2. rewrite !entry_change. apply Nat.eqb_neq in N1, N2. now rewrite N1, N2. }
    assert (Ea2 : entry_of b2 a = Some (mkEntry KMsource ((t ++ [c]) :: rest) r)). { unfold b2. rewrite !entry_change, Nat.eqb_refl. destruct (Nat.eqb_spec a c); [lia|]. rewrite E1 by exact La. now rewrite Ea. }
    assert (Ec2 : entry_of b2 c = Some (mkEntry KString [] 0)). { unfold b2. rewrite !entry_change, Nat.eqb_refl. destruct (Nat.eqb_spec c a); [lia|]. now rewrite Ec. }
    assert (A2 : alive b2 a).
    { apply (alive_more b); [|exact Av]. intros x e E. pose proof (entry_lt _ _ _ E) as Lx. fold c in Lx. destruct (Nat.eq_dec x a) as [->|N].
      - rewrite Ea in E. injection E as <-. eexists. split; [exact Ea2|]. split; [cbn; lia|]. cbn. intros y I. rewrite <- app_assoc. apply in_app_or in I. destruct I; apply in_or_app; [now left|right; now right].
      - exists e. rewrite E2, E1 by lia. split; [exact E|]. split; [lia|apply incl_refl]. }
    destruct (IH b2 a (t ++ [c]) rest r A2 Ea2) as (b' & H & L & E & F & O). rewrite L2 in *. exists b'. split; [|split; [lia|split; [|split]]].
    + cbn [piece_calls]. apply (history_cons b (Create KString []) b1); [apply allowed_create; [constructor|intro; cbn; lia]|].
      apply (history_cons b1 _ b2); [|exact H]. apply (allowed_append b1 KMsource KString a 0 c); [exact A1| |reflexivity|now exists (mkEntry KString [] 1)|unfold held; rewrite Ec; cbn; lia].
      exists (mkEntry KMsource (t :: rest) r). split; [rewrite E1 by exact La; exact Ea|reflexivity].
    + rewrite E. cbn [seq]. fold c. now rewrite <- app_assoc.
    + intros x Lx. fold c in Lx. destruct (Nat.eq_dec x c) as [->|N]; [|apply F; lia]. rewrite O by lia. exact Ec2.
    + intros x Lx N. fold c in Lx. rewrite O, E2, E1 by lia. reflexivity.
Qed.
(** Tags given to a source replace those it held: the old ones are released, one new string per tag is
    made, which only the source refers to, and nothing else changes. The text given must be alive
    without the old tags. *)
Theorem C47_set_tags l b h a s n e : history [] l b -> Z.of_nat (List.length l) + 2 * Z.of_nat n < 2^31 - 2 -> exec_all [] l = Ok h ->
  alive b a -> entry_of b a = Some e -> e_kind e = KMsource -> kind_is b s KString -> alive (emptied b a 0) s ->
  exists h' l' b', set_tags h a (Some s) (Some n) = Ok h' /\ history b l' b' /\ exec_all h l' = Ok h' /\
    entry_of b' a = Some (mkEntry KMsource (seq (List.length b) n :: tl (e_fields e)) (e_held e)) /\
    List.length b' = (List.length b + n)%nat /\
    (forall x, (List.length b <= x < List.length b + n)%nat -> entry_of b' x = Some (mkEntry KString [] 0)) /\
    (forall x, (x < List.length b)%nat -> x <> a -> entry_of b' x = entry_of b x).
Proof.
  intros H B E Av Ea Kk Ks As. destruct (history_ok l [] [] 1 b agree_empty ltac:(lia) ltac:(lia) H) as (h0 & E0 & A). rewrite E in E0. injection E0 as <-.
  assert (Ka : kind_is b a KMsource) by (now exists e). pose proof (proj1 (agree_live _ _ _ A a) Av) as Fa. destruct (fetch h a) as [o|] eqn:F; [|congruence].
  assert (Fi : exists t, e_fields e = t :: tl (e_fields e)).
  { destruct (ag_entry _ _ _ A _ _ F) as (e0 & Ee0 & Kd0 & Ff0). rewrite Ea in Ee0. injection Ee0 as <-. pose proof (fields_len h o [] (inv_types _ _ _ (ag_inv _ _ _ A) a o (no_dead a) F)) as L. rewrite <- Ff0, <- Kd0, Kk in L. destruct (e_fields e) as [|t r]; [discriminate|]. now exists t. }
  destruct Fi as (t & Fi).
  destruct (clear_ok b h _ KMsource KString a 0 A (ex_intro _ o F) Ka eq_refl) as (h1 & E1 & A1). fold (emptied b a 0) in A1. set (b1 := emptied b a 0) in *.
  assert (L1 : List.length b1 = List.length b) by apply change_len.
  assert (Ea1 : entry_of b1 a = Some (mkEntry KMsource ([] :: tl (e_fields e)) (e_held e))). { unfold b1, emptied. rewrite entry_change, Nat.eqb_refl, Ea. cbn. rewrite Kk, Fi. reflexivity. }
  assert (Ke1 : forall x, x <> a -> entry_of b1 x = entry_of b x). { intros x N. unfold b1, emptied. rewrite entry_change. apply Nat.eqb_neq in N. now rewrite N. }
  assert (Av1 : alive b1 a) by (apply (above b h _ a o 0 A F a Av o F); lia).
  pose proof (proj1 (agree_live _ _ _ A1 s) As) as Fs. destruct (fetch h1 s) as [os|] eqn:Fos; [|congruence].
  destruct (pieces_ok n b1 a [] (tl (e_fields e)) (e_held e) Av1 Ea1) as (b' & Hp & L' & Ea' & Fr & Ol). rewrite L1 in *.
  destruct (history_ok (piece_calls (List.length b) a n) b1 h1 _ b' A1 ltac:(lia) ltac:(rewrite piece_calls_len; lia) Hp) as (h' & Ex & _).
  exists h', (Clear KMsource KString a 0 :: piece_calls (List.length b) a n), b'. split; [|split; [|split; [|split; [exact Ea'|split; [exact L'|split; [exact Fr|]]]]]].
  - unfold set_tags. assert (Fs0 : fetch h s <> None).
    { apply (agree_live _ _ _ A). apply (alive_more b1); [|exact As]. intros x y Ey. destruct (Nat.eq_dec x a) as [->|N].
      - rewrite Ea1 in Ey. injection Ey as <-. exists e. split; [exact Ea|]. split; [apply Nat.le_refl|]. rewrite Fi at 2. cbn. intros z Iz. apply in_or_app. now right.
      - exists y. rewrite <- Ke1 by exact N. split; [exact Ey|]. split; [apply Nat.le_refl|apply incl_refl]. }
    destruct (fetch h s) as [o0|]; [|congruence]. rewrite E1. cbn [obind]. rewrite Fos, add_pieces_calls. rewrite (ag_len _ _ _ A1), L1. exact Ex.
  - apply (history_cons b _ b1); [now constructor|exact Hp].
  - cbn [exec_all]. rewrite E1. exact Ex.
  - intros x Lx N. rewrite Ol by assumption. now apply Ke1.
Qed.
Print Assumptions C47_set_tags.
(** No text, or an empty one, leaves everything as it is: the tags cannot be removed. *)
Theorem C47_set_no_tags h a s o n : fetch h s = Some o -> set_tags h a None n = Ok h /\ set_tags h a (Some s) None = Ok h.
Proof. intro F. split; [reflexivity|]. unfold set_tags. now rewrite F. Qed.
Print Assumptions C47_set_no_tags.
(** A text that is not, such as a tag of the source itself, is released before it is read. *)
Theorem C47_set_own_tag l b h a s n e : history [] l b -> Z.of_nat (List.length l) < 2^31 - 3 -> exec_all [] l = Ok h ->
  alive b a -> entry_of b a = Some e -> e_kind e = KMsource -> ~ alive (emptied b a 0) s ->
  set_tags h a (Some s) (Some n) = UB.
Proof.
  intros H B E Av Ea Kk Na. destruct (history_ok l [] [] 1 b agree_empty ltac:(lia) ltac:(lia) H) as (h0 & E0 & A). rewrite E in E0. injection E0 as <-.
  assert (Ka : kind_is b a KMsource) by (now exists e). pose proof (proj1 (agree_live _ _ _ A a) Av) as Fa. destruct (fetch h a) as [o|] eqn:F; [|congruence].
  destruct (clear_ok b h _ KMsource KString a 0 A (ex_intro _ o F) Ka eq_refl) as (h1 & E1 & A1). fold (emptied b a 0) in A1.
  unfold set_tags. destruct (fetch h s); [|reflexivity]. rewrite E1. cbn [obind]. destruct (fetch h1 s) eqn:Q; [|reflexivity]. exfalso. apply Na. apply (agree_live _ _ _ A1). congruence.
Qed.
Print Assumptions C47_set_own_tag.
(** A source with one tag and a text of the client: another text replaces the tag, the tag itself must
    not be given. *)
Definition tagged_calls : list call := [Create KString []; Create KMsource [[0%nat]; []; []]; Create KString []].
Definition tagged_books : books := [mkEntry KString [] 0; mkEntry KMsource [[0%nat]; []; []] 1; mkEntry KString [] 1].
Definition tagged : heap := [Some (mkObject KString 1 []); Some (mkObject KMsource 1 [[0%nat]; []; []]); Some (mkObject KString 1 [])].
Lemma tagged_history : history [] tagged_calls tagged_books.
Proof.
  unfold tagged_calls. econstructor; [apply (allowed_create [] KString []); [constructor|intro a; cbn; lia]|]. cbn.
  econstructor; [apply (allowed_create [mkEntry KString [] 1] KMsource [[0%nat]; []; []])|].
  - constructor; [intros a [<-|[]]; now exists (mkEntry KString [] 1)|]. constructor; [easy|constructor; [easy|constructor]].
  - intros [|a]; [cbn; lia|]. unfold stored. cbn. lia.
  - cbn. econstructor; [apply (allowed_create _ KString []); [constructor|intro a; cbn; lia]|]. cbn. constructor.
Qed.
Theorem C47_set_own_tag_refuted : exists l b h a s, history [] l b /\ exec_all [] l = Ok h /\ alive b a /\ kind_is b a KMsource /\ kind_is b s KString /\ alive b s /\
  forall n, set_tags h a (Some s) (Some n) = UB.
Proof.
  exists tagged_calls, tagged_books, tagged, 1%nat, 0%nat. split; [exact tagged_history|]. split; [reflexivity|].
  assert (A1 : alive tagged_books 1) by (apply alive_held; cbn; lia). split; [exact A1|]. split; [now exists (mkEntry KMsource [[0%nat]; []; []] 1)|]. split; [now exists (mkEntry KString [] 0)|].
  split; [|intro n; reflexivity]. apply (alive_stored _ 1 (mkEntry KMsource [[0%nat]; []; []] 1) 0 A1 eq_refl). now left.
Qed.
Print Assumptions C47_set_own_tag_refuted.
Example C47_set_tags_witness : history [] tagged_calls tagged_books /\ exec_all [] tagged_calls = Ok tagged /\ alive tagged_books 1 /\
  kind_is tagged_books 2 KString /\ alive (emptied tagged_books 1 0) 2 /\
  set_tags tagged 1 (Some 2%nat) (Some 2%nat) =
    Ok [None; Some (mkObject KMsource 1 [[3%nat; 4%nat]; []; []]); Some (mkObject KString 1 []); Some (mkObject KString 1 []); Some (mkObject KString 1 [])].
Proof.
  split; [exact tagged_history|]. split; [reflexivity|]. split; [apply alive_held; cbn; lia|]. split; [now exists (mkEntry KString [] 1)|]. split; [apply alive_held; cbn; lia|reflexivity].
Qed.
