(** Trimming (src/xmlutils.c 80-156). *)
From Verif Require Import CBase CBaseProofs XmlEntity XmlModel SpecXml.

(** Neither the first nor the last character is a blank. *)
Definition bare (s : cstr) : Prop :=
  (forall c l, s = c :: l -> ~ (c = 10 \/ c = 13 \/ c = 32)) /\ (forall c l, s = l ++ [c] -> ~ (c = 10 \/ c = 13 \/ c = 32)).
Lemma is_trim_true c : is_trim c = true <-> c = 10 \/ c = 13 \/ c = 32.
Proof. unfold is_trim. lia. Qed.
Lemma trim_start_split s : exists p r, s = p ++ r /\ blank p /\ List.length p = trim_start s /\ (forall c l, r = c :: l -> is_trim c = false).
Proof.
  induction s as [|c s (p & r & E & B & L & H)]; cbn.
  - exists [], []. repeat split; [constructor|discriminate].
  - destruct (is_trim c) eqn:T.
    + exists (c :: p), r. subst. repeat split; cbn; auto. constructor; [now apply is_trim_true|assumption].
    + exists [], (c :: s). repeat split; [constructor|]. intros ? ? [= <- <-]. exact T.
Qed.
Lemma trim_end_split r : forall start, (start <= List.length r)%nat ->
  exists q m, r = q ++ m /\ blank q /\ trim_end r start (List.length r) = List.length m /\ (start <= List.length m)%nat /\
    (forall c l, m = c :: l -> (start < List.length m)%nat -> is_trim c = false).
Proof.
  induction r as [|c r IH]; intros start L.
  - exists [], []. repeat split; [constructor|cbn in *; lia|discriminate].
  - cbn [trim_end List.length pred].
    destruct (is_trim c && (start <? S (List.length r))%nat) eqn:T.
    + apply andb_true_iff in T as (T & T2). apply Nat.ltb_lt in T2. destruct (IH start) as (q & m & E & B & F & S1 & H); [lia|].
      exists (c :: q), m. split; [now subst r|]. split; [constructor; [now apply is_trim_true|assumption]|]. repeat split; auto.
    + exists [], (c :: r). repeat split; [constructor|cbn in *; lia|]. intros ? ? [= <- <-] Hl.
      apply andb_false_iff in T as [T|T]; [exact T|]. apply Nat.ltb_ge in T. cbn in Hl. lia.
Qed.
Lemma trim_start_le s : (trim_start s <= List.length s)%nat.
Proof. induction s as [|c s IH]; cbn; [lia|]. destruct (is_trim c); lia. Qed.
Theorem string_trim_spec s : exists p q, blank p /\ blank q /\ s = p ++ string_trim s ++ q /\ bare (string_trim s).
Proof.
  destruct s as [|c0 s0]. { exists [], []. repeat split; try constructor; intros c l E; [discriminate|destruct l; discriminate]. }
  set (s := c0 :: s0). unfold string_trim. fold s.
  replace (match s with [] => [] | _ :: _ => string_cut s (trim_start s) (trim_end (rev s) (trim_start s) (List.length s)) end)
    with (string_cut s (trim_start s) (trim_end (rev s) (trim_start s) (List.length s))) by reflexivity.
  destruct (trim_start_split s) as (p & r & E & B & L & H).
  pose proof (trim_start_le s) as LS.
  destruct (trim_end_split (rev s) (trim_start s)) as (q & m & E2 & B2 & F & S1 & H2); [rewrite rev_length; exact LS|].
  rewrite rev_length in F. rewrite F.
  assert (Es : s = rev m ++ rev q) by (rewrite <- rev_app_distr, <- E2, rev_involutive; reflexivity).
  assert (Lm : (List.length m <= List.length s)%nat) by (rewrite Es, app_length, !rev_length; lia).
  assert (Bq : blank (rev q)) by (apply Forall_rev; exact B2).
  (* rev m = p ++ mid *)
  assert (exists mid, rev m = p ++ mid) as (mid & Em).
  { exists (skipn (List.length p) (rev m)).
    rewrite <- (firstn_skipn (List.length p) (rev m)) at 1. f_equal.
    transitivity (firstn (List.length p) s).
    - rewrite Es, firstn_app, rev_length. replace (List.length p - List.length m)%nat with O by lia. cbn. now rewrite app_nil_r.
    - rewrite E, firstn_app, Nat.sub_diag. cbn. rewrite firstn_all, app_nil_r. reflexivity. }
  assert (Er : r = mid ++ rev q) by (rewrite Es, Em, <- app_assoc in E; now apply app_inv_head in E).
  assert (Lmm : List.length m = (List.length p + List.length mid)%nat) by (rewrite <- (rev_length m), Em, app_length; reflexivity).
  assert (C : string_cut s (trim_start s) (List.length m) = mid).
  { unfold string_cut. rewrite <- L. replace (List.length m <? List.length p)%nat with false by (symmetry; apply Nat.ltb_ge; lia).
    destruct (List.length p =? List.length m)%nat eqn:Q.
    - apply Nat.eqb_eq in Q. destruct mid; [reflexivity|cbn in Lmm; lia].
    - apply Nat.eqb_neq in Q.
      replace ((List.length s <=? List.length p)%nat || (List.length s <? List.length m)%nat) with false.
      2:{ symmetry. apply orb_false_iff. split; [apply Nat.leb_gt; lia|apply Nat.ltb_ge; lia]. }
      rewrite E, skipn_app, skipn_all, Nat.sub_diag. cbn [app skipn].
      rewrite Er, firstn_app. replace (List.length m - List.length p)%nat with (List.length mid) by lia.
      rewrite firstn_all, Nat.sub_diag. cbn. now rewrite app_nil_r. }
  rewrite C. exists p, (rev q). repeat split; auto.
  - rewrite Es, Em, app_assoc. reflexivity.
  - intros c l K. rewrite Er, K in H. specialize (H c (l ++ rev q) eq_refl). intro X. apply is_trim_true in X. congruence.
  - intros c l K. intro X. apply is_trim_true in X. clear C. subst mid.
    specialize (H2 c (rev l ++ rev p)). rewrite H2 in X; [discriminate| |].
    + rewrite <- (rev_involutive m), Em, !rev_app_distr. reflexivity.
    + rewrite Lmm, L, app_length. cbn. lia.
Qed.
Lemma bare_unique a : forall p q p' q' b, blank p -> blank p' -> blank q -> blank q' -> bare a -> bare b ->
  p ++ a ++ q = p' ++ b ++ q' -> a = b.
Proof.
  intros p. revert a. 
  assert (Hd : forall p p' a b, blank p -> blank p' ->
    (forall c l, a = c :: l -> ~ (c = 10 \/ c = 13 \/ c = 32)) -> (forall c l, b = c :: l -> ~ (c = 10 \/ c = 13 \/ c = 32)) ->
    p ++ a = p' ++ b -> a = b \/ False).
  { clear. induction p as [|x p IH]; intros [|y p'] a b Bp Bp' Ha Hb E; cbn in E.
    - now left.
    - exfalso. apply (Ha y (p' ++ b) E). now inversion Bp'.
    - exfalso. apply (Hb x (p ++ a) (eq_sym E)). now inversion Bp.
    - injection E as -> E. inversion Bp; inversion Bp'; subst. now apply (IH p'). }
  intros a q p' q' b Bp Bp' Bq Bq' (A1 & A2) (B1 & B2) E.
  destruct a as [|x a]; destruct b as [|y b]; [reflexivity| | |].
  - exfalso. cbn in E. rewrite app_comm_cons in E.
    assert (F : blank (p ++ q)) by (apply Forall_app; auto). rewrite E in F.
    apply Forall_app in F as (_ & F). apply Forall_app in F as (F & _). inversion F; subst. now apply (B1 y b eq_refl).
  - exfalso. cbn in E. rewrite app_comm_cons in E.
    assert (F : blank (p' ++ q')) by (apply Forall_app; auto). rewrite <- E in F.
    apply Forall_app in F as (_ & F). apply Forall_app in F as (F & _). inversion F; subst. now apply (A1 x a eq_refl).
  - destruct (Hd p p' ((x :: a) ++ q) ((y :: b) ++ q') Bp Bp') as [E1|[]]; [| |exact E|].
    { cbn. intros c l [= <- _]. now apply (A1 x a). } { cbn. intros c l [= <- _]. now apply (B1 y b). }
    clear E. apply (f_equal (@rev Z)) in E1. rewrite !(rev_app_distr (_ :: _)) in E1.
    destruct (Hd (rev q) (rev q') (rev (x :: a)) (rev (y :: b))) as [E|[]].
    + now apply Forall_rev. + now apply Forall_rev.
    + intros c l K. apply (A2 c (rev l)). rewrite <- (rev_involutive (x :: a)), K. reflexivity.
    + intros c l K. apply (B2 c (rev l)). rewrite <- (rev_involutive (y :: b)), K. reflexivity.
    + exact E1.
    + apply (f_equal (@rev Z)) in E. now rewrite !rev_involutive in E.
Qed.
Lemma trim_blanks w1 s w2 : blank w1 -> blank w2 -> string_trim (w1 ++ s ++ w2) = string_trim s.
Proof.
  intros B1 B2. destruct (string_trim_spec s) as (p & q & Bp & Bq & E & A).
  destruct (string_trim_spec (w1 ++ s ++ w2)) as (p' & q' & Bp' & Bq' & E' & A').
  symmetry. apply (bare_unique _ (w1 ++ p) (q ++ w2) p' q'); auto; try (apply Forall_app; auto).
  rewrite <- E'. rewrite E at 2. now rewrite <- !app_assoc.
Qed.
Lemma trim_bare s : bare s -> string_trim s = s.
Proof.
  intro A. destruct (string_trim_spec s) as (p & q & Bp & Bq & E & A').
  apply (bare_unique _ p q [] []); auto; try constructor. rewrite <- E. cbn. now rewrite app_nil_r.
Qed.
Lemma trim_trim s : string_trim (string_trim s) = string_trim s.
Proof. apply trim_bare. destruct (string_trim_spec s) as (? & ? & _ & _ & _ & A). exact A. Qed.
