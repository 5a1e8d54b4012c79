(** Deciding the specification of SpecRelease.v on a given list of events, and the runs of ResourceModel.v. *)
From Verif Require Import CBase XmlEntity XmlModel TocModel TocXmlModel ControlModel WsModel FileModel FileProofs WriterModel LoadModel SpecRelease ResourceModel.

Definition thing_eqb (x y : thing) : bool := match x, y with TheFile, TheFile | TheDocument, TheDocument => true | _, _ => false end.
Lemma thing_eqb_spec x y : Bool.reflect (x = y) (thing_eqb x y).
Proof. destruct x, y; constructor; congruence. Qed.
Definition upd (x : thing) (b : bool) (e : event) : bool :=
  match e with Took y => if thing_eqb x y then true else b | Gave y => if thing_eqb x y then false else b | Used _ => b end.
Definition holdsb (x : thing) (l : list event) : bool := fold_left (upd x) l false.
Lemma held_snoc x l e : held x (l ++ [e]) <-> match e with Took y => x = y \/ held x l | Gave y => x <> y /\ held x l | Used _ => held x l end.
Proof.
  assert (K : held x (l ++ [e]) <-> e = Took x \/ (e <> Gave x /\ held x l)).
  { split.
    - intros (a & b & E & N). destruct b as [|e' b] using rev_ind.
      + apply app_inj_tail in E. destruct E as (_ & ->). now left.
      + right. rewrite app_comm_cons, app_assoc in E. apply app_inj_tail in E. destruct E as (-> & ->). split.
        * intros ->. apply N, in_or_app. right. now left.
        * exists a, b. split; [reflexivity|]. intro I. apply N, in_or_app. now left.
    - intros [-> | (N & a & b & -> & M)].
      + exists l, []. split; [reflexivity|]. intros [].
      + exists a, (b ++ [e]). rewrite app_comm_cons, app_assoc. split; [reflexivity|]. rewrite in_app_iff. cbn. intuition congruence. }
  rewrite K. destruct e as [y|y|y]; split.
  - intros [E|(_ & H)]; [injection E as ->; now left|now right].
  - intros [->|H]; [now left|right; split; [discriminate|exact H]].
  - intros [E|(_ & H)]; [discriminate|exact H].
  - intro H. right. split; [discriminate|exact H].
  - intros [E|(N & H)]; [discriminate|]. split; [congruence|exact H].
  - intros (N & H). right. split; [congruence|exact H].
Qed.
Lemma holdsb_spec x l : holdsb x l = true <-> held x l.
Proof.
  induction l as [|e l IH] using rev_ind.
  - split; [discriminate|]. intros (a & b & E & _). now destruct a.
  - unfold holdsb in *. rewrite fold_left_app, held_snoc. cbn [fold_left]. destruct e as [y|y|y]; cbn [upd]; [..|].
    + destruct (thing_eqb_spec x y); [intuition|]. rewrite IH. intuition congruence.
    + exact IH.
    + destruct (thing_eqb_spec x y); [intuition congruence|]. rewrite IH. intuition.
Qed.
Definition fine (past : list event) (e : event) : bool :=
  match e with Took x => negb (holdsb x past) | Used x | Gave x => holdsb x past end.
Fixpoint orderlyb (past l : list event) : bool := match l with [] => true | e :: l' => fine past e && orderlyb (past ++ [e]) l' end.
Lemma orderlyb_spec l : orderlyb [] l = true -> orderly l.
Proof.
  intros H past e future E. revert H. cut (forall p, orderlyb p (past ++ e :: future) = true -> fine (p ++ past) e = true).
  - intros C H. rewrite E in H. specialize (C [] H). cbn [app] in C. destruct e as [x|x|x]; cbn [fine] in C.
    + intro L. apply holdsb_spec in L. rewrite L in C. discriminate.
    + now apply holdsb_spec.
    + now apply holdsb_spec.
  - clear E l. induction past as [|a past IH]; intros p H.
    + rewrite app_nil_r. cbn in H. now apply andb_prop in H.
    + cbn [app orderlyb] in H. apply andb_prop in H. destruct H as (_ & H). apply IH in H. now rewrite <- app_assoc in H.
Qed.
Lemma not_held x l : holdsb x l = false -> ~ held x l.
Proof. intros E H. apply holdsb_spec in H. congruence. Qed.

Lemma no_hold x l (P : Prop) : holdsb x l = false -> held x l -> P.
Proof. intros E H. apply holdsb_spec in H. congruence. Qed.

#[local] Opaque save_indented part_text load_bytes load_string write_file.
(** One step of a run. *)
Ltac step := match goal with
  | H : Ok _ = Ok _ |- _ => injection H as <-
  | H : UB = Ok _ |- _ => discriminate H
  | H : context [if c_ok ?c then _ else _] |- _ => destruct (c_ok c) eqn:?
  | H : context [if c_can_open ?c then _ else _] |- _ => destruct (c_can_open c) eqn:?
  | H : context [if snd (c_saved ?c) then _ else _] |- _ => destruct (snd (c_saved c)) eqn:?
  | H : context [obind (save_indented ?a ?b ?d ?e) _] |- _ => destruct (save_indented a b d e) as [[?|]|] eqn:?
  | H : context [obind (part_text ?a ?b ?d) _] |- _ => destruct (part_text a b d) eqn:?
  | H : context [match c_disk ?c ?n with _ => _ end] |- _ => destruct (c_disk c n) eqn:?
  | H : context [parsed (load_bytes ?s)] |- _ => destruct (load_bytes s) as [[?|]| | |] eqn:?
  | H : context [parsed (load_string ?s)] |- _ => destruct (load_string s) as [[?|]| | |] eqn:?
  | H : context [if snd (c_into ?c ?o ?t) then _ else _] |- _ => destruct (snd (c_into c o t)) eqn:?
  end; cbn in *.
Ltac settle := try discriminate; split; [apply orderlyb_spec; reflexivity|split; [apply not_held; reflexivity|]].
Ltac answer := first [split; [apply no_hold; reflexivity|intuition (congruence || eauto)] | split; [intuition (congruence || eauto)|intros _; apply holdsb_spec; reflexivity]].

Section Bodies.
Context {A : Type} (c : call A).
Definition tidy (fin : state A) (left_over : Prop) : Prop :=
  orderly (s_events fin) /\ ~ held TheFile (s_events fin) /\ (held TheDocument (s_events fin) <-> left_over).
Lemma tree_first_tidy fin : exec_all false c tree_first (start c) = Ok fin -> tidy fin (c_ok c = true /\ c_can_open c = false).
Proof. intro H. unfold tree_first in H. cbn in H. repeat step; settle; answer. Qed.
Lemma saved_first_tidy fin : exec_all false c saved_first (start c) = Ok fin -> tidy fin (c_ok c = true /\ c_can_open c = false /\ snd (c_saved c) = true).
Proof. intro H. unfold saved_first in H. cbn in H. repeat step; settle; answer. Qed.
Lemma file_first_tidy fin : exec_all false c file_first (start c) = Ok fin -> tidy fin False.
Proof. intro H. unfold file_first in H. cbn in H. repeat step; settle; answer. Qed.
Lemma fsource_tidy fin : run_save_file KFsource c = Ok fin -> tidy fin False.
Proof. intro H. unfold run_save_file in H. cbn in H. repeat step; settle; answer. Qed.
Lemma whole_tidy p fin : exec_all false c (whole_of p) (start c) = Ok fin -> tidy fin False.
Proof. intro H. unfold whole_of in H. cbn in H. repeat step; settle; answer. Qed.
Lemma loose_tidy fin : exec_all false c [Check; NewDocument; SaveXml []; SaveString Whole; Do Delete] (start c) = Ok fin -> tidy fin (c_ok c = true /\ snd (c_saved c) = false).
Proof. intro H. cbn in H. repeat step; settle; answer. Qed.
Lemma load_file_tidy k fin : run_load_file k c = Ok fin -> tidy fin False.
Proof. intro H. unfold run_load_file, load_file_body in H. cbn in H. repeat step; settle; answer. Qed.
Lemma load_string_tidy fin : exec_all true c [Check; LoadString; LoadXmlOr []; Do Delete] (start c) = Ok fin ->
  tidy fin (c_ok c = true /\ exists t, load_string (c_text c) = Ret (Some t) /\ snd (c_into c (c_object c) t) = false).
Proof. intro H. cbn in H. repeat step; settle; answer; match goal with H : exists _, _ |- _ => destruct H as (t & E & E'); congruence end. Qed.
Lemma load_format_tidy fin : run_load_string KFormat c = Ok fin -> tidy fin False.
Proof. intro H. unfold run_load_string in H. cbn in H. repeat step; settle; answer. Qed.
End Bodies.
