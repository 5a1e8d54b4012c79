(** C56: objects and threads. *)
From Verif Require Import CBase CBaseProofs TocModel ThreadModel SpecThread ThreadProofs.
From Coq Require Import ZifyBool.

(** When calls on one object never overlap, no schedule of any threads reads, writes or releases an
    object that is gone, and every object that no thread is working on exists exactly as long as there
    is a reference to it, with the right count. *)
Theorem C56_one_at_a_time k schedule pool h :
  clients pool h -> one_at_a_time k schedule pool h ->
  exists pool' h', execute k schedule pool h = Ok (pool', h') /\
    forall x, (forall i t, nth_error pool' i = Some t -> ~ inside t x) -> h' x = alive (references pool' x).
Proof.
  intros C O. destruct (execute_inv k schedule pool h (clients_inv _ _ C) O) as (pool' & h' & E & I). exists pool', h'. split; [exact E|]. exact (inv_free _ _ I).
Qed.
Print Assumptions C56_one_at_a_time.
(** In particular with a lock around the calls ... *)
Theorem C56_locked k schedule pool h :
  clients pool h -> locked k schedule pool h ->
  exists pool' h', execute k schedule pool h = Ok (pool', h') /\
    forall x, (forall i t, nth_error pool' i = Some t -> ~ inside t x) -> h' x = alive (references pool' x).
Proof. intros C L. apply C56_one_at_a_time; [exact C|]. now apply locked_one_at_a_time. Qed.
Print Assumptions C56_locked.
(** ... and with no lock when every thread keeps to its own objects. *)
Theorem C56_private k schedule pool h :
  clients pool h -> private pool ->
  exists pool' h', execute k schedule pool h = Ok (pool', h') /\
    forall x, (forall i t, nth_error pool' i = Some t -> ~ inside t x) -> h' x = alive (references pool' x).
Proof.
  intros C P. apply C56_one_at_a_time; [exact C|]. apply private_one_at_a_time. intros i j t u x N Hi Hj Et Eu.
  assert (B : forall i t, nth_error pool i = Some t -> at_ t = Between) by (intros a v H; destruct C as (F & _); rewrite Forall_forall in F; apply F; eapply nth_error_In; eauto).
  assert (Q : forall i t, nth_error pool i = Some t -> ever t x -> uses t x) by (intros a v H [U|U]; [exact U|]; unfold inside in U; rewrite (B a v H) in U; destruct U).
  exact (P i j t u x N Hi Hj (Q i t Hi Et) (Q j u Hj Eu)).
Qed.
Print Assumptions C56_private.
(** The references a thread has are those it had, plus those taken, minus those dropped by the calls
    made so far. *)
Definition drops (x : nat) (p : list call) : Z := Z.of_nat (List.length (filter (fun c => match c with Drop y => Nat.eqb y x | Take _ => false end) p)).
Definition balance (x : nat) (t : thread) : Z :=
  held t x + takes x (todo t) - drops x (todo t) + match at_ t with TakeHas y _ => if Nat.eqb y x then 1 else 0 | _ => 0 end.
Lemma access_balance k t h t' h' x : access k t h = Ok (t', h') -> balance x t' = balance x t.
Proof.
  assert (D : forall y p, drops x (Drop y :: p) = (if Nat.eqb y x then 1 else 0) + drops x p) by (intros y p; unfold drops; cbn [filter]; destruct (Nat.eqb y x); cbn [List.length]; lia).
  assert (D' : forall y p, drops x (Take y :: p) = drops x p) by reflexivity.
  destruct t as [p pl hd]. unfold access. cbn [at_ todo held]. intro A.
  destruct pl as [|y r|y r|y|y]; [destruct p as [|[y|y] p]| | | |]; try (destruct (h y) as [c|]; [|discriminate]);
    try (unfold chk32 in A; match type of A with context [if ?b then Ok _ else UB] => destruct b end; cbn [obind] in A; try discriminate);
    try (injection A as <- <-); try (inversion A; subst; clear A); unfold balance; cbn [held todo at_]; rewrite ?takes_take, ?takes_drop, ?D, ?D'; try lia.
  - unfold put. rewrite (Nat.eqb_sym x y). destruct (Nat.eqb_spec y x) as [->|]; lia.
  - unfold put. rewrite (Nat.eqb_sym x y). destruct (Nat.eqb_spec y x) as [->|]; lia.
  - destruct (releases k c); lia.
Qed.
Lemma set_length {A} (a : A) : forall l j, List.length (set_nth j a l) = List.length l.
Proof. induction l as [|b l IH]; intros [|j]; cbn; auto. Qed.
Theorem C56_bookkeeping k : forall schedule pool h pool' h', execute k schedule pool h = Ok (pool', h') ->
  List.length pool' = List.length pool /\
  forall i t t', nth_error pool i = Some t -> at_ t = Between -> nth_error pool' i = Some t' -> at_ t' = Between ->
  forall x, held t' x + takes x (todo t') - drops x (todo t') = held t x + takes x (todo t) - drops x (todo t).
Proof.
  assert (G : forall schedule pool h pool' h', execute k schedule pool h = Ok (pool', h') -> List.length pool' = List.length pool /\
    forall i t t', nth_error pool i = Some t -> nth_error pool' i = Some t' -> forall x, balance x t' = balance x t).
  { induction schedule as [|j s IH]; intros pool h pool' h' E; cbn [execute] in E.
    - assert (pool' = pool) by congruence. subst. split; [reflexivity|]. intros. congruence.
    - destruct (nth_error pool j) as [u|] eqn:U; [|exact (IH pool h pool' h' E)]. destruct (access k u h) as [(u' & h1)|] eqn:A; [|discriminate]. cbn [obind fst snd] in E.
      destruct (IH _ _ _ _ E) as (L & B). split.
      + rewrite L. apply set_length.
      + intros i t t' H H' x. specialize (B i). rewrite nth_set in B. destruct (Nat.eqb_spec j i) as [Ej|N]; [subst i|].
        * rewrite U in B. rewrite (B u' t' eq_refl H' x). rewrite (access_balance k u h u' h1 x A). congruence.
        * exact (B t t' H H' x). }
  intros schedule pool h pool' h' E. destruct (G _ _ _ _ _ E) as (L & B). split; [exact L|]. intros i t t' H1 H2 H3 H4 x.
  specialize (B i t t' H1 H3 x). unfold balance in B. rewrite H2, H4 in B. lia.
Qed.
Print Assumptions C56_bookkeeping.
(** So when every thread has made all its calls, what is left is decided by the calls alone, not by the
    schedule. *)

(** Without a lock the statement is false for every kind of object: two threads with a reference each. *)
Definition own (n : Z) : nat -> Z := fun x => if Nat.eqb x 0 then n else 0.
Definition one_object (n : Z) : objects := fun x => if Nat.eqb x 0 then Some n else None.
Definition two (p q : list call) : list thread := [mkThread p Between (own 1); mkThread q Between (own 1)].
Lemma two_clients p q : lawful (own 1) p -> lawful (own 1) q -> takes 0 p + takes 0 q < 1000 -> (forall x, takes x p + takes x q < 2^30) -> clients (two p q) (one_object 2).
Proof.
  intros Lp Lq B1 B2. split; [|split].
  - constructor; [|constructor; [|constructor]]; cbn; (split; [reflexivity|]; split; [|assumption]); intro x; unfold own; destruct (Nat.eqb x 0); lia.
  - intro x. unfold references, two, one_object, own. cbn [map fold_right held]. destruct (Nat.eqb x 0); reflexivity.
  - intro x. unfold references, takes_left, two, own. cbn [map fold_right held todo]. specialize (B2 x). destruct (Nat.eqb x 0); lia.
Qed.
(** Both drop: an overlap that leaves the object behind for ever, and one that reads it after its release. *)
Theorem C56_leak_refuted k : exists schedule pool h pool' h',
  clients pool h /\ execute k schedule pool h = Ok (pool', h') /\ Forall (fun t => todo t = [] /\ at_ t = Between) pool' /\
  (forall x, references pool' x = 0) /\ h' 0%nat = Some 1.
Proof.
  exists [0; 1; 0; 1; 0; 1]%nat, (two [Drop 0] [Drop 0]), (one_object 2),
    (let t := mkThread [] Between (put (own 1) 0 (own 1 0%nat - 1)) in [t; t]), (put (put (one_object 2) 0 (Some 1)) 0 (Some 1)).
  split; [|split; [destruct k; reflexivity|split; [|split]]].
  - apply two_clients; cbn; unfold takes; cbn; intros; lia.
  - constructor; [split; reflexivity|]. constructor; [split; reflexivity|]. constructor.
  - intro x. unfold references. cbn [map fold_right held]. unfold put, own. destruct (Nat.eqb x 0); reflexivity.
  - reflexivity.
Qed.
Theorem C56_use_after_release_refuted k : exists schedule pool h, clients pool h /\ execute k schedule pool h = UB.
Proof.
  exists [0; 0; 1; 1; 0; 0; 1]%nat, (two [Drop 0] [Drop 0]), (one_object 2). split; [|destruct k; reflexivity].
  apply two_clients; cbn; unfold takes; cbn; intros; lia.
Qed.
(** Both take: one increment is lost, and the object is released while a thread has a reference to it. *)
Theorem C56_early_release_refuted k : exists schedule pool h pool' h',
  clients pool h /\ execute k schedule pool h = Ok (pool', h') /\ Forall (fun t => todo t = [] /\ at_ t = Between) pool' /\
  references pool' 0%nat = 1 /\ h' 0%nat = None.
Proof.
  exists ([0; 1; 0; 1] ++ repeat 0 3 ++ repeat 1 8)%nat, (two [Take 0; Drop 0] [Take 0; Drop 0; Drop 0]), (one_object 2).
  assert (Q : match execute k ([0; 1; 0; 1] ++ repeat 0 3 ++ repeat 1 8)%nat (two [Take 0; Drop 0] [Take 0; Drop 0; Drop 0]) (one_object 2) with
    | Ok ([a; b], h') => todo a = [] /\ at_ a = Between /\ todo b = [] /\ at_ b = Between /\ references [a; b] 0%nat = 1 /\ h' 0%nat = None
    | _ => False end) by (destruct k; vm_compute; repeat split; reflexivity).
  destruct (execute k _ _ _) as [([|a [|b [|c l]]] & h')|]; try (destruct Q; fail). destruct Q as (Q1 & Q2 & Q3 & Q4 & Q5 & Q6).
  exists [a; b], h'. split; [|split; [reflexivity|split; [|split; assumption]]].
  - apply two_clients; cbn; unfold takes; cbn [filter]; try lia. intro x. destruct (Nat.eqb 0 x); cbn; lia.
  - constructor; [split; assumption|]. constructor; [split; assumption|]. constructor.
Qed.
Print Assumptions C56_leak_refuted.
Print Assumptions C56_use_after_release_refuted.
Print Assumptions C56_early_release_refuted.

(** The same calls, one at a time: the object goes with the last reference. *)
Example C56_witness :
  let pool := two [Take 0; Drop 0; Drop 0] [Drop 0] in
  clients pool (one_object 2) /\ locked AtMostZero ([0; 0; 1; 1; 1] ++ repeat 0 7)%nat pool (one_object 2) /\
  match execute AtMostZero ([0; 0; 1; 1; 1] ++ repeat 0 7)%nat pool (one_object 2) with
  | Ok (p, h) => h 0%nat = None /\ references p 0%nat = 0
  | UB => False
  end.
Proof.
  cbv zeta. split; [|split].
  - apply two_clients; cbn; unfold takes; cbn [filter]; try lia. intro x. destruct (Nat.eqb 0 x); cbn; lia.
  - cbn. repeat split; intros [|[|j]] u N H; cbn in H; try congruence; try (injection H as <-; reflexivity); destruct j; discriminate.
  - vm_compute. auto.
Qed.
Example C56_private_witness : private [mkThread [Take 0; Drop 0] Between (own 1); mkThread [Drop 1] Between (fun x => if Nat.eqb x 1 then 1 else 0)].
Proof.
  intros [|[|i]] [|[|j]] t u x N Hi Hj Ut Uu; cbn in Hi, Hj; try congruence; try (destruct i; discriminate); try (destruct j; discriminate);
    injection Hi as <-; injection Hj as <-; unfold uses in *; cbn in *; intuition congruence.
Qed.
