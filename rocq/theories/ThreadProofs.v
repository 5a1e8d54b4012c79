(** Reference counts under every schedule in which calls on one object do not overlap. *)
From Verif Require Import CBase CBaseProofs TocModel ThreadModel SpecThread.
From Coq Require Import ZifyBool.

Notation sum f pool := (fold_right Z.add 0 (map f pool)).
Lemma sum_set (f : thread -> Z) : forall pool i t t', nth_error pool i = Some t -> sum f (set_nth i t' pool) = sum f pool + f t' - f t.
Proof.
  induction pool as [|u pool IH]; intros [|i] t t' H; cbn in H; try discriminate.
  - injection H as ->. cbn. lia.
  - cbn [set_nth map fold_right]. rewrite (IH i t t' H). lia.
Qed.
Lemma sum_nonneg (f : thread -> Z) pool : (forall t, In t pool -> 0 <= f t) -> 0 <= sum f pool.
Proof. induction pool as [|u pool IH]; intro H; cbn; [lia|]. specialize (H u (or_introl eq_refl)) as Hu. assert (0 <= sum f pool) by (apply IH; intros; apply H; now right). lia. Qed.
Lemma sum_ge (f : thread -> Z) pool i t : (forall t, In t pool -> 0 <= f t) -> nth_error pool i = Some t -> f t <= sum f pool.
Proof.
  revert i. induction pool as [|u pool IH]; intros [|i] H E; cbn in E; try discriminate.
  - injection E as ->. cbn. assert (0 <= sum f pool) by (apply sum_nonneg; intros; apply H; now right). lia.
  - cbn. assert (f t <= sum f pool) by (apply (IH i); [intros; apply H; now right|exact E]). specialize (H u (or_introl eq_refl)). lia.
Qed.
Lemma sum_le (f g : thread -> Z) pool : (forall t, In t pool -> f t <= g t) -> sum f pool <= sum g pool.
Proof. induction pool as [|u pool IH]; intro H; cbn; [lia|]. specialize (H u (or_introl eq_refl)) as Hu. assert (sum f pool <= sum g pool) by (apply IH; intros; apply H; now right). lia. Qed.
Lemma nth_set {A} : forall (pool : list A) i j t', nth_error (set_nth i t' pool) j = if Nat.eqb i j then match nth_error pool i with Some _ => Some t' | None => None end else nth_error pool j.
Proof.
  induction pool as [|u pool IH]; intros [|i] [|j] t'; cbn; try reflexivity; try (destruct (Nat.eqb _ _); reflexivity).
  apply IH.
Qed.
Lemma put_same {A} (f : nat -> A) x v : put f x v x = v.
Proof. unfold put. now rewrite Nat.eqb_refl. Qed.
Lemma put_other {A} (f : nat -> A) x y v : y <> x -> put f x v y = f y.
Proof. unfold put. intro H. now apply Nat.eqb_neq in H as ->. Qed.

(** * The invariant *)
Definition promised (t : thread) : nat -> Z := match at_ t with TakeHas x _ => put (held t) x (held t x + 1) | _ => held t end.
Definition weight (x : nat) (t : thread) : Z :=
  held t x + takes x (todo t) + match at_ t with TakeHas y _ => if Nat.eqb y x then 1 else 0 | _ => 0 end.
Definition thread_ok (t : thread) : Prop :=
  (forall x, 0 <= held t x) /\ lawful (promised t) (todo t) /\ match at_ t with TakeHas x _ => 0 < held t x | _ => True end.
Definition call_ok (h : objects) (n : nat -> Z) (t : thread) : Prop :=
  match at_ t with
  | Between => True
  | TakeHas x r => h x = Some r /\ r = n x
  | DropHas x r => h x = Some r /\ r = n x + 1
  | DropTests x => h x = Some (n x)
  | DropFrees x => h x = Some 0 /\ n x = 0
  end.
Record inv (pool : list thread) (h : objects) : Prop := mkInv {
  inv_threads : forall i t, nth_error pool i = Some t -> thread_ok t;
  inv_apart : forall i j t u x, i <> j -> nth_error pool i = Some t -> nth_error pool j = Some u -> inside t x -> ~ inside u x;
  inv_calls : forall i t, nth_error pool i = Some t -> call_ok h (references pool) t;
  inv_free : forall x, (forall i t, nth_error pool i = Some t -> ~ inside t x) -> h x = alive (references pool x);
  inv_bound : forall x, sum (weight x) pool < 2^31 }.

Lemma takes_nonneg x p : 0 <= takes x p. Proof. unfold takes. lia. Qed.
Lemma takes_take x y p : takes x (Take y :: p) = (if Nat.eqb y x then 1 else 0) + takes x p.
Proof. unfold takes. cbn [filter]. destruct (Nat.eqb y x); [cbn [List.length]; lia|lia]. Qed.
Lemma takes_drop x y p : takes x (Drop y :: p) = takes x p. Proof. reflexivity. Qed.

Lemma inv_refs pool h x : inv pool h -> 0 <= references pool x < 2^31.
Proof.
  intro I. split.
  - apply sum_nonneg. intros t H. apply In_nth_error in H. destruct H as (i & H). apply (inv_threads _ _ I i t H).
  - pose proof (inv_bound _ _ I x). assert (references pool x <= sum (weight x) pool); [|lia]. apply sum_le. intros t _. unfold weight.
    pose proof (takes_nonneg x (todo t)). destruct (at_ t); try lia. destruct (Nat.eqb x0 x); lia.
Qed.
Lemma refs_ge pool h i t x : inv pool h -> nth_error pool i = Some t -> held t x <= references pool x.
Proof. intros I H. apply (sum_ge (fun t => held t x) pool i t); [|exact H]. intros u U. apply In_nth_error in U. destruct U as (j & U). apply (inv_threads _ _ I j u U). Qed.
(** References of the others count for the object too: an access by [t] that moves it to [t'] and its
    object from [h] to [h'], touching only object [x]. *)
Lemma references_set pool i t t' x : nth_error pool i = Some t -> references (set_nth i t' pool) x = references pool x + held t' x - held t x.
Proof. intro H. apply (sum_set (fun t => held t x)); exact H. Qed.
Lemma in_range z : -2^31 <= z < 2^31 -> chk32 z = Ok z.
Proof. intro H. unfold chk32. replace (- 2^31 <=? z) with true by lia. replace (z <? 2^31) with true by lia. reflexivity. Qed.

(** The general shape of a step: only object [x] and thread [i] change. *)
Lemma step_inv pool h i t t' h' x :
  inv pool h -> nth_error pool i = Some t -> (forall j u, j <> i -> nth_error pool j = Some u -> ~ inside u x) ->
  (forall y, inside t y -> y = x) -> (forall y, inside t' y -> y = x) ->
  (forall y, y <> x -> h' y = h y) -> (forall y, y <> x -> held t' y = held t y) ->
  thread_ok t' -> call_ok h' (references (set_nth i t' pool)) t' ->
  (~ inside t' x -> h' x = alive (references (set_nth i t' pool) x)) ->
  (forall y, weight y t' <= weight y t) ->
  inv (set_nth i t' pool) h'.
Proof.
  intros I E Apart In1 In2 Hh Hheld Ok' Call' Free' W. constructor.
  - intros j u H. rewrite nth_set in H. destruct (Nat.eqb_spec i j) as [<-|N].
    + rewrite E in H. congruence.
    + exact (inv_threads _ _ I j u H).
  - intros j l u v y N H1 H2 Hu Hv. rewrite nth_set in H1, H2. destruct (Nat.eqb_spec i j) as [<-|N1]; destruct (Nat.eqb_spec i l) as [<-|N2]; try congruence.
    + rewrite E in H1. assert (u = t') by congruence. subst u. pose proof (In2 y Hu). subst y. exact (Apart l v ltac:(congruence) H2 Hv).
    + rewrite E in H2. assert (v = t') by congruence. subst v. pose proof (In2 y Hv). subst y. exact (Apart j u ltac:(congruence) H1 Hu).
    + exact (inv_apart _ _ I j l u v y N H1 H2 Hu Hv).
  - intros j u H. rewrite nth_set in H. destruct (Nat.eqb_spec i j) as [<-|N].
    + rewrite E in H. assert (u = t') by congruence. now subst u.
    + pose proof (inv_calls _ _ I j u H) as C. pose proof (Apart j u ltac:(congruence) H) as A. unfold call_ok, inside in *.
      assert (R : forall y, y <> x -> references (set_nth i t' pool) y = references pool y) by (intros y Hy; rewrite (references_set pool i t t' y E), (Hheld y Hy); lia).
      destruct (at_ u) as [|y r|y r|y|y]; [exact C|..]; rewrite (Hh y A), (R y A); exact C.
  - intros y F. destruct (Nat.eq_dec y x) as [->|N].
    + apply Free'. apply (F i t'). rewrite nth_set, Nat.eqb_refl, E. reflexivity.
    + rewrite (Hh y N), (references_set pool i t t' y E), (Hheld y N). replace (references pool y + held t y - held t y) with (references pool y) by lia.
      apply (inv_free _ _ I). intros j u H Hu. destruct (Nat.eq_dec j i) as [->|Nj].
      * rewrite E in H. assert (u = t) by congruence. subst u. apply N. now apply In1.
      * apply (F j u); [|exact Hu]. rewrite nth_set. replace (Nat.eqb i j) with false by (symmetry; apply Nat.eqb_neq; congruence). exact H.
  - intro y. rewrite (sum_set (weight y) pool i t t' E). pose proof (inv_bound _ _ I y). specialize (W y). lia.
Qed.
Lemma live_count pool h i t x : inv pool h -> nth_error pool i = Some t -> 0 < held t x -> (forall j u, nth_error pool j = Some u -> ~ inside u x) -> h x = Some (references pool x).
Proof.
  intros I E H F. rewrite (inv_free _ _ I x F). unfold alive. pose proof (refs_ge _ _ _ _ x I E). destruct (Z.eqb_spec (references pool x) 0); [lia|reflexivity].
Qed.
Lemma access_inv k pool h i t : inv pool h -> nth_error pool i = Some t ->
  (forall x j u, begins t x -> j <> i -> nth_error pool j = Some u -> ~ inside u x) ->
  exists t' h', access k t h = Ok (t', h') /\ inv (set_nth i t' pool) h'.
Proof.
  intros I E B. pose proof (inv_threads _ _ I i t E) as (T1 & T2 & T3). pose proof (inv_calls _ _ I i t E) as C.
  destruct t as [p pl hd]. unfold access. cbn [at_ todo held] in *. destruct pl as [|x r|x r|x|x].
  - destruct p as [|[x|x] p].
    + exists (mkThread [] Between hd), h. split; [reflexivity|].
      assert (Q : set_nth i (mkThread [] Between hd) pool = pool).
      { clear -E. revert i E. induction pool as [|u pool IH]; intros [|i] E; cbn in E |- *; try discriminate; [congruence|]. now rewrite (IH i E). }
      now rewrite Q.
    + assert (N : forall j u, j <> i -> nth_error pool j = Some u -> ~ inside u x) by (intros j u Hj Hu; apply (B x j u); auto; split; reflexivity).
      unfold promised in T2. cbn [at_ held lawful] in T2. destruct T2 as (P & L).
      assert (Hx : h x = Some (references pool x)).
      { apply (live_count pool h i (mkThread (Take x :: p) Between hd) x I E P). intros j u Hj Hu. destruct (Nat.eq_dec j i) as [->|Nj]; [|exact (N j u Nj Hj Hu)].
        rewrite E in Hj. assert (u = mkThread (Take x :: p) Between hd) by congruence. now subst u. }
      rewrite Hx. eexists _, _. split; [reflexivity|]. eapply (step_inv pool h i _ _ h x I E N); cbn [held]; auto; try (cbn; intros; first [contradiction|congruence]).
      * unfold thread_ok, promised. cbn [at_ held todo]. auto.
      * unfold call_ok. cbn [at_]. rewrite (references_set _ _ _ _ x E). cbn [held]. split; [exact Hx|lia].
      * intro y. unfold weight. cbn [held todo at_]. rewrite takes_take. lia.
    + assert (N : forall j u, j <> i -> nth_error pool j = Some u -> ~ inside u x) by (intros j u Hj Hu; apply (B x j u); auto; split; reflexivity).
      unfold promised in T2. cbn [at_ held lawful] in T2. destruct T2 as (P & L).
      assert (Hx : h x = Some (references pool x)).
      { apply (live_count pool h i (mkThread (Drop x :: p) Between hd) x I E P). intros j u Hj Hu. destruct (Nat.eq_dec j i) as [->|Nj]; [|exact (N j u Nj Hj Hu)].
        rewrite E in Hj. assert (u = mkThread (Drop x :: p) Between hd) by congruence. now subst u. }
      rewrite Hx. eexists _, _. split; [reflexivity|]. eapply (step_inv pool h i _ _ h x I E N); cbn [held]; auto; try (cbn; intros; first [contradiction|congruence]).
      * intros y Hy. now apply put_other.
      * unfold thread_ok, promised. cbn [at_ held todo]. split; [|auto]. intro y. destruct (Nat.eq_dec y x) as [->|Ny]; [rewrite put_same; lia|rewrite put_other by auto; apply T1].
      * unfold call_ok. cbn [at_]. rewrite (references_set _ _ _ _ x E). cbn [held]. rewrite put_same. split; [exact Hx|lia].
      * intro y. unfold weight. cbn [held todo at_]. rewrite takes_drop. destruct (Nat.eq_dec y x) as [->|Ny]; [rewrite put_same; lia|rewrite put_other by auto; lia].
  - unfold call_ok in C. cbn [at_] in C. destruct C as (Hx & ->). rewrite Hx.
    assert (N : forall j u, j <> i -> nth_error pool j = Some u -> ~ inside u x).
    { intros j u Hj Hu. apply (inv_apart _ _ I i j (mkThread p (TakeHas x (references pool x)) hd) u x); auto. reflexivity. }
    assert (R : 0 <= references pool x + 1 < 2^31).
    { pose proof (inv_refs _ _ x I). pose proof (inv_bound _ _ I x).
      assert (Q : references pool x + 1 <= sum (weight x) pool); [|lia].
      assert (Q : sum (fun u => held u x + match at_ u with TakeHas y _ => if Nat.eqb y x then 1 else 0 | _ => 0 end) pool <= sum (weight x) pool).
      { apply sum_le. intros u _. unfold weight. pose proof (takes_nonneg x (todo u)). lia. }
      assert (Q2 : references pool x + 1 <= sum (fun u => held u x + match at_ u with TakeHas y _ => if Nat.eqb y x then 1 else 0 | _ => 0 end) pool); [|lia].
      clear -E. revert i E. unfold references. generalize (fold_right Z.add 0 (map (fun t => held t x) pool)) at 1. intro z.
      induction pool as [|u pool IH]; intros [|i] E; cbn in E; try discriminate.
      - assert (u = mkThread p (TakeHas x z) hd) by congruence. subst u. cbn [map fold_right held at_]. rewrite Nat.eqb_refl.
        assert (sum (fun t => held t x) pool <= sum (fun u => held u x + match at_ u with TakeHas y _ => if Nat.eqb y x then 1 else 0 | _ => 0 end) pool).
        { apply sum_le. intros u _. destruct (at_ u); try lia. destruct (Nat.eqb x0 x); lia. } lia.
      - cbn [map fold_right]. specialize (IH i E). destruct (at_ u) as [|y ?|y ?|y|y]; try lia. destruct (Nat.eqb y x); lia. }
    rewrite in_range by lia. cbn [obind]. eexists _, _. split; [reflexivity|]. eapply (step_inv pool h i _ _ _ x I E N); cbn [held]; auto; try (cbn; intros; first [contradiction|congruence]).
    * intros y Hy. now apply put_other.
    * intros y Hy. now apply put_other.
    * unfold thread_ok, promised in *. cbn [at_ held todo] in *. split; [|auto]. intro y. destruct (Nat.eq_dec y x) as [->|Ny]; [rewrite put_same; lia|rewrite put_other by auto; apply T1].
    * exact Logic.I.
    * intros _. rewrite put_same, (references_set _ _ _ _ x E). cbn [held]. rewrite put_same. unfold alive.
      destruct (Z.eqb_spec (references pool x + (hd x + 1) - hd x) 0); [pose proof (inv_refs _ _ x I); lia|f_equal; lia].
    * intro y. unfold weight. cbn [held todo at_]. destruct (Nat.eqb_spec x y) as [->|Ny]; [rewrite put_same; lia|rewrite put_other by auto; lia].
  - unfold call_ok in C. cbn [at_] in C. destruct C as (Hx & ->). rewrite Hx.
    assert (N : forall j u, j <> i -> nth_error pool j = Some u -> ~ inside u x).
    { intros j u Hj Hu. apply (inv_apart _ _ I i j (mkThread p (DropHas x (references pool x + 1)) hd) u x); auto. reflexivity. }
    pose proof (inv_refs _ _ x I). rewrite in_range by lia. cbn [obind]. eexists _, _. split; [reflexivity|]. eapply (step_inv pool h i _ _ _ x I E N); cbn [held]; auto; try (cbn; intros; first [contradiction|congruence]).
    * intros y Hy. now apply put_other.
    * unfold thread_ok, promised in *. cbn [at_ held todo] in *. auto.
    * unfold call_ok. cbn [at_]. rewrite put_same, (references_set _ _ _ _ x E). cbn [held]. f_equal. lia.
    * intro y. unfold weight. cbn [held todo at_]. lia.
  - unfold call_ok in C. cbn [at_] in C. rewrite C.
    assert (N : forall j u, j <> i -> nth_error pool j = Some u -> ~ inside u x).
    { intros j u Hj Hu. apply (inv_apart _ _ I i j (mkThread p (DropTests x) hd) u x); auto. reflexivity. }
    pose proof (inv_refs _ _ x I). eexists _, _. split; [reflexivity|].
    assert (Rel : releases k (references pool x) = (references pool x =? 0)) by (destruct k; cbn; lia). rewrite Rel.
    eapply (step_inv pool h i _ _ _ x I E N); cbn [held]; auto; try (cbn; intros; first [contradiction|congruence]).
    * destruct (references pool x =? 0); cbn; intuition.
    * unfold thread_ok, promised in *. cbn [at_ held todo] in *. destruct (references pool x =? 0); auto.
    * destruct (Z.eqb_spec (references pool x) 0) as [Z0|]; [|exact Logic.I]. unfold call_ok. cbn [at_]. rewrite (references_set _ _ _ _ x E). cbn [held]. rewrite C, Z0. split; [reflexivity|lia].
    * intros F. rewrite (references_set _ _ _ _ x E). cbn [held]. replace (references pool x + hd x - hd x) with (references pool x) by lia.
      destruct (references pool x =? 0) eqn:Z0; [destruct F; reflexivity|]. unfold alive. rewrite Z0. exact C.
    * intro y. unfold weight. cbn [held todo at_]. destruct (references pool x =? 0); lia.
  - unfold call_ok in C. cbn [at_] in C. destruct C as (Hx & C). rewrite Hx.
    assert (N : forall j u, j <> i -> nth_error pool j = Some u -> ~ inside u x).
    { intros j u Hj Hu. apply (inv_apart _ _ I i j (mkThread p (DropFrees x) hd) u x); auto. reflexivity. }
    eexists _, _. split; [reflexivity|]. eapply (step_inv pool h i _ _ _ x I E N); cbn [held]; auto; try (cbn; intros; first [contradiction|congruence]).
    * intros y Hy. now apply put_other.
    * unfold thread_ok, promised in *. cbn [at_ held todo] in *. auto.
    * intros _. rewrite put_same, (references_set _ _ _ _ x E). cbn [held]. rewrite C. unfold alive. replace (0 + hd x - hd x =? 0) with true by lia. reflexivity.
    * intro y. unfold weight. cbn [held todo at_]. lia.
Qed.
Lemma clients_inv pool h : clients pool h -> inv pool h.
Proof.
  intros (F & H & B). rewrite Forall_forall in F. assert (G : forall i t, nth_error pool i = Some t -> at_ t = Between /\ (forall x, 0 <= held t x) /\ lawful (held t) (todo t)) by (intros i t E; apply F; eapply nth_error_In; eauto).
  constructor.
  - intros i t E. destruct (G i t E) as (G1 & G2 & G3). unfold thread_ok, promised. rewrite G1. auto.
  - intros i j t u x _ E _ In. destruct (G i t E) as (G1 & _). unfold inside in In. rewrite G1 in In. destruct In.
  - intros i t E. destruct (G i t E) as (G1 & _). unfold call_ok. now rewrite G1.
  - intros x _. apply H.
  - intro x. specialize (B x). unfold references, takes_left in B. rewrite <- Z.add_0_r in B.
    assert (Q : sum (weight x) pool = sum (fun t => held t x) pool + sum (fun t => takes x (todo t)) pool); [|lia].
    clear B H. assert (W : forall t, In t pool -> weight x t = held t x + takes x (todo t)) by (intros t T; unfold weight; destruct (F t T) as (-> & _); lia). clear F G.
    induction pool as [|u pool IH]; [reflexivity|]. cbn [map fold_right]. rewrite (W u (or_introl eq_refl)), IH; [lia|]. intros t T. apply W. now right.
Qed.
Lemma execute_inv k : forall schedule pool h, inv pool h -> one_at_a_time k schedule pool h ->
  exists pool' h', execute k schedule pool h = Ok (pool', h') /\ inv pool' h'.
Proof.
  induction schedule as [|i s IH]; intros pool h I O; [exists pool, h; auto|]. cbn [execute one_at_a_time] in *.
  destruct (nth_error pool i) as [t|] eqn:E; [|now apply IH]. destruct O as (O1 & O2).
  destruct (access_inv k pool h i t I E O1) as (t' & h' & A & I'). rewrite A in *. cbn [obind fst snd]. now apply IH.
Qed.
(** Only begun threads can be inside a call, and on an object they had to use. *)
Definition ever (t : thread) (x : nat) : Prop := uses t x \/ inside t x.
Lemma access_ever k t h t' h' : access k t h = Ok (t', h') -> forall x, ever t' x -> ever t x.
Proof.
  destruct t as [p pl hd]. unfold access. cbn [at_ todo held]. intros A x.
  assert (U : forall c q, uses (mkThread q pl hd) x -> uses (mkThread (c :: q) pl hd) x) by (intros c q [U|U]; [left|right]; right; exact U).
  destruct pl as [|y r|y r|y|y]; [destruct p as [|[y|y] p]| | | |]; try (destruct (h y) as [c|]; [|discriminate]);
    try (unfold chk32 in A; match type of A with context [if ?b then _ else _] => destruct b end; cbn [obind] in A; try discriminate);
    inversion A; subst; clear A; unfold ever, uses, inside in *; cbn [todo at_ In] in *; try tauto.
  - intros [[H|H]| ->]; [left; left; now right|left; right; now right|left; left; now left].
  - intros [[H|H]| ->]; [left; left; now right|left; right; now right|left; right; now left].
Qed.
Lemma private_one_at_a_time k : forall schedule pool h,
  (forall i j t u x, i <> j -> nth_error pool i = Some t -> nth_error pool j = Some u -> ever t x -> ~ ever u x) -> one_at_a_time k schedule pool h.
Proof.
  induction schedule as [|i s IH]; intros pool h P; [exact Logic.I|]. cbn [one_at_a_time]. destruct (nth_error pool i) as [t|] eqn:E; [|now apply IH]. split.
  - intros x j u (B1 & B2) N H Hu. apply (P i j t u x); auto; [|right; exact Hu]. left. unfold uses. destruct (todo t) as [|[y|y] p]; [destruct B2|subst y; left; now left|subst y; right; now left].
  - destruct (access k t h) as [(t' & h')|] eqn:A; [|exact Logic.I]. apply IH. intros a b u v x N Hu Hv Eu Ev. rewrite nth_set in Hu, Hv.
    pose proof (access_ever _ _ _ _ _ A x) as Q.
    destruct (Nat.eqb_spec i a) as [<-|Na]; destruct (Nat.eqb_spec i b) as [<-|Nb]; try congruence; rewrite ?E in *.
    + assert (u = t') by congruence. subst u. exact (P i b t v x N E Hv (Q Eu) Ev).
    + assert (v = t') by congruence. subst v. exact (P a i u t x N Hu E Eu (Q Ev)).
    + exact (P a b u v x N Hu Hv Eu Ev).
Qed.
Lemma locked_one_at_a_time k : forall schedule pool h, locked k schedule pool h -> one_at_a_time k schedule pool h.
Proof.
  induction schedule as [|i s IH]; intros pool h L; [exact Logic.I|]. cbn [one_at_a_time locked] in *. destruct (nth_error pool i) as [t|] eqn:E; [|now apply IH].
  destruct L as (L1 & L2). split.
  - intros x j u _ N H Hu. specialize (L1 j u N H). unfold inside in Hu. rewrite L1 in Hu. exact Hu.
  - destruct (access k t h) as [(t' & h')|]; [now apply IH|exact Logic.I].
Qed.
