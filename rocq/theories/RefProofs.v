(** Invariant of the reference counts. *)
From Verif Require Import CBase RefModel SpecRef.

Lemma fetch_store h a x b : (a < List.length h)%nat -> fetch (store h a x) b = if (b =? a)%nat then x else fetch h b.
Proof.
  unfold fetch. revert a b. induction h as [|y h IH]; intros a b L; [cbn in L; lia|]. destruct a as [|a].
  - destruct b as [|b]; cbn; [now destruct x|reflexivity].
  - destruct b as [|b]; cbn [store nth_error Nat.eqb]; [reflexivity|]. apply IH. cbn in L. lia.
Qed.
Lemma store_len h a x : List.length (store h a x) = List.length h.
Proof. revert a. induction h as [|y h IH]; intros [|a]; cbn; [reflexivity..|]. now rewrite IH. Qed.
Lemma fetch_lt h a o : fetch h a = Some o -> (a < List.length h)%nat.
Proof. unfold fetch. destruct (nth_error h a) as [[x|]|] eqn:E; try discriminate. intros _. apply nth_error_Some. congruence. Qed.
Lemma fetch_app h x a : fetch (h ++ [x]) a = if (a =? List.length h)%nat then x else fetch h a.
Proof.
  unfold fetch. destruct (Nat.eqb_spec a (List.length h)) as [->|N].
  - rewrite nth_error_app2 by lia. rewrite Nat.sub_diag. cbn. now destruct x.
  - destruct (Nat.lt_ge_cases a (List.length h)); [now rewrite nth_error_app1|]. rewrite nth_error_app2 by lia.
    destruct (a - List.length h)%nat eqn:E; [lia|]. cbn. assert (X : nth_error h a = None) by (apply nth_error_None; lia). rewrite X. now destruct n.
Qed.

(** sums over the heap *)
Definition sum (f : nat -> nat) (n : nat) : nat := fold_right (fun i s => (f i + s)%nat) 0%nat (seq 0 n).
Lemma sum_seq_ext (f g : nat -> nat) l : (forall i, In i l -> f i = g i) -> fold_right (fun i s => (f i + s)%nat) 0%nat l = fold_right (fun i s => (g i + s)%nat) 0%nat l.
Proof. induction l as [|x l IH]; intro H; [reflexivity|]. cbn. rewrite (H x) by now left. rewrite IH; [reflexivity|]. intros. apply H. now right. Qed.
Lemma sum_ext f g n : (forall i, (i < n)%nat -> f i = g i) -> sum f n = sum g n.
Proof. intro H. apply sum_seq_ext. intros i I. apply in_seq in I. apply H. lia. Qed.
Lemma sum_change f g n p : (p < n)%nat -> (forall i, i <> p -> f i = g i) -> (sum f n + g p = sum g n + f p)%nat.
Proof.
  intros L H. unfold sum. assert (I : In p (seq 0 n)) by (apply in_seq; lia). assert (D := seq_NoDup n 0). revert I D. generalize (seq 0 n) as l. induction l as [|x l IH]; [easy|].
  intros I D. inversion D as [|? ? N D']; subst. cbn [fold_right]. destruct I as [->|I].
  - rewrite (sum_seq_ext f g l); [lia|]. intros i Ii. apply H. intros ->. contradiction.
  - specialize (IH I D'). rewrite (H x); [lia|]. intros ->. contradiction.
Qed.
Lemma sum_zero f n i : sum f n = 0%nat -> (i < n)%nat -> f i = 0%nat.
Proof.
  unfold sum. intros S L. assert (I : In i (seq 0 n)) by (apply in_seq; lia). revert S I. generalize (seq 0 n) as l. induction l as [|x l IH]; [easy|]. cbn. intros S [->|I]; [lia|]. apply IH; [lia|exact I].
Qed.
Lemma sum_pos f n : (0 < sum f n)%nat -> exists i, (i < n)%nat /\ (0 < f i)%nat.
Proof.
  unfold sum. intro S. assert (exists i, In i (seq 0 n) /\ (0 < f i)%nat) as (i & I & P).
  { revert S. generalize (seq 0 n) as l. induction l as [|x l IH]; cbn; [lia|]. intro S. destruct (f x) eqn:E; [|exists x; split; [now left|lia]]. destruct (IH S) as (i & I & P). exists i. split; [now right|exact P]. }
  apply in_seq in I. exists i. split; [lia|exact P].
Qed.
Lemma sum_ge f n i : (i < n)%nat -> (f i <= sum f n)%nat.
Proof.
  intro L. unfold sum. assert (I : In i (seq 0 n)) by (apply in_seq; lia). revert I. generalize (seq 0 n) as l. induction l as [|x l IH]; [easy|]. cbn. intros [->|I]; [lia|]. specialize (IH I). lia.
Qed.
Lemma sum_last f n : sum f (S n) = (sum f n + f n)%nat.
Proof.
  unfold sum. rewrite seq_S. rewrite fold_right_app. cbn [fold_right Nat.add]. generalize (seq 0 n) as l. induction l as [|x l IH]; cbn; [lia|]. rewrite IH. lia.
Qed.
Lemma stored_in fields a : (0 < stored fields a)%nat <-> In a (List.concat fields).
Proof. unfold stored. symmetry. apply count_occ_In. Qed.
Lemma stored_nil a : stored [] a = 0%nat. Proof. reflexivity. Qed.

(** [dead]: objects being released, whose pointers the releasing function still has to free *)
Definition part (dead : list nat) (h : heap) (a p : nat) : nat :=
  if in_dec Nat.eq_dec p dead then 0 else match fetch h p with Some o => stored (o_fields o) a | None => 0 end.
Definition refs (dead : list nat) (h : heap) (a : nat) : nat := sum (part dead h a) (List.length h).
Definition well_typed (dead : list nat) (h : heap) (o : object) : Prop :=
  Forall2 (fun k l => forall c, In c l -> exists oc, fetch h c = Some oc /\ o_kind oc = k) (contains (o_kind o)) (o_fields o).
Record inv (dead : list nat) (h : heap) (ext : nat -> nat) : Prop := mkInv {
  inv_count : forall a o, ~ In a dead -> fetch h a = Some o -> o_count o = Z.of_nat (ext a + refs dead h a) /\ 1 <= o_count o /\ (~ counted (o_kind o) -> o_count o = 1);
  inv_none : forall a, In a dead \/ fetch h a = None -> ext a = 0%nat /\ refs dead h a = 0%nat;
  inv_types : forall a o, ~ In a dead -> fetch h a = Some o -> well_typed dead h o
}.
Lemma inv_ext dead h e1 e2 : (forall a, e1 a = e2 a) -> inv dead h e1 -> inv dead h e2.
Proof.
  intros E [C N T]. split.
  - intros a o D F. rewrite <- E. now apply C.
  - intros a H. rewrite <- E. now apply N.
  - exact T.
Qed.

Definition rank (k : kind) : nat :=
  match k with
  | KString | KConfig => 0
  | KSection | KRange | KPage | KFsource | KMsource | KFormat | KAdmin => 1
  | KSections | KPreview | KFmetadata | KMetadata | KRanges => 2
  | KLayout | KFile => 3
  | KLayouts | KFiles => 4
  | KReel | KTechnical => 5
  | KReels | KControl => 6
  | KTocData => 7
  end.
Lemma rank_lt k k' : In k' (contains k) -> (rank k' < rank k)%nat.
Proof. destruct k; cbn [contains In rank]; intros H; repeat (destruct H as [<-|H]; [cbn [rank]; lia|]); destruct H. Qed.
Definition test_of (k : kind) : Z -> bool := match k with KSection | KSections | KLayout | KLayouts => eq0 | _ => le0 end.
Lemma free_of_shape k : counted k -> free_of k = free_object (test_of k) (map free_of (contains k)).
Proof. intros (N1 & N2). destruct k; try congruence; reflexivity. Qed.
Lemma test_of_spec k n : 0 <= n -> test_of k n = (n =? 0).
Proof. intro H. destruct k; cbn [test_of]; unfold le0, eq0; try reflexivity; destruct (n <=? 0) eqn:E1; destruct (n =? 0) eqn:E2; try reflexivity; lia. Qed.
Definition dec (e : nat -> nat) (a : nat) : nat -> nat := fun x => if (x =? a)%nat then (e x - 1)%nat else e x.

(** the promise of a free function *)
Definition keeps (h h' : heap) : Prop := List.length h' = List.length h /\ forall b o', fetch h' b = Some o' -> exists o, fetch h b = Some o /\ o_kind o' = o_kind o /\ o_fields o' = o_fields o /\ o_count o' <= o_count o.
Lemma keeps_refl h : keeps h h.
Proof. split; [reflexivity|]. intros b o F. exists o. repeat split; [exact F|lia]. Qed.
Lemma keeps_trans h1 h2 h3 : keeps h1 h2 -> keeps h2 h3 -> keeps h1 h3.
Proof.
  intros (L1 & K1) (L2 & K2). split; [congruence|]. intros b o F. destruct (K2 _ _ F) as (o2 & F2 & A2 & B2 & C2). destruct (K1 _ _ F2) as (o1 & F1 & A1 & B1 & C1).
  exists o1. repeat split; [exact F1|congruence..|lia].
Qed.
Definition frees (k : kind) : Prop := forall dead h e a o, inv dead h e -> ~ In a dead -> fetch h a = Some o -> o_kind o = k -> (1 <= e a)%nat ->
  exists h', free_of k h a = Ok h' /\ inv dead h' (dec e a) /\ keeps h h' /\ (forall z, In z dead -> fetch h' z = fetch h z).

Lemma refs_store dead h a x e b o : inv dead h e -> fetch h a = Some o -> ~ In a dead ->
  (refs dead (store h a x) b + stored (o_fields o) b = refs dead h b + match x with Some o' => stored (o_fields o') b | None => 0 end)%nat.
Proof.
  intros I F D. assert (L := fetch_lt _ _ _ F). unfold refs. rewrite store_len.
  pose proof (sum_change (part dead (store h a x) b) (part dead h b) (List.length h) a L) as S. unfold part at 4 6 in S. rewrite fetch_store, Nat.eqb_refl, F in S by exact L. destruct (in_dec Nat.eq_dec a dead); [contradiction|].
  destruct x; apply S; intros i Ni; unfold part; destruct (in_dec Nat.eq_dec i dead); try reflexivity; rewrite fetch_store by exact L; apply Nat.eqb_neq in Ni; now rewrite Ni.
Qed.
Lemma typed_store dead h a o o' ob : fetch h a = Some o -> o_kind o' = o_kind o -> well_typed dead h ob -> well_typed dead (store h a (Some o')) ob.
Proof.
  intros F K. unfold well_typed. intro W. induction W as [|k l ks ls H W IH]; constructor; [|exact IH]. intros c I. destruct (H c I) as (oc & Fc & Kc). rewrite fetch_store by (now apply (fetch_lt _ _ _ F)).
  destruct (Nat.eqb_spec c a) as [->|]; [|now exists oc]. exists o'. split; [reflexivity|congruence].
Qed.

Lemma block_frees k : ~ counted k -> frees k.
Proof.
  intros NC dead h e a o I D F K P. assert (L := fetch_lt _ _ _ F). destruct (inv_count _ _ _ I a o D F) as (C1 & C2 & C3).
  assert (One : o_count o = 1) by (apply C3; now rewrite K). rewrite One in C1. assert (E1 : e a = 1%nat) by lia. assert (R0 : refs dead h a = 0%nat) by lia.
  assert (Fs : o_fields o = []). { pose proof (inv_types _ _ _ I a o D F) as W. unfold well_typed in W. rewrite K in W. assert (Ck : contains k = []) by (unfold counted in NC; destruct k; try reflexivity; exfalso; apply NC; split; discriminate). rewrite Ck in W. now inversion W. }
  assert (Eq : free_of k h a = Ok (store h a None)). { assert (Fb : free_of k = free_block) by (unfold counted in NC; destruct k; try reflexivity; exfalso; apply NC; split; discriminate). rewrite Fb. unfold free_block. now rewrite F. }
  exists (store h a None). split; [exact Eq|].
  assert (RR : forall b, refs dead (store h a None) b = refs dead h b).
  { intro b. pose proof (refs_store dead h a None e b o I F D) as S. rewrite Fs in S. rewrite stored_nil in S. lia. }
  split; [|split].
  - split.
    + intros b ob Db Fb. rewrite fetch_store in Fb by exact L. destruct (Nat.eqb_spec b a) as [->|N]; [discriminate|]. rewrite RR. unfold dec. apply Nat.eqb_neq in N. rewrite N. now apply (inv_count _ _ _ I).
    + intros b H. rewrite RR. unfold dec. destruct (Nat.eqb_spec b a) as [->|N]; [lia|]. apply (inv_none _ _ _ I). destruct H as [H|H]; [now left|]. rewrite fetch_store in H by exact L. apply Nat.eqb_neq in N. rewrite N in H. now right.
    + intros b ob Db Fb. rewrite fetch_store in Fb by exact L. destruct (Nat.eqb_spec b a) as [->|N]; [discriminate|]. pose proof (inv_types _ _ _ I b ob Db Fb) as W. unfold well_typed in *.
      assert (Z0 : stored (o_fields ob) a = 0%nat).
      { pose proof (sum_zero _ _ b R0 (fetch_lt _ _ _ Fb)) as S. unfold part in S. destruct (in_dec Nat.eq_dec b dead); [contradiction|]. now rewrite Fb in S. }
      assert (NI : ~ In a (List.concat (o_fields ob))) by (rewrite <- stored_in; lia). clear - W NI L.
      induction W as [|k0 l ks ls H W IH]; constructor.
      * intros c Ic. rewrite fetch_store by exact L. destruct (Nat.eqb_spec c a) as [->|]; [exfalso; apply NI; cbn; apply in_or_app; now left|]. now apply H.
      * apply IH. intro J. apply NI. cbn. apply in_or_app. now right.
  - split; [apply store_len|]. intros b o' Fb. rewrite fetch_store in Fb by exact L. destruct (Nat.eqb_spec b a) as [->|]; [discriminate|]. exists o'. repeat split; [exact Fb|lia].
  - intros z Iz. rewrite fetch_store by exact L. destruct (Nat.eqb_spec z a) as [->|]; [contradiction|reflexivity].
Qed.
(** releasing a list of pointers *)
Definition minus (e : nat -> nat) (l : list nat) : nat -> nat := fun x => (e x - count_occ Nat.eq_dec l x)%nat.
Lemma each_frees k : frees k -> forall l dead h e, inv dead h e -> (forall c, In c l -> exists oc, fetch h c = Some oc /\ o_kind oc = k) -> (forall c, count_occ Nat.eq_dec l c <= e c)%nat ->
  exists h', each (free_of k) h l = Ok h' /\ inv dead h' (minus e l) /\ keeps h h' /\ (forall z, In z dead -> fetch h' z = fetch h z).
Proof.
  intros Fr. induction l as [|c l IH]; intros dead h e I T B.
  - exists h. split; [reflexivity|]. split; [|split; [apply keeps_refl|reflexivity]]. eapply inv_ext; [|exact I]. intro a. unfold minus. cbn. lia.
  - cbn [each]. pose proof (B c) as Bc. rewrite count_occ_cons_eq in Bc by reflexivity.
    assert (Dc : ~ In c dead). { intro Ic. destruct (inv_none _ _ _ I c (or_introl Ic)). lia. }
    destruct (T c (or_introl eq_refl)) as (oc & Fc & Kc).
    destruct (Fr dead h e c oc I Dc Fc Kc ltac:(lia)) as (h1 & E1 & I1 & K1 & Z1). rewrite E1. cbn [obind].
    destruct (IH dead h1 (dec e c) I1) as (h2 & E2 & I2 & K2 & Z2).
    + intros c' Ic'. destruct (fetch h1 c') as [o1|] eqn:F1.
      * destruct K1 as (_ & K1). destruct (K1 _ _ F1) as (o0 & F0 & A & _). destruct (T c' (or_intror Ic')) as (oc' & Fc' & Kc'). exists o1. split; [reflexivity|congruence].
      * exfalso. destruct (inv_none _ _ _ I1 c' (or_intror F1)) as (X & _). pose proof (B c') as Bc'. assert (P : (0 < count_occ Nat.eq_dec l c')%nat) by (now apply count_occ_In).
        unfold dec in X. revert X. destruct (Nat.eqb_spec c' c) as [->|N]; [rewrite count_occ_cons_eq in Bc' by reflexivity; lia|]. rewrite count_occ_cons_neq in Bc' by congruence. lia.
    + intro c'. pose proof (B c') as Bc'. unfold dec. destruct (Nat.eqb_spec c' c) as [->|N]; [rewrite count_occ_cons_eq in Bc' by reflexivity; lia|]. rewrite count_occ_cons_neq in Bc' by congruence. lia.
    + exists h2. split; [exact E2|]. split; [|split; [now apply (keeps_trans _ h1)|]].
      * eapply inv_ext; [|exact I2]. intro a. unfold minus, dec. destruct (Nat.eqb_spec a c) as [->|N]; [rewrite count_occ_cons_eq by reflexivity; lia|]. now rewrite count_occ_cons_neq by congruence.
      * intros z Iz. rewrite Z2 by exact Iz. now apply Z1.
Qed.
Lemma fields_free ks : (forall k, In k ks -> frees k) -> forall fields dead h e, inv dead h e ->
  Forall2 (fun k l => forall c, In c l -> exists oc, fetch h c = Some oc /\ o_kind oc = k) ks fields -> (forall c, stored fields c <= e c)%nat ->
  exists h', free_fields (map free_of ks) h fields = Ok h' /\ inv dead h' (minus e (List.concat fields)) /\ keeps h h' /\ (forall z, In z dead -> fetch h' z = fetch h z).
Proof.
  induction ks as [|k ks IH]; intros Fr fields dead h e I T B; inversion T as [|? l ? ls H T']; subst.
  - exists h. split; [reflexivity|]. split; [|split; [apply keeps_refl|reflexivity]]. eapply inv_ext; [|exact I]. intro a. unfold minus. cbn. lia.
  - cbn [map free_fields]. unfold stored in B. cbn [List.concat] in *.
    destruct (each_frees k (Fr k (or_introl eq_refl)) l dead h e I H) as (h1 & E1 & I1 & K1 & Z1); [intro c; specialize (B c); rewrite count_occ_app in B; lia|]. rewrite E1. cbn [obind].
    destruct (IH (fun k I => Fr k (or_intror I)) ls dead h1 (minus e l) I1) as (h2 & E2 & I2 & K2 & Z2).
    + assert (Lv : forall c, In c (List.concat ls) -> fetch h1 c <> None).
      { intros c Ic F1. destruct (inv_none _ _ _ I1 c (or_intror F1)) as (X & _). specialize (B c). rewrite count_occ_app in B. assert (P : (0 < count_occ Nat.eq_dec (List.concat ls) c)%nat) by (now apply count_occ_In). unfold minus in X. lia. }
      clear - T' K1 Lv. induction T' as [|k l ks ls H W IHW]; constructor.
      * intros c Ic. destruct (fetch h1 c) as [o1|] eqn:F1; [|exfalso; apply (Lv c); [cbn; apply in_or_app; now left|exact F1]]. destruct K1 as (_ & K1). destruct (K1 _ _ F1) as (o0 & F0 & A & _). destruct (H c Ic) as (oc & Fc & Kc). exists o1. split; [reflexivity|congruence].
      * apply IHW. intros c Ic. apply Lv. cbn. apply in_or_app. now right.
    + intro c. specialize (B c). rewrite count_occ_app in B. unfold stored, minus. lia.
    + exists h2. split; [exact E2|]. split; [|split; [now apply (keeps_trans _ h1)|]].
      * eapply inv_ext; [|exact I2]. intro a. unfold minus. rewrite count_occ_app. lia.
      * intros z Iz. rewrite Z2 by exact Iz. now apply Z1.
Qed.
Lemma all_free : forall n k, (rank k < n)%nat -> frees k.
Proof.
  induction n as [|n IHn]; [lia|]. intros k Rk.
  assert (Dk : counted k \/ ~ counted k) by (unfold counted; destruct k; try (left; split; discriminate); right; intros (? & ?); congruence).
  destruct Dk as [Ck|NCk]; [|now apply block_frees].
  intros dead h e a o I D F K P. assert (L := fetch_lt _ _ _ F). rewrite free_of_shape by exact Ck. unfold free_object. rewrite F. cbv zeta.
  destruct (inv_count _ _ _ I a o D F) as (C1 & C2 & C3). rewrite test_of_spec by lia.
  set (o' := mkObject (o_kind o) (o_count o - 1) (o_fields o)). set (h1 := store h a (Some o')).
  assert (F1 : forall b, fetch h1 b = if (b =? a)%nat then Some o' else fetch h b) by (intro b; now apply fetch_store).
  assert (K1 : keeps h h1). { split; [apply store_len|]. intros b ob Fb. rewrite F1 in Fb. destruct (Nat.eqb_spec b a) as [->|]; [injection Fb as <-; exists o; cbn; repeat split; [exact F|lia]|exists ob; repeat split; [exact Fb|lia]]. }
  assert (Z1 : forall z, In z dead -> fetch h1 z = fetch h z). { intros z Iz. rewrite F1. destruct (Nat.eqb_spec z a) as [->|]; [contradiction|reflexivity]. }
  assert (RR : forall b, refs dead h1 b = refs dead h b). { intro b. pose proof (refs_store dead h a (Some o') e b o I F D) as S. cbn [o_fields o'] in S. unfold o' in S. cbn [o_fields] in S. fold o' in S. fold h1 in S. lia. }
  destruct (o_count o - 1 =? 0) eqn:E0.
  - (* the last reference *)
    assert (E1 : e a = 1%nat) by lia. assert (R0 : refs dead h a = 0%nat) by lia.
    assert (NoA : forall b ob, ~ In b dead -> fetch h b = Some ob -> ~ In a (List.concat (o_fields ob))).
    { intros b ob Db Fb J. rewrite <- stored_in in J. pose proof (sum_zero _ _ b R0 (fetch_lt _ _ _ Fb)) as S. unfold part in S. destruct (in_dec Nat.eq_dec b dead); [contradiction|]. rewrite Fb in S. lia. }
    set (e1 := fun x => (dec e a x + stored (o_fields o) x)%nat).
    assert (RS : forall b, (refs (a :: dead) h1 b + stored (o_fields o) b = refs dead h b)%nat).
    { intro b. rewrite <- RR. unfold refs. pose proof (sum_change (part (a :: dead) h1 b) (part dead h1 b) (List.length h1) a ltac:(unfold h1; rewrite store_len; exact L)) as S. unfold part at 4 6 in S.
      rewrite F1, Nat.eqb_refl in S. destruct (in_dec Nat.eq_dec a dead); [contradiction|]. destruct (in_dec Nat.eq_dec a (a :: dead)) as [_|X]; [|exfalso; apply X; now left]. cbn [o_fields o'] in S. unfold o' in S. cbn [o_fields] in S. rewrite Nat.add_0_r in S. apply S.
      intros i Ni. unfold part. destruct (in_dec Nat.eq_dec i dead) as [Ii|Ii]; destruct (in_dec Nat.eq_dec i (a :: dead)) as [J|J]; try reflexivity.
      - exfalso. apply J. now right.
      - exfalso. destruct J as [->|J]; [congruence|contradiction]. }
    assert (I1 : inv (a :: dead) h1 e1).
    { split.
      - intros b ob Db Fb. rewrite F1 in Fb. destruct (Nat.eqb_spec b a) as [->|N]; [exfalso; apply Db; now left|]. assert (Db' : ~ In b dead) by (intro; apply Db; now right).
        destruct (inv_count _ _ _ I b ob Db' Fb) as (X1 & X2 & X3). split; [|split; [exact X2|exact X3]]. rewrite X1. specialize (RS b). unfold e1, dec. apply Nat.eqb_neq in N. rewrite N. lia.
      - intros b H. pose proof (RS b) as RSb. unfold e1, dec. destruct (Nat.eqb_spec b a) as [->|N]; [lia|].
        assert (X : e b = 0%nat /\ refs dead h b = 0%nat). { apply (inv_none _ _ _ I). destruct H as [[->|H]|H]; [congruence|now left|]. rewrite F1 in H. apply Nat.eqb_neq in N. rewrite N in H. now right. } lia.
      - intros b ob Db Fb. rewrite F1 in Fb. destruct (Nat.eqb_spec b a) as [->|N]; [exfalso; apply Db; now left|]. assert (Db' : ~ In b dead) by (intro; apply Db; now right).
        apply (typed_store _ _ _ o o' ob F eq_refl). pose proof (inv_types _ _ _ I b ob Db' Fb) as W. exact W. }
    pose proof (inv_types _ _ _ I a o D F) as W. unfold well_typed in W. rewrite K in W.
    destruct (fields_free (contains k) (fun k' J => IHn k' ltac:(pose proof (rank_lt _ _ J); lia)) (o_fields o) (a :: dead) h1 e1 I1) as (h2 & E2 & I2 & K2 & Z2).
    + pose proof (typed_store dead h a o o' o F eq_refl) as Ty. unfold well_typed in Ty. rewrite K in Ty. apply Ty. exact W.
    + intro c. unfold e1. lia.
    + rewrite E2. cbn [obind]. exists (store h2 a None). split; [reflexivity|].
      assert (L2 : List.length h2 = List.length h1) by apply K2. assert (L1 : List.length h1 = List.length h) by apply store_len. assert (La : (a < List.length h2)%nat) by congruence.
      assert (F3 : forall b, fetch (store h2 a None) b = if (b =? a)%nat then None else fetch h2 b) by (intro b; now apply fetch_store).
      assert (R3 : forall b, refs dead (store h2 a None) b = refs (a :: dead) h2 b).
      { intro b. unfold refs. rewrite store_len. apply sum_ext. intros i _. unfold part. rewrite F3. destruct (in_dec Nat.eq_dec i dead) as [J|J]; destruct (in_dec Nat.eq_dec i (a :: dead)) as [J'|J']; try reflexivity.
        - exfalso. apply J'. now right.
        - destruct J' as [->|J']; [now rewrite Nat.eqb_refl|contradiction].
        - destruct (Nat.eqb_spec i a) as [->|]; [exfalso; apply J'; now left|reflexivity]. }
      assert (M : forall b, minus e1 (List.concat (o_fields o)) b = dec e a b). { intro b. unfold minus, e1, stored. lia. }
      split; [|split].
      * split.
        -- intros b ob Db Fb. rewrite F3 in Fb. destruct (Nat.eqb_spec b a) as [->|N]; [discriminate|]. rewrite R3, <- M. apply (inv_count _ _ _ I2); [intros [->|J]; [congruence|contradiction]|exact Fb].
        -- intros b H. rewrite R3, <- M. apply (inv_none _ _ _ I2). destruct H as [H|H]; [left; now right|]. rewrite F3 in H. destruct (Nat.eq_dec b a) as [E|E]; [left; left; now symmetry|]. apply Nat.eqb_neq in E. rewrite E in H. now right.
        -- intros b ob Db Fb. rewrite F3 in Fb. destruct (Nat.eqb_spec b a) as [->|N]; [discriminate|]. assert (Db2 : ~ In b (a :: dead)) by (intros [->|J]; [congruence|contradiction]).
           pose proof (inv_types _ _ _ I2 b ob Db2 Fb) as W2. unfold well_typed in *.
           assert (NI : ~ In a (List.concat (o_fields ob))).
           { destruct (inv_none _ _ _ I2 a (or_introl (or_introl eq_refl))) as (_ & X). pose proof (sum_zero _ _ b X (fetch_lt _ _ _ Fb)) as S. unfold part in S. destruct (in_dec Nat.eq_dec b (a :: dead)); [contradiction|]. rewrite Fb in S. rewrite <- stored_in. lia. }
           clear - W2 NI F3. induction W2 as [|k0 l ks ls H W IH]; constructor.
           ++ intros c Ic. rewrite F3. destruct (Nat.eqb_spec c a) as [->|]; [exfalso; apply NI; cbn; apply in_or_app; now left|]. now apply H.
           ++ apply IH. intro J. apply NI. cbn. apply in_or_app. now right.
      * apply (keeps_trans _ h1); [exact K1|]. apply (keeps_trans _ h2); [exact K2|]. split; [apply store_len|]. intros b ob Fb. rewrite F3 in Fb. destruct (Nat.eqb_spec b a) as [->|]; [discriminate|]. exists ob. repeat split; [exact Fb|lia].
      * intros z Iz. rewrite F3. destruct (Nat.eqb_spec z a) as [->|]; [contradiction|]. rewrite Z2 by (now right). now apply Z1.
  - (* references are left *)
    exists h1. split; [reflexivity|]. split; [|split; [exact K1|exact Z1]].
    split.
    + intros b ob Db Fb. rewrite F1 in Fb. rewrite RR. unfold dec. destruct (Nat.eqb_spec b a) as [->|N].
      * injection Fb as <-. cbn [o_count o_kind o']. unfold o'. cbn [o_count o_kind]. split; [lia|]. split; [lia|]. intro X. rewrite K in X. contradiction.
      * now apply (inv_count _ _ _ I).
    + intros b H. rewrite RR. assert (N : b <> a). { intros ->. destruct H as [H|H]; [contradiction|]. rewrite F1, Nat.eqb_refl in H. discriminate. }
      unfold dec. apply Nat.eqb_neq in N. rewrite N. apply (inv_none _ _ _ I). destruct H as [H|H]; [now left|]. rewrite F1, N in H. now right.
    + intros b ob Db Fb. rewrite F1 in Fb. apply (typed_store _ _ _ o o' ob F eq_refl). destruct (Nat.eqb_spec b a) as [->|N]; [|now apply (inv_types _ _ _ I b)].
      injection Fb as <-. pose proof (inv_types _ _ _ I a o D F) as W. exact W.
Qed.
Lemma free_ok k : frees k.
Proof. apply (all_free (S (rank k))). lia. Qed.
