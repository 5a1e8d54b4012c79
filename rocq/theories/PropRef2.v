(** C37, continued: clones own everything they contain. *)
From Verif Require Import CBase RefModel SpecRef RefProofs PropRef CloneModel.

Lemma Forall2_mono {A B} (P Q : A -> B -> Prop) l l' : (forall x y, P x y -> Q x y) -> Forall2 P l l' -> Forall2 Q l l'.
Proof. intros H F. induction F; constructor; auto. Qed.
Lemma copy_mono d b ext : forall a a', is_copy d b a a' -> is_copy d (b ++ ext) a a'.
Proof.
  induction d as [|d IH]; [easy|]. intros a a' (e & e' & E & E' & K & F). exists e, e'.
  assert (X : forall x y, entry_of b x = Some y -> entry_of (b ++ ext) x = Some y). { intros x y Q. unfold entry_of in *. rewrite nth_error_app1; [exact Q|]. apply nth_error_Some. congruence. }
  split; [now apply X|]. split; [now apply X|]. split; [exact K|]. eapply Forall2_mono; [|exact F]. intros l l'. apply Forall2_mono. exact IH.
Qed.
(** only the held counts change *)
Lemma copy_held d b b' : (forall x e, entry_of b x = Some e -> exists e', entry_of b' x = Some e' /\ e_kind e' = e_kind e /\ e_fields e' = e_fields e) -> forall a a', is_copy d b a a' -> is_copy d b' a a'.
Proof.
  intro H. induction d as [|d IH]; [easy|]. intros a a' (e & e' & E & E' & K & F). destruct (H _ _ E) as (f & Ef & Kf & Ff). destruct (H _ _ E') as (f' & Ef' & Kf' & Ff'). exists f, f'.
  split; [exact Ef|]. split; [exact Ef'|]. split; [congruence|]. rewrite Ff, Ff'. eapply Forall2_mono; [|exact F]. intros l l'. apply Forall2_mono. exact IH.
Qed.
Record cloned (d : nat) (b : books) (h : heap) (srcs roots : list nat) (h' : heap) (l : list call) (ext : books) : Prop := mkCloned {
  cl_create : Forall creates l;
  cl_history : history b l (b ++ ext);
  cl_exec : exec_all h l = Ok h';
  cl_held : forall x, (List.length b <= x)%nat -> held (b ++ ext) x = count_occ Nat.eq_dec roots x;
  cl_roots : forall r, In r roots -> (List.length b <= r < List.length (b ++ ext))%nat;
  cl_fresh : forall p e x, nth_error ext p = Some e -> In x (List.concat (e_fields e)) -> (List.length b <= x)%nat;
  cl_copy : Forall2 (is_copy d (b ++ ext)) srcs roots
}.
Lemma creates_agree l : forall b h n b', agree b h n -> 1 <= n -> Forall creates l -> history b l b' -> exists h', exec_all h l = Ok h' /\ agree b' h' (n + Z.of_nat (List.length l)) /\ (forall a o, fetch h a = Some o -> fetch h' a = Some o).
Proof.
  induction l as [|c l IH]; intros b h n b' A N C H; inversion H; subst.
  - exists h. split; [reflexivity|]. cbn. rewrite Z.add_0_r. now split.
  - inversion C as [|? ? C1 C2]; subst. destruct c as [k fields| | | |]; try contradiction. match goal with X : allowed _ _ _ |- _ => inversion X; subst end.
    cbn [exec_all exec obind]. match goal with Y : history _ l _ |- _ => destruct (IH _ (h ++ [Some (mkObject k 1 fields)]) (n + 1) _ (create_ok b h n k fields A N ltac:(assumption) ltac:(assumption)) ltac:(lia) C2 Y) as (h' & E & A' & Kp) end.
    exists h'. split; [exact E|]. split; [replace (n + Z.of_nat (List.length (Create k fields :: l))) with (n + 1 + Z.of_nat (List.length l)) by (cbn [List.length]; lia); exact A'|].
    intros a o F. apply Kp. rewrite fetch_app. pose proof (fetch_lt _ _ _ F). destruct (Nat.eqb_spec a (List.length h)); [lia|exact F].
Qed.
Lemma exec_all_app l1 : forall h l2, exec_all h (l1 ++ l2) = obind (exec_all h l1) (fun h => exec_all h l2).
Proof. induction l1 as [|c l IH]; intros h l2; [reflexivity|]. cbn. destruct (exec h c); [apply IH|reflexivity]. Qed.
Lemma held_ext b ext x : (x < List.length b)%nat -> held (b ++ ext) x = held b x.
Proof. intro L. unfold held, entry_of. now rewrite nth_error_app1. Qed.
Lemma held_beyond b x : (List.length b <= x)%nat -> held b x = 0%nat.
Proof. intro L. unfold held, entry_of. assert (Y : nth_error b x = None) by (now apply nth_error_None). now rewrite Y. Qed.
Lemma not_root r l x : (forall y, In y l -> y <> x) -> r = l -> count_occ Nat.eq_dec r x = 0%nat.
Proof. intros H ->. apply count_occ_not_In. intro I. now apply (H x). Qed.
Lemma cloned_trans d b h s1 r1 h1 l1 e1 s2 r2 h2 l2 e2 : cloned d b h s1 r1 h1 l1 e1 -> cloned d (b ++ e1) h1 s2 r2 h2 l2 e2 -> cloned d b h (s1 ++ s2) (r1 ++ r2) h2 (l1 ++ l2) (e1 ++ e2).
Proof.
  intros [C1 H1 X1 D1 R1 F1 K1] [C2 H2 X2 D2 R2 F2 K2]. rewrite app_length in *. split.
  - now apply Forall_app.
  - rewrite app_assoc. now apply (history_app l1 b (b ++ e1)).
  - rewrite exec_all_app, X1. exact X2.
  - intros x Lx. rewrite app_assoc, count_occ_app. destruct (Nat.lt_ge_cases x (List.length (b ++ e1))) as [Lt|Ge].
    + rewrite held_ext by exact Lt. rewrite D1 by exact Lx. rewrite (not_root r2 r2 x); [lia| |reflexivity]. intros y Iy ->. apply R2 in Iy. rewrite app_length in Lt. lia.
    + rewrite D2 by (rewrite app_length in Ge; exact Ge). rewrite (not_root r1 r1 x); [lia| |reflexivity]. intros y Iy ->. apply R1 in Iy. rewrite app_length in Ge. lia.
  - intros r Ir. rewrite app_assoc, !app_length in *. apply in_app_or in Ir. destruct Ir as [Ir|Ir]; [apply R1 in Ir|apply R2 in Ir]; lia.
  - intros p e x Ep Ix. destruct (Nat.lt_ge_cases p (List.length e1)) as [Lt|Ge]; [rewrite nth_error_app1 in Ep by exact Lt; now apply (F1 p e)|]. rewrite nth_error_app2 in Ep by exact Ge. specialize (F2 _ _ _ Ep Ix). lia.
  - rewrite app_assoc. apply Forall2_app; [|exact K2]. eapply Forall2_mono; [|exact K1]. intros. now apply copy_mono.
Qed.
Lemma cloned_nil d b h : cloned d b h [] [] h [] [].
Proof.
  split; rewrite ?app_nil_r; try constructor; try easy.
  - intros x L. now apply held_beyond.
  - intros p e x E. now destruct p.
Qed.
Definition clones (d : nat) (k : kind) : Prop := forall b h n a o, agree b h n -> 1 <= n -> fetch h a = Some o -> o_kind o = k ->
  exists h' a' l ext, clone_of k h a = Ok (h', a') /\ cloned d b h [a] [a'] h' l ext /\ kind_is (b ++ ext) a' k.
Lemma cloned_agree d b h n s r h' l ext : agree b h n -> 1 <= n -> cloned d b h s r h' l ext -> agree (b ++ ext) h' (n + Z.of_nat (List.length l)) /\ (forall a o, fetch h a = Some o -> fetch h' a = Some o).
Proof.
  intros A N C. destruct (creates_agree l b h n (b ++ ext) A N (cl_create _ _ _ _ _ _ _ _ C) (cl_history _ _ _ _ _ _ _ _ C)) as (h2 & E & A' & K). rewrite (cl_exec _ _ _ _ _ _ _ _ C) in E. injection E as <-. now split.
Qed.
Lemma kind_ext b ext a k : kind_is b a k -> kind_is (b ++ ext) a k.
Proof. intros (e & E & K). exists e. split; [|exact K]. unfold entry_of in *. rewrite nth_error_app1; [exact E|]. apply nth_error_Some. congruence. Qed.
Lemma each_clones d k : clones d k -> forall srcs b h n, agree b h n -> 1 <= n -> (forall c, In c srcs -> exists oc, fetch h c = Some oc /\ o_kind oc = k) ->
  exists h' roots l ext, clone_each (clone_of k) h srcs = Ok (h', roots) /\ cloned d b h srcs roots h' l ext /\ (forall r, In r roots -> kind_is (b ++ ext) r k).
Proof.
  intros Cl. induction srcs as [|c srcs IH]; intros b h n A N T.
  - exists h, [], [], []. split; [reflexivity|]. split; [apply cloned_nil|easy].
  - destruct (T c (or_introl eq_refl)) as (oc & Fc & Kc). destruct (Cl b h n c oc A N Fc Kc) as (h1 & r1 & l1 & e1 & E1 & C1 & K1). destruct (cloned_agree _ _ _ _ _ _ _ _ _ A N C1) as (A1 & P1).
    destruct (IH (b ++ e1) h1 (n + Z.of_nat (List.length l1)) A1 ltac:(lia)) as (h2 & r2 & l2 & e2 & E2 & C2 & K2).
    { intros x Ix. destruct (T x (or_intror Ix)) as (ox & Fx & Kx). exists ox. split; [now apply P1|exact Kx]. }
    exists h2, (r1 :: r2), (l1 ++ l2), (e1 ++ e2). cbn [clone_each]. rewrite E1. cbn [obind fst snd]. rewrite E2. cbn [obind fst snd]. split; [reflexivity|]. split.
    + change (c :: srcs) with ([c] ++ srcs). change (r1 :: r2) with ([r1] ++ r2). eapply cloned_trans; eassumption.
    + rewrite app_assoc. intros r [<-|Ir]; [now apply kind_ext|now apply K2].
Qed.
Lemma Forall2_concat {A B} (P : A -> B -> Prop) l l' : Forall2 (Forall2 P) l l' -> Forall2 P (List.concat l) (List.concat l').
Proof. intro H. induction H; cbn; [constructor|now apply Forall2_app]. Qed.
Lemma fields_clone d ks : (forall k, In k ks -> clones d k) -> forall fields b h n, agree b h n -> 1 <= n ->
  Forall2 (fun k l => forall c, In c l -> exists oc, fetch h c = Some oc /\ o_kind oc = k) ks fields ->
  exists h' fields' l ext, clone_fields (map clone_of ks) h fields = Ok (h', fields') /\ cloned d b h (List.concat fields) (List.concat fields') h' l ext /\
    Forall2 (Forall2 (is_copy d (b ++ ext))) fields fields' /\ Forall2 (fun k l => forall a, In a l -> kind_is (b ++ ext) a k) ks fields'.
Proof.
  induction ks as [|k ks IH]; intros Cl fields b h n A N T; inversion T as [|? srcs ? ls H T']; subst.
  - exists h, [], [], []. split; [reflexivity|]. split; [apply cloned_nil|]. split; constructor.
  - destruct (each_clones d k (Cl k (or_introl eq_refl)) srcs b h n A N H) as (h1 & r1 & l1 & e1 & E1 & C1 & K1). destruct (cloned_agree _ _ _ _ _ _ _ _ _ A N C1) as (A1 & P1).
    destruct (IH (fun k I => Cl k (or_intror I)) ls (b ++ e1) h1 (n + Z.of_nat (List.length l1)) A1 ltac:(lia)) as (h2 & r2 & l2 & e2 & E2 & C2 & Y2 & K2).
    { eapply Forall2_mono; [|exact T']. intros k0 l0 G c Ic. destruct (G c Ic) as (oc & Fc & Kc). exists oc. split; [now apply P1|exact Kc]. }
    exists h2, (r1 :: r2), (l1 ++ l2), (e1 ++ e2). cbn [map clone_fields]. rewrite E1. cbn [obind fst snd]. rewrite E2. cbn [obind fst snd]. split; [reflexivity|]. split; [cbn [List.concat]; eapply cloned_trans; eassumption|].
    rewrite app_assoc. split; constructor; try assumption.
    + eapply Forall2_mono; [|exact (cl_copy _ _ _ _ _ _ _ _ C1)]. intros. now apply copy_mono.
    + intros a Ia. apply kind_ext. now apply K1.
Qed.
Lemma nth_ext_eq {A} (a : list A) : forall b, (forall p, nth_error a p = nth_error b p) -> a = b.
Proof.
  induction a as [|x a IH]; intros [|y b] H; [reflexivity|specialize (H 0%nat); discriminate|specialize (H 0%nat); discriminate|].
  pose proof (H 0%nat) as H0. injection H0 as ->. f_equal. apply IH. intro p. exact (H (S p)).
Qed.
Lemma nth_first {A} n : forall (l : list A) p, (p < n)%nat -> nth_error (firstn n l) p = nth_error l p.
Proof. induction n as [|n IH]; intros l p L; [lia|]. destruct l as [|x l]; [reflexivity|]. destruct p as [|p]; [reflexivity|]. cbn. apply IH. lia. Qed.
Lemma give_split b ext fields : (forall x, In x (List.concat fields) -> (List.length b <= x)%nat) -> exists ext', give (b ++ ext) fields = b ++ ext' /\ List.length ext' = List.length ext /\
  (forall x, entry_of (b ++ ext') x = option_map (add_held (- Z.of_nat (stored fields x))) (entry_of (b ++ ext) x)).
Proof.
  intro H. exists (skipn (List.length b) (give (b ++ ext) fields)).
  assert (F : firstn (List.length b) (give (b ++ ext) fields) = b).
  { apply nth_ext_eq. intro p. destruct (Nat.lt_ge_cases p (List.length b)) as [Lt|Ge].
    - rewrite nth_first by exact Lt. pose proof (entry_give (b ++ ext) fields p) as Eg. unfold entry_of in Eg. rewrite Eg. rewrite nth_error_app1 by exact Lt.
      assert (S0 : stored fields p = 0%nat). { destruct (stored fields p) eqn:Q; [reflexivity|]. assert (J : In p (List.concat fields)) by (apply stored_in; lia). apply H in J. lia. }
      rewrite S0. destruct (nth_error b p) as [e|]; [|reflexivity]. cbn. f_equal. unfold add_held. destruct e. cbn. f_equal. lia.
    - assert (Y : nth_error b p = None) by (now apply nth_error_None). rewrite Y. apply nth_error_None. rewrite firstn_length. lia. }
  assert (G : give (b ++ ext) fields = b ++ skipn (List.length b) (give (b ++ ext) fields)) by (rewrite <- F at 2; symmetry; apply firstn_skipn).
  split; [exact G|]. split; [rewrite skipn_length, give_len, app_length; lia|]. intro x. rewrite <- G. apply entry_give.
Qed.

Lemma clone_counted k : counted k -> clone_of k = clone_object (map clone_of (contains k)).
Proof. intros (N1 & N2). destruct k; try congruence; reflexivity. Qed.
Lemma clone_uncounted k : ~ counted k -> clone_of k = clone_block /\ contains k = [].
Proof. intro N. destruct k; try (exfalso; apply N; split; discriminate); now split. Qed.
Lemma counted_dec k : {counted k} + {~ counted k}.
Proof. unfold counted. destruct k; try (left; split; discriminate); right; intros (A & B); congruence. Qed.
Lemma finish d b h n a o k h1 fields' l ext : agree b h n -> 1 <= n -> fetch h a = Some o -> o_kind o = k ->
  cloned d b h (List.concat (o_fields o)) (List.concat fields') h1 l ext -> Forall2 (Forall2 (is_copy d (b ++ ext))) (o_fields o) fields' -> Forall2 (fun k l => forall a, In a l -> kind_is (b ++ ext) a k) (contains k) fields' ->
  exists ext', cloned (S d) b h [a] [List.length h1] (h1 ++ [Some (mkObject k 1 fields')]) (l ++ [Create k fields']) ext' /\ kind_is (b ++ ext') (List.length h1) k.
Proof.
  intros A N F K C Y T. destruct (cloned_agree _ _ _ _ _ _ _ _ _ A N C) as (A1 & P1). pose proof (ag_len _ _ _ A1) as L1.
  destruct (give_split b ext fields') as (ext' & G & Lx & En). { intros x Ix. apply (cl_roots _ _ _ _ _ _ _ _ C) in Ix. lia. }
  assert (Lb : List.length (b ++ ext') = List.length h1) by (rewrite L1, !app_length; lia).
  assert (Rt : kind_is (b ++ ext' ++ [mkEntry k fields' 1]) (List.length h1) k). { exists (mkEntry k fields' 1). split; [|reflexivity]. unfold entry_of. rewrite app_assoc, nth_error_app2 by lia. now rewrite Lb, Nat.sub_diag. }
  assert (En2 : forall x e, entry_of (b ++ ext) x = Some e -> exists e', entry_of (b ++ ext' ++ [mkEntry k fields' 1]) x = Some e' /\ e_kind e' = e_kind e /\ e_fields e' = e_fields e).
  { intros x e E. specialize (En x). rewrite E in En. cbn in En. eexists. split; [|split].
    - unfold entry_of in *. rewrite app_assoc, nth_error_app1; [exact En|]. apply nth_error_Some. congruence.
    - reflexivity.
    - reflexivity. }
  exists (ext' ++ [mkEntry k fields' 1]). split; [|exact Rt]. split.
  - apply Forall_app. split; [exact (cl_create _ _ _ _ _ _ _ _ C)|]. constructor; [exact Logic.I|constructor].
  - eapply history_app; [exact (cl_history _ _ _ _ _ _ _ _ C)|]. rewrite app_assoc, <- G. econstructor; [|constructor]. constructor; [exact T|].
    intro x. destruct (Nat.lt_ge_cases x (List.length b)) as [Lt|Ge].
    + assert (S0 : stored fields' x = 0%nat); [|lia]. apply count_occ_not_In. intro I. apply (cl_roots _ _ _ _ _ _ _ _ C) in I. lia.
    + rewrite (cl_held _ _ _ _ _ _ _ _ C) by exact Ge. apply Nat.le_refl.
  - rewrite exec_all_app, (cl_exec _ _ _ _ _ _ _ _ C). reflexivity.
  - intros x Lx'. cbn [count_occ]. destruct (Nat.eq_dec (List.length h1) x) as [<-|Nx].
    + destruct Rt as (e & E & _). unfold held, entry_of. rewrite app_assoc, nth_error_app2 by lia. now rewrite Lb, Nat.sub_diag.
    + destruct (Nat.lt_ge_cases x (List.length h1)) as [Lt|Ge].
      * unfold held. rewrite app_assoc. unfold entry_of at 1. rewrite nth_error_app1 by lia. fold (entry_of (b ++ ext') x). rewrite En. pose proof (cl_held _ _ _ _ _ _ _ _ C x Lx') as Hx. unfold held in Hx. unfold stored. destruct (entry_of (b ++ ext) x); [|reflexivity]. cbn in *. lia.
      * apply held_beyond. rewrite app_assoc, app_length. cbn. lia.
  - intros r [<-|[]]. rewrite app_assoc, app_length. cbn. rewrite app_length in Lb. rewrite app_length. lia.
  - intros p e x Ep Ix. destruct (Nat.lt_ge_cases p (List.length ext')) as [Lt|Ge].
    + rewrite nth_error_app1 in Ep by exact Lt. specialize (En (List.length b + p)%nat). unfold entry_of in En. rewrite !nth_error_app2 in En by lia. replace (List.length b + p - List.length b)%nat with p in En by lia. rewrite Ep in En.
      destruct (nth_error ext p) as [e0|] eqn:E0; [|discriminate]. cbn in En. injection En as ->. cbn in Ix. exact (cl_fresh _ _ _ _ _ _ _ _ C p e0 x E0 Ix).
    + rewrite nth_error_app2 in Ep by exact Ge. destruct (p - List.length ext')%nat as [|m]; [|now destruct m]. injection Ep as <-. cbn in Ix. now apply (cl_roots _ _ _ _ _ _ _ _ C) in Ix.
  - constructor; [|constructor]. destruct (ag_entry _ _ _ A1 a o (P1 _ _ F)) as (e & E & Ke & Fe). destruct (En2 _ _ E) as (e' & E' & Ke' & Fe'). exists e', (mkEntry k fields' 1). split; [exact E'|]. split.
    { unfold entry_of. rewrite app_assoc, nth_error_app2 by lia. now rewrite Lb, Nat.sub_diag. }
    split; [cbn; congruence|]. cbn [e_fields]. rewrite Fe', Fe. eapply Forall2_mono; [|exact Y]. intros u v. apply Forall2_mono. intros s t. now apply copy_held.
Qed.
Lemma all_clones d : forall k, (rank k < d)%nat -> clones d k.
Proof.
  induction d as [|d IH]; [lia|]. intros k Rk b h n a o A N F K. pose proof (inv_types _ _ _ (ag_inv _ _ _ A) a o (no_dead a) F) as W. unfold well_typed in W. rewrite K in W.
  destruct (counted_dec k) as [Ck|Nk].
  - destruct (fields_clone d (contains k)) with (fields := o_fields o) (b := b) (h := h) (n := n) as (h1 & fs & l & ext & E & C & Y & T); try assumption.
    { intros k' I. apply IH. apply rank_lt in I. lia. }
    destruct (finish d b h n a o k h1 fs l ext A N F K C Y T) as (ext' & C' & K'). exists (h1 ++ [Some (mkObject k 1 fs)]), (List.length h1), (l ++ [Create k fs]), ext'. split; [|split; assumption].
    rewrite (clone_counted k Ck). unfold clone_object. rewrite F, E. cbn. now rewrite K.
  - destruct (clone_uncounted k Nk) as (Ec & En). rewrite En in W. assert (F0 : o_fields o = []) by (now inversion W). 
    destruct (finish d b h n a o k h [] [] [] A N F K) as (ext' & C' & K').
    + rewrite F0. apply cloned_nil.
    + rewrite F0. constructor.
    + rewrite En. constructor.
    + exists (h ++ [Some (mkObject k 1 [])]), (List.length h), [Create k []], ext'. split; [|split; assumption]. rewrite Ec. unfold clone_block. now rewrite F, K.
Qed.
(** Cloning a living object of any type only creates: it is a run of creations allowed to the client,
    after which the client holds one reference to the copy and none to its parts, the copy has the same
    shape as the original, and nothing that existed before is stored anywhere in what was created. *)
Theorem C37_clone l b h a k : history [] l b -> Z.of_nat (List.length l) < 2^31 - 1 -> exec_all [] l = Ok h -> alive b a -> kind_is b a k ->
  exists h' a' l' ext, clone_of k h a = Ok (h', a') /\
    Forall creates l' /\ history b l' (b ++ ext) /\ exec_all h l' = Ok h' /\
    (List.length b <= a')%nat /\ kind_is (b ++ ext) a' k /\ is_copy 8 (b ++ ext) a a' /\
    (forall x, (List.length b <= x)%nat -> held (b ++ ext) x = if (x =? a')%nat then 1%nat else 0%nat) /\
    (forall e x, In e ext -> In x (List.concat (e_fields e)) -> (List.length b <= x)%nat).
Proof.
  intros H B E Av Kd. destruct (history_ok l [] [] 1 b agree_empty ltac:(lia) ltac:(lia) H) as (h0 & E0 & A). rewrite E in E0. injection E0 as <-.
  apply (agree_live _ _ _ A) in Av. destruct (fetch h a) as [o|] eqn:F; [|congruence]. pose proof (kind_fetch _ _ _ _ _ _ A Kd F) as Ko.
  destruct (all_clones 8 k) with (b := b) (h := h) (n := 1 + Z.of_nat (List.length l)) (a := a) (o := o) as (h' & a' & l' & ext & Ec & C & K'); try assumption; [destruct k; cbn; lia|lia|].
  exists h', a', l', ext. split; [exact Ec|]. destruct C as [C1 C2 C3 C4 C5 C6 C7]. split; [exact C1|]. split; [exact C2|]. split; [exact C3|]. split; [apply (C5 a'); now left|]. split; [exact K'|]. split; [now inversion C7|]. split.
  - intros x Lx. rewrite C4 by exact Lx. cbn. destruct (Nat.eq_dec a' x) as [->|Nx]; [now rewrite Nat.eqb_refl|]. destruct (Nat.eqb_spec x a'); [congruence|reflexivity].
  - intros e x Ie Ix. apply In_nth_error in Ie. destruct Ie as (p & Ep). exact (C6 p e x Ep Ix).
Qed.
Print Assumptions C37_clone.
Lemma alive_old b ext a' : fields_in b (fun x => (x < List.length b)%nat) -> (List.length b <= a')%nat ->
  (forall x, (List.length b <= x)%nat -> held (b ++ ext) x = if (x =? a')%nat then 1%nat else 0%nat) ->
  (forall e x, In e ext -> In x (List.concat (e_fields e)) -> (List.length b <= x)%nat) ->
  forall x, alive (change (b ++ ext) a' (add_held (-1))) x <-> alive b x.
Proof.
  intros Fb La Hd Fr. set (b3 := change (b ++ ext) a' (add_held (-1))).
  assert (H3 : forall x, held b3 x = held b x).
  { intro x. unfold b3. rewrite held_change. destruct (Nat.lt_ge_cases x (List.length b)) as [Lt|Ge].
    - destruct (Nat.eqb_spec x a'); [lia|]. now apply held_ext.
    - rewrite (held_beyond b x Ge). specialize (Hd x Ge). unfold held in Hd. destruct (x =? a')%nat eqn:Q; [|unfold held; exact Hd]. destruct (entry_of (b ++ ext) x) as [e|]; [|reflexivity]. rewrite Hd. reflexivity. }
  assert (E3 : forall x, (x < List.length b)%nat -> entry_of b3 x = entry_of b x).
  { intros x Lt. unfold b3. rewrite entry_change. destruct (Nat.eqb_spec x a'); [lia|]. unfold entry_of. now rewrite nth_error_app1. }
  assert (Av : forall x, alive b x -> (x < List.length b)%nat).
  { intros x [y H|p e y _ Ep Iy]; [|exact (Fb p e y Ep Iy)]. destruct (Nat.lt_ge_cases y (List.length b)); [assumption|]. rewrite held_beyond in H by assumption. lia. }
  intro x. split.
  - induction 1 as [x H|p e x _ IH Ep Ix]; [apply alive_held; now rewrite <- H3|]. pose proof (Av p IH) as Lp. rewrite E3 in Ep by exact Lp. now apply (alive_stored b p e).
  - induction 1 as [x H|p e x Q IH Ep Ix]; [apply alive_held; now rewrite H3|]. pose proof (Av p Q) as Lp. rewrite <- E3 in Ep by exact Lp. now apply (alive_stored b3 p e).
Qed.
Lemma sum_more f g n m : (n <= m)%nat -> (forall i, (i < n)%nat -> f i = g i) -> (forall i, (n <= i)%nat -> g i = 0%nat) -> sum g m = sum f n.
Proof.
  intros L Hf H0. induction L as [|m L IH]; [symmetry; now apply sum_ext|]. rewrite sum_last, IH, H0 by lia. lia.
Qed.
(** Freeing the copy again leaves the heap as it was: every block made for it is gone and no other is touched. *)
Theorem C37_clone_then_free l b h a k : history [] l b -> Z.of_nat (List.length l) < 2^31 - 1 -> exec_all [] l = Ok h -> alive b a -> kind_is b a k ->
  exists h' a' h2, clone_of k h a = Ok (h', a') /\ free_of k h' a' = Ok h2 /\ (forall x, fetch h2 x = fetch h x).
Proof.
  intros H B E Av Kd. destruct (history_ok l [] [] 1 b agree_empty ltac:(lia) ltac:(lia) H) as (h0 & E0 & A). rewrite E in E0. injection E0 as <-.
  destruct (C37_clone l b h a k H B E Av Kd) as (h' & a' & l' & ext & Ec & Cr & Hs & Ex & La & K' & _ & Hd & Fr).
  destruct (creates_agree l' b h _ (b ++ ext) A ltac:(lia) Cr Hs) as (h1 & E1 & A1 & P1). rewrite Ex in E1. injection E1 as <-.
  assert (Ha : (0 < held (b ++ ext) a')%nat) by (rewrite Hd by exact La; rewrite Nat.eqb_refl; lia).
  destruct (release_ok _ _ _ k a' A1 K' Ha) as (h2 & E2 & A2). exists h', a', h2. split; [exact Ec|]. split; [exact E2|].
  set (b3 := change (b ++ ext) a' (add_held (-1))) in *.
  assert (Fb : fields_in b (fun x => (x < List.length b)%nat)). { apply (history_below l [] b H). intros p e x Ep. unfold entry_of in Ep. now destruct p. }
  pose proof (alive_old b ext a' Fb La Hd Fr) as Ao. fold b3 in Ao.
  assert (Lv : forall x, fetch h2 x <> None <-> fetch h x <> None). { intro x. rewrite <- (agree_live _ _ _ A2), <- (agree_live _ _ _ A). apply Ao. }
  assert (Sh : forall x o o2, fetch h x = Some o -> fetch h2 x = Some o2 -> o_kind o2 = o_kind o /\ o_fields o2 = o_fields o).
  { intros x o o2 Fx Fx2. destruct (ag_entry _ _ _ A _ _ Fx) as (e & Ee & Ke & Fe). destruct (ag_entry _ _ _ A2 _ _ Fx2) as (e2 & Ee2 & Ke2 & Fe2). unfold b3 in Ee2. rewrite entry_change in Ee2.
    pose proof (fetch_lt _ _ _ Fx) as Lx. rewrite (ag_len _ _ _ A) in Lx. destruct (Nat.eqb_spec x a'); [lia|]. unfold entry_of in *. rewrite nth_error_app1 in Ee2 by exact Lx. split; congruence. }
  intro x. pose proof (Lv x) as Lx. destruct (fetch h x) as [o|] eqn:Fx; destruct (fetch h2 x) as [o2|] eqn:Fx2; try (exfalso; destruct Lx as [L1 L2]; try (now apply L1); now apply L2); [|reflexivity].
  destruct (Sh x o o2 Fx Fx2) as (Kx & Fi). destruct (inv_count _ _ _ (ag_inv _ _ _ A) x o (no_dead x) Fx) as (C1 & _). destruct (inv_count _ _ _ (ag_inv _ _ _ A2) x o2 (no_dead x) Fx2) as (C2 & _).
  assert (Hx : held b3 x = held b x). { pose proof (fetch_lt _ _ _ Fx) as Lx'. rewrite (ag_len _ _ _ A) in Lx'. unfold b3. rewrite held_change. destruct (Nat.eqb_spec x a'); [lia|]. now apply held_ext. }
  assert (Rx : refs [] h2 x = refs [] h x).
  { unfold refs. apply sum_more.
    - rewrite (ag_len _ _ _ A), (ag_len _ _ _ A2). unfold b3. rewrite change_len, app_length. lia.
    - intros i Li. unfold part. cbn. pose proof (Lv i) as Lvi. destruct (fetch h i) as [oi|] eqn:Fi1; destruct (fetch h2 i) as [oi2|] eqn:Fi2; try (exfalso; destruct Lvi as [L1 L2]; try (now apply L1); now apply L2); [|reflexivity].
      destruct (Sh i oi oi2 Fi1 Fi2) as (_ & ->). reflexivity.
    - intros i Li. unfold part. cbn. destruct (fetch h2 i) as [oi|] eqn:Fi2; [|reflexivity]. exfalso. assert (X : fetch h i <> None) by (apply Lv; congruence). destruct (fetch h i) eqn:Y; [|congruence]. apply fetch_lt in Y. lia. }
  rewrite Hx, Rx, <- C1 in C2. destruct o, o2. cbn in *. now subst.
Qed.
Print Assumptions C37_clone_then_free.
Example C37_clone_witness : clone_of KPage [Some (mkObject KString 1 []); Some (mkObject KPage 2 [[0%nat]])] 1%nat =
  Ok ([Some (mkObject KString 1 []); Some (mkObject KPage 2 [[0%nat]]); Some (mkObject KString 1 []); Some (mkObject KPage 1 [[2%nat]])], 3%nat).
Proof. reflexivity. Qed.

(** Setters. The value given is copied, so the client keeps what it has and owes nothing for the copy;
    what the field held before is released. This needs the value to be alive without the field's old
    contents. *)
Definition emptied (b : books) (a i : nat) : books := change b a (fun e => mkEntry (e_kind e) (clear_field (e_fields e) i) (e_held e)).
Lemma entry_lt b x e : entry_of b x = Some e -> (x < List.length b)%nat.
Proof. intro E. apply nth_error_Some. unfold entry_of in E. congruence. Qed.
(** emptying a field of [a] takes nothing from [a] or the objects above it *)
Lemma above b h n a o i : agree b h n -> fetch h a = Some o -> forall x, alive b x -> forall ox, fetch h x = Some ox -> (rank (o_kind o) <= rank (o_kind ox))%nat -> alive (emptied b a i) x.
Proof.
  intros A F. assert (Hd : forall x, held (emptied b a i) x = held b x). { intro x. unfold held, emptied. rewrite entry_change. destruct (x =? a)%nat; [|reflexivity]. now destruct (entry_of b x). }
  induction 1 as [x Hx|p e x Ap IH Ep Ix]; intros ox Fx R; [apply alive_held; now rewrite Hd|].
  pose proof (proj1 (agree_live _ _ _ A p) Ap) as Fp. destruct (fetch h p) as [op|] eqn:Fop; [|congruence]. destruct (ag_entry _ _ _ A _ _ Fop) as (ep & Eep & _ & Ff). rewrite Eep in Ep. injection Ep as ->.
  assert (Kx : In (o_kind ox) (contains (o_kind op))).
  { pose proof (inv_types _ _ _ (ag_inv _ _ _ A) p op (no_dead p) Fop) as W. unfold well_typed in W. rewrite Ff in Ix. clear - W Ix Fx. induction W as [|k l ks ls H W IHW]; [easy|]. cbn in Ix. apply in_app_or in Ix. destruct Ix as [J|J]; [|right; now apply IHW]. left. destruct (H _ J) as (oc & Fc & Kc). congruence. }
  apply rank_lt in Kx. apply (alive_stored _ p e); [apply (IH op eq_refl); lia| |exact Ix]. unfold emptied. rewrite entry_change. destruct (Nat.eqb_spec p a) as [->|]; [|exact Eep]. rewrite F in Fop. injection Fop as ->. lia.
Qed.
Lemma Forall2_in {A B} (P Q : A -> B -> Prop) l l' : (forall x y, In x l -> In y l' -> P x y -> Q x y) -> Forall2 P l l' -> Forall2 Q l l'.
Proof. intros H F. induction F as [|x y l l' p F IH]; constructor; [apply H; [now left|now left|exact p]|]. apply IH. intros u v Iu Iv. apply H; now right. Qed.
Lemma child_typed b h n x ox c : agree b h n -> fetch h x = Some ox -> In c (List.concat (o_fields ox)) -> exists oc, fetch h c = Some oc /\ (rank (o_kind oc) < rank (o_kind ox))%nat.
Proof.
  intros A F Ic. pose proof (inv_types _ _ _ (ag_inv _ _ _ A) x ox (no_dead x) F) as W. unfold well_typed in W.
  assert (Kc : exists oc, fetch h c = Some oc /\ In (o_kind oc) (contains (o_kind ox))).
  { clear - W Ic. induction W as [|k l ks ls H W IHW]; [easy|]. cbn in Ic. apply in_app_or in Ic. destruct Ic as [J|J]; [|destruct (IHW J) as (oc & Fc & Kc); exists oc; split; [exact Fc|now right]]. destruct (H _ J) as (oc & Fc & Kc). exists oc. split; [exact Fc|now left]. }
  destruct Kc as (oc & Fc & Kc). exists oc. split; [exact Fc|]. now apply rank_lt.
Qed.
(** a change of [a] does not touch copies of smaller objects *)
Lemma copy_keep b b' h n a oa : agree b h n -> fetch h a = Some oa -> (forall x e, x <> a -> entry_of b x = Some e -> exists e', entry_of b' x = Some e' /\ e_kind e' = e_kind e /\ e_fields e' = e_fields e) ->
  forall d x y ox oy, is_copy d b x y -> fetch h x = Some ox -> fetch h y = Some oy -> (rank (o_kind ox) < rank (o_kind oa))%nat -> (rank (o_kind oy) < rank (o_kind oa))%nat -> is_copy d b' x y.
Proof.
  intros A Fa H. induction d as [|d IH]; [easy|]. intros x y ox oy (e & e' & E & E' & K & C) Fx Fy Rx Ry.
  assert (Nx : x <> a) by (intros ->; rewrite Fa in Fx; injection Fx as ->; lia). assert (Ny : y <> a) by (intros ->; rewrite Fa in Fy; injection Fy as ->; lia).
  destruct (H _ _ Nx E) as (f & Ef & Kf & Ff). destruct (H _ _ Ny E') as (f' & Ef' & Kf' & Ff'). exists f, f'. split; [exact Ef|]. split; [exact Ef'|]. split; [congruence|]. rewrite Ff, Ff'.
  destruct (ag_entry _ _ _ A _ _ Fx) as (ex & Eex & _ & Fex). rewrite E in Eex. injection Eex as <-. destruct (ag_entry _ _ _ A _ _ Fy) as (ey & Eey & _ & Fey). rewrite E' in Eey. injection Eey as <-.
  eapply Forall2_in; [|exact C]. intros u v Iu Iv. apply Forall2_in. intros s t Is It Q.
  destruct (child_typed b h n x ox s A Fx) as (os & Fs & Rs). { rewrite <- Fex. apply in_concat. exists u. now split. }
  destruct (child_typed b h n y oy t A Fy) as (ot & Ft & Rt). { rewrite <- Fey. apply in_concat. exists v. now split. }
  apply (IH s t os ot Q Fs Ft); lia.
Qed.
Theorem C47_set l b h a k i k' value e : history [] l b -> Z.of_nat (List.length l) < 2^31 - 2 -> exec_all [] l = Ok h ->
  alive b a -> entry_of b a = Some e -> e_kind e = k -> nth_error (contains k) i = Some k' ->
  (forall s, value = Some s -> kind_is b s k' /\ alive (emptied b a i) s) ->
  exists h' l' b' e', set_field k k' h a i value = Ok h' /\ history b l' b' /\ exec_all h l' = Ok h' /\
    entry_of b' a = Some e' /\ e_kind e' = k /\
    (forall j, j <> i -> nth j (e_fields e') [] = nth j (e_fields e) []) /\
    Forall2 (fun s c => (List.length b <= c)%nat /\ is_copy 8 b' s c) (match value with Some s => [s] | None => [] end) (nth i (e_fields e') []) /\
    (forall x, held b' x = held b x) /\
    (forall x, (x < List.length b)%nat -> x <> a -> entry_of b' x = entry_of b x).
Proof.
  intros H B E Av Ea Kk Nk Vs. destruct (history_ok l [] [] 1 b agree_empty ltac:(lia) ltac:(lia) H) as (h0 & E0 & A). rewrite E in E0. injection E0 as <-.
  assert (Ka : kind_is b a k) by (now exists e). pose proof (proj1 (agree_live _ _ _ A a) Av) as Fa. destruct (fetch h a) as [o|] eqn:F; [|congruence].
  destruct (clear_ok b h _ k k' a i A (ex_intro _ o F) Ka Nk) as (h1 & E1 & A1). fold (emptied b a i) in A1. set (b1 := emptied b a i) in *.
  assert (Al1 : allowed b (Clear k k' a i) b1) by (now constructor).
  assert (L1 : List.length b1 = List.length b) by apply change_len.
  set (e1 := mkEntry k (clear_field (e_fields e) i) (e_held e)). assert (Ea1 : entry_of b1 a = Some e1). { unfold b1, emptied. rewrite entry_change, Nat.eqb_refl, Ea. cbn. now rewrite Kk. }
  assert (Ke1 : forall x, x <> a -> entry_of b1 x = entry_of b x). { intros x N. unfold b1, emptied. rewrite entry_change. apply Nat.eqb_neq in N. now rewrite N. }
  assert (Hd1 : forall x, held b1 x = held b x). { intro x. destruct (Nat.eq_dec x a) as [->|N]; unfold held; [rewrite Ea1, Ea; reflexivity|now rewrite Ke1]. }
  assert (Nth : forall fs j, j <> i -> nth j (clear_field fs i) [] = nth j fs []).
  { clear. intro fs. revert i. induction fs as [|l fs IH]; intros [|i] [|j] N; cbn; try reflexivity; try congruence. apply IH. congruence. }
  assert (Nti : forall fs, nth i (clear_field fs i) [] = []). { clear. intro fs. revert i. induction fs as [|l fs IH]; intros [|i]; cbn; try reflexivity. apply IH. }
  assert (Nta : forall fs j c, j <> i -> nth j (append_field fs i c) [] = nth j fs []).
  { clear. intro fs. revert i. induction fs as [|l fs IH]; intros [|i] [|j] c N; cbn; try reflexivity; try congruence. apply IH. congruence. }
  assert (Ntb : forall fs c, (i < List.length fs)%nat -> nth i (append_field (clear_field fs i) i c) [] = [c]). { clear. intro fs. revert i. induction fs as [|l fs IH]; intros [|i] c L; cbn in *; try lia; try reflexivity. apply IH. lia. }
  unfold set_field. rewrite E1. cbn [obind]. destruct value as [s|].
  - destruct (Vs s eq_refl) as (Ks & As). fold b1 in As. pose proof (proj1 (agree_live _ _ _ A1 s) As) as Fs. destruct (fetch h1 s) as [os|] eqn:Fos; [|congruence].
    assert (Ks1 : kind_is b1 s k'). { destruct Ks as (es & Es & Kes). destruct (Nat.eq_dec s a) as [->|N]; [|exists es; split; [now rewrite Ke1|exact Kes]]. exists e1. split; [exact Ea1|]. cbn. congruence. }
    pose proof (kind_fetch _ _ _ _ _ _ A1 Ks1 Fos) as Kos.
    destruct (all_clones 8 k') with (b := b1) (h := h1) (n := 1 + Z.of_nat (List.length l) + 1) (a := s) (o := os) as (h2 & c & l2 & ext & E2 & C & Kc); try assumption; [destruct k'; cbn; lia|lia|].
    rewrite E2. cbn [obind fst snd]. destruct (cloned_agree _ _ _ _ _ _ _ _ _ A1 ltac:(lia) C) as (A2 & P2). destruct C as [C1 C2 C3 C4 C5 C6 C7].
    assert (Lc : (List.length b1 <= c < List.length (b1 ++ ext))%nat) by (apply C5; now left).
    assert (La : (a < List.length b)%nat) by (now apply entry_lt in Ea).
    assert (Hc : (0 < held (b1 ++ ext) c)%nat). { rewrite C4 by lia. cbn. destruct (Nat.eq_dec c c); [lia|congruence]. }
    assert (Ka2 : kind_is (b1 ++ ext) a k) by (apply kind_ext; exists e1; now split).
    assert (Fa1 : exists o2, fetch h1 a = Some o2).
    { assert (X : alive b1 a) by (apply (above b h _ a o i A F a Av o F); lia). apply (agree_live _ _ _ A1) in X. destruct (fetch h1 a) as [o2|]; [now exists o2|congruence]. }
    destruct Fa1 as (o2 & Fa1). destruct (append_ok (b1 ++ ext) h2 _ k k' a i c A2 (ex_intro _ o2 (P2 _ _ Fa1)) Ka2 Nk Kc Hc) as (h3 & E3 & A3).
    set (b2 := b1 ++ ext) in *. set (b3 := change b2 c (add_held (-1))) in *. set (b4 := change b3 a (fun e => mkEntry (e_kind e) (append_field (e_fields e) i c) (e_held e))) in *.
    assert (Nca : c <> a) by lia.
    assert (Al2 : alive b2 a). { apply (agree_live _ _ _ A2). rewrite (P2 _ _ Fa1). discriminate. }
    assert (Ent : forall x, x <> a -> x <> c -> entry_of b4 x = entry_of b2 x). { intros x N1 N2. unfold b4, b3. rewrite !entry_change. apply Nat.eqb_neq in N1, N2. now rewrite N1, N2. }
    assert (Old : forall x, (x < List.length b)%nat -> entry_of b2 x = entry_of b1 x). { intros x Lx. unfold b2, entry_of. rewrite nth_error_app1 by lia. reflexivity. }
    set (e4 := mkEntry k (append_field (clear_field (e_fields e) i) i c) (e_held e)).
    assert (Ea4 : entry_of b4 a = Some e4). { unfold b4, b3. rewrite !entry_change, Nat.eqb_refl. destruct (Nat.eqb_spec a c); [congruence|]. rewrite Old by exact La. rewrite Ea1. reflexivity. }
    assert (Hst : forall x, held b4 x = held b x).
    { intro x. destruct (Nat.eq_dec x a) as [->|N1]; [unfold held; now rewrite Ea4, Ea|]. destruct (Nat.eq_dec x c) as [->|N2].
      - rewrite (held_beyond b c) by lia. unfold held, b4, b3. rewrite !entry_change. apply Nat.eqb_neq in N1. rewrite N1, Nat.eqb_refl. assert (Hc1 : held b2 c = 1%nat) by (rewrite C4 by lia; cbn; destruct (Nat.eq_dec c c); congruence). unfold held in Hc1. destruct (entry_of b2 c) as [ec|]; [cbn; rewrite Hc1; reflexivity|reflexivity].
      - unfold held at 1. rewrite Ent by assumption. fold (held b2 x). destruct (Nat.lt_ge_cases x (List.length b)) as [Lt|Ge].
        + unfold held. rewrite Old by exact Lt. now rewrite Ke1.
        + rewrite (held_beyond b x Ge). rewrite C4 by lia. cbn. destruct (Nat.eq_dec c x); [congruence|reflexivity]. }
    assert (Lf : (i < List.length (e_fields e))%nat). { destruct (ag_entry _ _ _ A _ _ F) as (e0 & Ee0 & Kd0 & Ff0). rewrite Ea in Ee0. injection Ee0 as <-. rewrite Ff0, (fields_len h o [] (inv_types _ _ _ (ag_inv _ _ _ A) a o (no_dead a) F)), <- Kd0, Kk. apply nth_error_Some. congruence. }
    exists h3, (Clear k k' a i :: l2 ++ [Append k a i c]), b4, e4. split; [exact E3|]. split.
    { econstructor; [exact Al1|]. eapply history_app; [exact C2|]. econstructor; [|constructor]. now apply (allowed_append b2 k k' a i c). }
    split. { cbn [exec_all]. rewrite E1. cbn [obind]. rewrite exec_all_app, C3. cbn [obind exec_all]. rewrite E3. reflexivity. }
    split; [exact Ea4|]. split; [reflexivity|]. split; [|split; [|split; [exact Hst|]]].
    + intros j N. cbn [e4 e_fields]. unfold e4. cbn [e_fields]. rewrite Nta by exact N. now apply Nth.
    + unfold e4. cbn [e_fields]. rewrite Ntb by exact Lf. constructor; [|constructor]. split; [lia|]. assert (Cp : is_copy 8 b2 s c) by (clear - C7; now inversion C7).
      assert (Fc : exists oc, fetch h2 c = Some oc). { assert (Q : fetch h2 c <> None) by (apply (agree_live _ _ _ A2); now apply alive_held). destruct (fetch h2 c) as [oc|]; [now exists oc|congruence]. } destruct Fc as (oc & Fc).
      pose proof (kind_fetch _ _ _ _ _ _ A2 Kc Fc) as Koc. pose proof (kind_fetch _ _ _ _ _ _ A2 Ka2 (P2 _ _ Fa1)) as Ko2. assert (Rk : (rank k' < rank k)%nat) by (apply rank_lt; now apply (nth_error_In _ i)).
      apply (copy_keep b2 b4 h2 _ a o2 A2 (P2 _ _ Fa1)) with (ox := os) (oy := oc); [|exact Cp|exact (P2 _ _ Fos)|exact Fc|rewrite Ko2, Kos; exact Rk|rewrite Ko2, Koc; exact Rk].
      intros x ex Nx Ex. destruct (Nat.eq_dec x c) as [->|N2]; [|exists ex; rewrite Ent by assumption; now split]. exists (add_held (-1) ex). split; [|now split]. unfold b4, b3. rewrite !entry_change. apply Nat.eqb_neq in Nx. rewrite Nx, Nat.eqb_refl. now rewrite Ex.
    + intros x Lx N. rewrite Ent; [|exact N|lia]. rewrite Old by exact Lx. now apply Ke1.
  - exists h1, [Clear k k' a i], b1, e1. split; [reflexivity|]. split; [econstructor; [exact Al1|constructor]|]. split; [cbn [exec_all]; rewrite E1; reflexivity|]. split; [exact Ea1|]. split; [reflexivity|]. split; [intros j N; cbn; now apply Nth|]. split; [cbn; rewrite Nti; constructor|]. split; [exact Hd1|]. intros x _ N. now apply Ke1.
Qed.
Print Assumptions C47_set.
(** Giving a setter the value it already holds is allowed by its signature, but the value is released
    before it is copied. *)
Definition own_calls : list call := [Create KString []; Create KReel [[0%nat]; []]].
Theorem C47_set_own_value_refuted : exists l b h a s k i k', history [] l b /\ exec_all [] l = Ok h /\ alive b a /\ kind_is b a k /\ nth_error (contains k) i = Some k' /\ kind_is b s k' /\ alive b s /\
  set_field k k' h a i (Some s) = UB.
Proof.
  exists own_calls, [mkEntry KString [] 0; mkEntry KReel [[0%nat]; []] 1], [Some (mkObject KString 1 []); Some (mkObject KReel 1 [[0%nat]; []])], 1%nat, 0%nat, KReel, 0%nat, KString.
  split; [|split; [reflexivity|]].
  - unfold own_calls. econstructor; [apply (allowed_create [] KString []); [constructor|intro a; cbn; lia]|]. cbn.
    econstructor; [apply (allowed_create [mkEntry KString [] 1] KReel [[0%nat]; []])|cbn; constructor].
    + constructor; [|constructor; [easy|constructor]]. intros a [<-|[]]. now exists (mkEntry KString [] 1).
    + intros [|a]; [cbn; lia|]. unfold stored. cbn. lia.
  - assert (A1 : alive [mkEntry KString [] 0; mkEntry KReel [[0%nat]; []] 1] 1) by (apply alive_held; cbn; lia).
    split; [exact A1|]. split; [now exists (mkEntry KReel [[0%nat]; []] 1)|]. split; [reflexivity|]. split; [now exists (mkEntry KString [] 0)|]. split; [|reflexivity].
    apply (alive_stored _ 1 (mkEntry KReel [[0%nat]; []] 1) 0 A1 eq_refl). now left.
Qed.
Print Assumptions C47_set_own_value_refuted.
(** The id of a reel replaced by another string of the client. *)
Example C47_set_witness : set_field KReel KString [Some (mkObject KString 1 []); Some (mkObject KReel 1 [[0%nat]; []]); Some (mkObject KString 1 [])] 1%nat 0%nat (Some 2%nat) =
  Ok [None; Some (mkObject KReel 1 [[3%nat]; []]); Some (mkObject KString 1 []); Some (mkObject KString 1 [])].
Proof. reflexivity. Qed.
