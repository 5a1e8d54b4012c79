(** C37: reference counting. *)
From Verif Require Import CBase RefModel SpecRef RefProofs.

Lemma nth_indexed {A B} (F : nat * A -> B) (b : list A) : forall s x, nth_error (map F (combine (seq s (List.length b)) b)) x = option_map (fun e => F ((s + x)%nat, e)) (nth_error b x).
Proof.
  induction b as [|e b IH]; intros s x; [now destruct x|]. destruct x as [|x]; cbn [List.length seq combine map nth_error option_map]; [now rewrite Nat.add_0_r|].
  rewrite IH. destruct (nth_error b x); [|reflexivity]. cbn. do 2 f_equal. f_equal. lia.
Qed.
Lemma entry_change b a f x : entry_of (change b a f) x = if (x =? a)%nat then option_map f (entry_of b x) else entry_of b x.
Proof. unfold entry_of, change. rewrite nth_indexed. cbn [Nat.add fst snd]. destruct (nth_error b x); cbn; now destruct (x =? a)%nat. Qed.
Lemma entry_give b fs x : entry_of (give b fs) x = option_map (add_held (- Z.of_nat (stored fs x))) (entry_of b x).
Proof. unfold entry_of, give. rewrite nth_indexed. reflexivity. Qed.
Lemma change_len b a f : List.length (change b a f) = List.length b.
Proof. unfold change. rewrite map_length, combine_length, seq_length. lia. Qed.
Lemma give_len b f : List.length (give b f) = List.length b.
Proof. unfold give. rewrite map_length, combine_length, seq_length. lia. Qed.
Lemma held_change b a n x : held (change b a (add_held n)) x = if (x =? a)%nat then match entry_of b x with Some e => Z.to_nat (Z.of_nat (e_held e) + n) | None => 0%nat end else held b x.
Proof. unfold held. rewrite entry_change. destruct (x =? a)%nat; [|reflexivity]. now destruct (entry_of b x). Qed.

Record agree (b : books) (h : heap) (n : Z) : Prop := mkAgree {
  ag_len : List.length h = List.length b;
  ag_entry : forall a o, fetch h a = Some o -> exists e, entry_of b a = Some e /\ e_kind e = o_kind o /\ e_fields e = o_fields o;
  ag_inv : inv [] h (held b);
  ag_bound : forall a o, fetch h a = Some o -> o_count o <= n
}.
Lemma no_dead a : ~ In a (@nil nat). Proof. easy. Qed.
Lemma agree_live b h n : agree b h n -> forall a, alive b a <-> fetch h a <> None.
Proof.
  intros [L E I B] a. split.
  - induction 1 as [a H|p e a _ IH Ep Ia].
    + intro N. destruct (inv_none _ _ _ I a (or_intror N)). lia.
    + destruct (fetch h p) as [o|] eqn:Fp; [|congruence]. destruct (E _ _ Fp) as (e' & Ee & _ & Ef). rewrite Ee in Ep. injection Ep as ->. intro N. destruct (inv_none _ _ _ I a (or_intror N)) as (_ & R0).
      pose proof (sum_zero _ _ p R0 (fetch_lt _ _ _ Fp)) as S. unfold part in S. cbn in S. rewrite Fp in S. rewrite Ef in Ia. rewrite <- stored_in in Ia. lia.
  - assert (G : forall m a o, fetch h a = Some o -> (7 - rank (o_kind o) < m)%nat -> alive b a).
    { induction m as [|m IH]; [lia|]. intros x o F Rk. destruct (inv_count _ _ _ I x o (no_dead x) F) as (C1 & C2 & _).
      destruct (Nat.eq_dec (held b x) 0) as [H0|H0]; [|apply alive_held; lia]. assert (P : (0 < refs [] h x)%nat) by lia. apply sum_pos in P. destruct P as (p & Lp & Pp). unfold part in Pp. cbn in Pp.
      destruct (fetch h p) as [op|] eqn:Fp; [|lia]. rewrite stored_in in Pp. destruct (E _ _ Fp) as (ep & Ep & _ & Ef). apply (alive_stored b p ep); [|exact Ep|now rewrite Ef].
      apply (IH p op Fp). pose proof (inv_types _ _ _ I p op (no_dead p) Fp) as W. unfold well_typed in W.
      assert (Kx : In (o_kind o) (contains (o_kind op))).
      { clear - W Pp F. induction W as [|k l ks ls H W IHW]; [easy|]. cbn in Pp. apply in_app_or in Pp. destruct Pp as [J|J]; [|right; now apply IHW]. left. destruct (H _ J) as (oc & Fc & Kc). congruence. }
      apply rank_lt in Kx. assert (rank (o_kind op) <= 7)%nat by (destruct (o_kind op); cbn; lia). lia. }
    intro N. destruct (fetch h a) as [o|] eqn:F; [|congruence]. apply (G 8%nat a o F). lia.
Qed.
Lemma kind_fetch b h n a o k : agree b h n -> kind_is b a k -> fetch h a = Some o -> o_kind o = k.
Proof. intros A (e & E & K) F. destruct (ag_entry _ _ _ A _ _ F) as (e' & E' & K' & _). congruence. Qed.
Lemma held_live b h n a : agree b h n -> (0 < held b a)%nat -> exists o, fetch h a = Some o.
Proof. intros A H. destruct (fetch h a) as [o|] eqn:F; [now exists o|]. destruct (inv_none _ _ _ (ag_inv _ _ _ A) a (or_intror F)). lia. Qed.
Lemma append_stored fields i c x : (i < List.length fields)%nat -> stored (append_field fields i c) x = (stored fields x + if (c =? x)%nat then 1 else 0)%nat.
Proof.
  unfold stored. revert i. induction fields as [|l fields IH]; intros i L; [cbn in L; lia|]. destruct i as [|i]; cbn [append_field List.concat].
  - rewrite !count_occ_app. cbn [count_occ]. destruct (Nat.eq_dec c x) as [->|N]; [rewrite Nat.eqb_refl; lia|]. apply Nat.eqb_neq in N. rewrite N. lia.
  - rewrite !count_occ_app. rewrite IH by (cbn in L; lia). lia.
Qed.

Lemma typed_keep h h' ks ls : (forall c, In c (List.concat ls) -> forall o, fetch h c = Some o -> exists o', fetch h' c = Some o' /\ o_kind o' = o_kind o) ->
  Forall2 (fun k l => forall c, In c l -> exists oc, fetch h c = Some oc /\ o_kind oc = k) ks ls ->
  Forall2 (fun k l => forall c, In c l -> exists oc, fetch h' c = Some oc /\ o_kind oc = k) ks ls.
Proof.
  intros H W. induction W as [|k l ks ls T W IH]; constructor.
  - intros c Ic. destruct (T c Ic) as (oc & Fc & Kc). destruct (H c) with (o := oc) as (o' & F' & K'); [cbn; apply in_or_app; now left|exact Fc|]. exists o'. split; [exact F'|congruence].
  - apply IH. intros c Ic. apply H. cbn. apply in_or_app. now right.
Qed.
Lemma create_ok b h n k fields : agree b h n -> 1 <= n -> Forall2 (fun k l => forall a, In a l -> kind_is b a k) (contains k) fields -> (forall a, stored fields a <= held b a)%nat ->
  agree (give b fields ++ [mkEntry k fields 1]) (h ++ [Some (mkObject k 1 fields)]) (n + 1).
Proof.
  intros A Bn T G. pose proof A as A0. destruct A as [L E I B].
  assert (Hg : forall x, held (give b fields ++ [mkEntry k fields 1]) x = if (x =? List.length h)%nat then 1%nat else (held b x - stored fields x)%nat).
  { intro x. unfold held, entry_of. destruct (Nat.eqb_spec x (List.length h)) as [->|N].
    - rewrite nth_error_app2 by (rewrite give_len; lia). rewrite give_len, L, Nat.sub_diag. reflexivity.
    - destruct (Nat.lt_ge_cases x (List.length h)).
      + rewrite nth_error_app1 by (rewrite give_len; lia). pose proof (entry_give b fields x) as Eg. unfold entry_of in Eg. rewrite Eg. pose proof (G x) as Gx. unfold held, entry_of in Gx. destruct (nth_error b x); cbn; [|lia]. lia.
      + assert (X : nth_error (give b fields ++ [mkEntry k fields 1]) x = None) by (apply nth_error_None; rewrite app_length, give_len; cbn; lia). rewrite X. assert (Y : nth_error b x = None) by (apply nth_error_None; lia). rewrite Y. lia. }
  assert (S0 : stored fields (List.length h) = 0%nat). { pose proof (G (List.length h)) as X. unfold held, entry_of in X. assert (Y : nth_error b (List.length h) = None) by (apply nth_error_None; lia). rewrite Y in X. lia. }
  assert (RR : forall x, refs [] (h ++ [Some (mkObject k 1 fields)]) x = (refs [] h x + stored fields x)%nat).
  { intro x. unfold refs. rewrite app_length. cbn [List.length]. rewrite Nat.add_1_r, sum_last. f_equal.
    - apply sum_ext. intros j J. unfold part. cbn. rewrite fetch_app. destruct (Nat.eqb_spec j (List.length h)); [lia|reflexivity].
    - unfold part. cbn. now rewrite fetch_app, Nat.eqb_refl. }
  assert (Rn : refs [] h (List.length h) = 0%nat).
  { apply (inv_none _ _ _ I). right. unfold fetch. assert (Y : nth_error h (List.length h) = None) by (apply nth_error_None; lia). now rewrite Y. }
  assert (Keep : forall c o, fetch h c = Some o -> exists o', fetch (h ++ [Some (mkObject k 1 fields)]) c = Some o' /\ o_kind o' = o_kind o).
  { intros c o F. exists o. rewrite fetch_app. assert (Lc := fetch_lt _ _ _ F). destruct (Nat.eqb_spec c (List.length h)); [lia|]. now split. }
  split.
  - rewrite !app_length, give_len. cbn. lia.
  - intros x o F. rewrite fetch_app in F. unfold entry_of. destruct (Nat.eqb_spec x (List.length h)) as [->|N].
    + injection F as <-. exists (mkEntry k fields 1). rewrite nth_error_app2 by (rewrite give_len; lia). rewrite give_len, L, Nat.sub_diag. repeat split; reflexivity.
    + destruct (E _ _ F) as (e & Ee & X1 & X2). assert (Lx := fetch_lt _ _ _ F). exists (add_held (- Z.of_nat (stored fields x)) e). rewrite nth_error_app1 by (rewrite give_len; lia).
      pose proof (entry_give b fields x) as Eg. unfold entry_of in *. rewrite Eg, Ee. now split.
  - split.
    + intros x o _ F. rewrite Hg, RR. rewrite fetch_app in F. destruct (Nat.eqb_spec x (List.length h)) as [->|N].
      * injection F as <-. cbn [o_count o_kind]. rewrite Rn, S0. split; [reflexivity|]. split; [lia|reflexivity].
      * destruct (inv_count _ _ _ I x o (no_dead x) F) as (X1 & X2 & X3). pose proof (G x). split; [lia|]. split; [exact X2|exact X3].
    + intros x [[]|F]. rewrite fetch_app in F. rewrite Hg, RR. destruct (x =? List.length h)%nat; [discriminate|]. destruct (inv_none _ _ _ I x (or_intror F)). pose proof (G x). lia.
    + intros x o _ F. rewrite fetch_app in F. unfold well_typed. apply (typed_keep h); [intros c _; apply Keep|].
      destruct (Nat.eqb_spec x (List.length h)) as [->|N]; [|apply (inv_types _ _ _ I x o (no_dead x) F)].
      injection F as <-. cbn [o_kind o_fields].
      assert (Lv : forall c, In c (List.concat fields) -> exists o, fetch h c = Some o). { intros c Ic. apply (held_live b h n c A0). rewrite <- stored_in in Ic. specialize (G c). lia. }
      clear - T Lv A0. induction T as [|k' l ks ls H T IH]; constructor.
      * intros c Ic. destruct (Lv c) as (o & Fo); [cbn; apply in_or_app; now left|]. exists o. split; [exact Fo|]. apply (kind_fetch b h n c o k' A0 (H c Ic) Fo).
      * apply IH. intros c Ic. apply Lv. cbn. apply in_or_app. now right.
  - intros x o F. rewrite fetch_app in F. destruct (Nat.eqb_spec x (List.length h)) as [->|N]; [injection F as <-; cbn; lia|]. specialize (B _ _ F). lia.
Qed.
Lemma append_typed h k k' i c fields : nth_error (contains k) i = Some k' -> (exists oc, fetch h c = Some oc /\ o_kind oc = k') ->
  Forall2 (fun k l => forall c, In c l -> exists oc, fetch h c = Some oc /\ o_kind oc = k) (contains k) fields ->
  Forall2 (fun k l => forall c, In c l -> exists oc, fetch h c = Some oc /\ o_kind oc = k) (contains k) (append_field fields i c).
Proof.
  intros N C W. revert i N. induction W as [|k0 l ks ls H W IH]; intros i N; [now destruct i|]. destruct i as [|i]; cbn [append_field nth_error] in *.
  - injection N as ->. constructor; [|exact W]. intros x Ix. apply in_app_or in Ix. destruct Ix as [Ix|[<-|[]]]; [now apply H|exact C].
  - constructor; [exact H|now apply IH].
Qed.
Lemma fields_len h o dead : well_typed dead h o -> List.length (o_fields o) = List.length (contains (o_kind o)).
Proof. unfold well_typed. intro W. induction W; cbn; congruence. Qed.
Lemma append_ok b h n k k' a i c : agree b h n -> (exists o, fetch h a = Some o) -> kind_is b a k -> nth_error (contains k) i = Some k' -> kind_is b c k' -> (0 < held b c)%nat ->
  exists h', exec h (Append k a i c) = Ok h' /\
  agree (change (change b c (add_held (-1))) a (fun e => mkEntry (e_kind e) (append_field (e_fields e) i c) (e_held e))) h' (n + 1).
Proof.
  intros A (o & F) Ka Nk Kc Hc. pose proof A as A0. destruct A as [L E I B]. destruct (held_live b h n c A0 Hc) as (oc & Fc). assert (Ko := kind_fetch b h n a o k A0 Ka F). assert (Koc := kind_fetch b h n c oc k' A0 Kc Fc).
  assert (La := fetch_lt _ _ _ F). assert (W := inv_types _ _ _ I a o (no_dead a) F). assert (Fl := fields_len _ _ _ W).
  assert (Li : (i < List.length (o_fields o))%nat). { rewrite Fl, Ko. apply nth_error_Some. congruence. }
  assert (Nca : c <> a). { intros ->. rewrite F in Fc. injection Fc as ->. apply nth_error_In in Nk. apply rank_lt in Nk. rewrite Ko in Koc. rewrite Koc in Nk. lia. }
  cbn [exec]. rewrite F. set (o' := mkObject (o_kind o) (o_count o) (append_field (o_fields o) i c)). exists (store h a (Some o')). split; [reflexivity|].
  set (g := fun e => mkEntry (e_kind e) (append_field (e_fields e) i c) (e_held e)).
  assert (F1 : forall x, fetch (store h a (Some o')) x = if (x =? a)%nat then Some o' else fetch h x) by (intro x; now apply fetch_store).
  assert (Hd : forall x, held (change (change b c (add_held (-1))) a g) x = if (x =? c)%nat then (held b x - 1)%nat else held b x).
  { intro x. unfold held. rewrite !entry_change. destruct (Nat.eqb_spec x a) as [->|N].
    - destruct (Nat.eqb_spec a c) as [Eq|N2]; [congruence|]. destruct (entry_of b a); reflexivity.
    - destruct (x =? c)%nat; [|reflexivity]. destruct (entry_of b x); cbn [option_map e_held add_held]; lia. }
  assert (RR : forall x, refs [] (store h a (Some o')) x = (refs [] h x + if (c =? x)%nat then 1 else 0)%nat).
  { intro x. pose proof (refs_store [] h a (Some o') (held b) x o I F (no_dead a)) as S. cbn [o_fields o'] in S. unfold o' in S. cbn [o_fields] in S. rewrite append_stored in S by exact Li. fold o' in S. lia. }
  assert (Keep : forall x ox, fetch h x = Some ox -> exists ox', fetch (store h a (Some o')) x = Some ox' /\ o_kind ox' = o_kind ox).
  { intros x ox Fx. rewrite F1. destruct (Nat.eqb_spec x a) as [->|]; [|now exists ox]. exists o'. split; [reflexivity|]. rewrite F in Fx. now injection Fx as <-. }
  split.
  - now rewrite store_len, !change_len.
  - intros x ox Fx. rewrite F1 in Fx. rewrite !entry_change. destruct (Nat.eqb_spec x a) as [->|N].
    + injection Fx as <-. destruct (E _ _ F) as (e & Ee & X1 & X2). destruct (Nat.eqb_spec a c) as [Eq|N2]; [congruence|]. rewrite Ee. exists (g e). cbn. split; [reflexivity|]. split; [exact X1|]. now rewrite X2.
    + destruct (E _ _ Fx) as (e & Ee & X1 & X2). rewrite Ee. destruct (x =? c)%nat; [exists (add_held (-1) e)|exists e]; now split.
  - split.
    + intros x ox _ Fx. rewrite RR, Hd. rewrite F1 in Fx. rewrite (Nat.eqb_sym c x). assert (X : exists ox0, fetch h x = Some ox0 /\ o_count ox0 = o_count ox /\ o_kind ox0 = o_kind ox).
      { destruct (Nat.eqb_spec x a) as [->|]; [injection Fx as <-; exists o; now split|exists ox; now split]. }
      destruct X as (ox0 & Fx0 & Cx & Kx). destruct (inv_count _ _ _ I x ox0 (no_dead x) Fx0) as (X1 & X2 & X3). rewrite <- Cx, <- Kx. split; [|split; [exact X2|exact X3]].
      destruct (Nat.eqb_spec x c) as [->|]; lia.
    + intros x [[]|Fx]. rewrite F1 in Fx. rewrite RR, Hd, (Nat.eqb_sym c x). destruct (x =? a)%nat; [discriminate|]. destruct (Nat.eqb_spec x c) as [->|]; [congruence|]. destruct (inv_none _ _ _ I x (or_intror Fx)). lia.
    + intros x ox _ Fx. rewrite F1 in Fx. unfold well_typed. apply (typed_keep h); [intros y _; apply Keep|]. destruct (Nat.eqb_spec x a) as [->|N]; [|apply (inv_types _ _ _ I x ox (no_dead x) Fx)].
      injection Fx as <-. cbn [o_kind o_fields o']. unfold o'. cbn [o_kind o_fields]. unfold well_typed in W. rewrite Ko in *. apply (append_typed h k k'); [exact Nk|now exists oc|exact W].
  - intros x ox Fx. rewrite F1 in Fx. destruct (Nat.eqb_spec x a) as [->|N]; [injection Fx as <-; cbn; specialize (B _ _ F); lia|]. specialize (B _ _ Fx). lia.
Qed.
Lemma clear_stored fields i x : (stored (clear_field fields i) x + count_occ Nat.eq_dec (nth i fields []) x = stored fields x)%nat.
Proof.
  unfold stored. revert i. induction fields as [|l fields IH]; intros [|i]; cbn [clear_field List.concat nth count_occ]; try reflexivity; rewrite !count_occ_app; [cbn [count_occ]; lia|]. specialize (IH i). lia.
Qed.
Lemma clear_in fields i x : In x (List.concat (clear_field fields i)) -> In x (List.concat fields).
Proof. revert i. induction fields as [|l fields IH]; intros [|i]; cbn [clear_field List.concat]; [easy..| |]; rewrite !in_app_iff; [intros [[]|H]; tauto|]. intros [H|H]; [tauto|]. right. now apply (IH i). Qed.
Lemma clear_typed (P : kind -> list nat -> Prop) ks fields i : (forall k, P k []) -> Forall2 P ks fields -> Forall2 P ks (clear_field fields i).
Proof. intros N W. revert i. induction W as [|k l ks ls H W IH]; intros [|i]; cbn; constructor; auto. Qed.
Lemma field_typed (P : kind -> list nat -> Prop) ks fields i k : Forall2 P ks fields -> nth_error ks i = Some k -> P k (nth i fields []).
Proof. intro W. revert i. induction W as [|k0 l ks ls H W IH]; intros [|i] E; cbn in *; try discriminate; [injection E as ->; exact H|now apply IH]. Qed.
Lemma clear_ok b h n k k' a i : agree b h n -> (exists o, fetch h a = Some o) -> kind_is b a k -> nth_error (contains k) i = Some k' ->
  exists h', exec h (Clear k k' a i) = Ok h' /\
  agree (change b a (fun e => mkEntry (e_kind e) (clear_field (e_fields e) i) (e_held e))) h' (n + 1).
Proof.
  intros A (o & F) Ka Nk. pose proof A as A0. destruct A as [L E I B]. assert (Ko := kind_fetch b h n a o k A0 Ka F).
  assert (La := fetch_lt _ _ _ F). assert (W := inv_types _ _ _ I a o (no_dead a) F).
  cbn [exec]. rewrite F. set (o' := mkObject (o_kind o) (o_count o) (clear_field (o_fields o) i)). set (h1 := store h a (Some o')). set (l := nth i (o_fields o) []).
  set (g := fun e => mkEntry (e_kind e) (clear_field (e_fields e) i) (e_held e)).
  assert (F1 : forall x, fetch h1 x = if (x =? a)%nat then Some o' else fetch h x) by (intro x; now apply fetch_store).
  assert (Hd : forall x, held (change b a g) x = held b x). { intro x. unfold held. rewrite entry_change. destruct (x =? a)%nat; [|reflexivity]. now destruct (entry_of b x). }
  assert (RR : forall x, (refs [] h1 x + count_occ Nat.eq_dec l x = refs [] h x)%nat).
  { intro x. pose proof (refs_store [] h a (Some o') (held b) x o I F (no_dead a)) as S. unfold o' in S. cbn [o_fields] in S. fold o' in S. fold h1 in S. pose proof (clear_stored (o_fields o) i x) as C. fold l in C. lia. }
  assert (Keep : forall x ox, fetch h x = Some ox -> exists ox', fetch h1 x = Some ox' /\ o_kind ox' = o_kind ox).
  { intros x ox Fx. rewrite F1. destruct (Nat.eqb_spec x a) as [->|]; [|now exists ox]. exists o'. split; [reflexivity|]. rewrite F in Fx. now injection Fx as <-. }
  set (e1 := fun x => (held b x + count_occ Nat.eq_dec l x)%nat).
  assert (I1 : inv [] h1 e1).
  { split.
    - intros x ox _ Fx. unfold e1. rewrite F1 in Fx. assert (X : exists ox0, fetch h x = Some ox0 /\ o_count ox0 = o_count ox /\ o_kind ox0 = o_kind ox).
      { destruct (Nat.eqb_spec x a) as [->|]; [injection Fx as <-; exists o; now split|exists ox; now split]. }
      destruct X as (ox0 & Fx0 & Cx & Kx). destruct (inv_count _ _ _ I x ox0 (no_dead x) Fx0) as (X1 & X2 & X3). rewrite <- Cx, <- Kx. split; [|split; [exact X2|exact X3]]. specialize (RR x). lia.
    - intros x [[]|Fx]. rewrite F1 in Fx. destruct (x =? a)%nat; [discriminate|]. destruct (inv_none _ _ _ I x (or_intror Fx)). specialize (RR x). unfold e1. lia.
    - intros x ox _ Fx. rewrite F1 in Fx. unfold well_typed. apply (typed_keep h); [intros y _; apply Keep|]. destruct (Nat.eqb_spec x a) as [->|N]; [|apply (inv_types _ _ _ I x ox (no_dead x) Fx)].
      injection Fx as <-. unfold o'. cbn [o_kind o_fields]. apply clear_typed; [easy|exact W]. }
  destruct (each_frees k' (free_ok k') l [] h1 e1 I1) as (h2 & E2 & I2 & (L2 & K2) & _).
  - unfold well_typed in W. rewrite Ko in W. pose proof (field_typed _ _ _ i k' W Nk) as T. fold l in T. intros c Ic. destruct (T c Ic) as (oc & Fc & Kc). destruct (Keep c oc Fc) as (oc' & Fc' & Kc'). exists oc'. split; [exact Fc'|congruence].
  - intro c. unfold e1. lia.
  - exists h2. split; [exact E2|]. split.
    + rewrite L2. unfold h1. now rewrite store_len, change_len.
    + intros x ox Fx. destruct (K2 _ _ Fx) as (o0 & F0 & K0 & Fs & _). rewrite F1 in F0. rewrite entry_change. destruct (Nat.eqb_spec x a) as [->|N].
      * injection F0 as <-. destruct (E _ _ F) as (e & Ee & X1 & X2). rewrite Ee. exists (g e). cbn. split; [reflexivity|]. rewrite K0, Fs. unfold o'. cbn. split; [exact X1|]. now rewrite X2.
      * destruct (E _ _ F0) as (e & Ee & X1 & X2). exists e. split; [exact Ee|]. split; congruence.
    + eapply inv_ext; [|exact I2]. intro x. rewrite Hd. unfold minus, e1. lia.
    + intros x ox Fx. destruct (K2 _ _ Fx) as (o0 & F0 & _ & _ & C0). rewrite F1 in F0. destruct (Nat.eqb_spec x a) as [->|N]; [injection F0 as <-; unfold o' in C0; cbn in C0; specialize (B _ _ F)|specialize (B _ _ F0)]; lia.
Qed.
Lemma new_ok b h n k a : agree b h n -> n < 2147483647 -> (exists o, fetch h a = Some o) -> kind_is b a k -> counted k ->
  exists h', exec h (NewReference k (Some a)) = Ok h' /\ agree (change b a (add_held 1)) h' (n + 1).
Proof.
  intros A Bn (o & F) Ka Ck. pose proof A as A0. destruct A as [L E I B]. assert (Ko := kind_fetch b h n a o k A0 Ka F). assert (La := fetch_lt _ _ _ F). pose proof (B _ _ F) as Ba.
  cbn [exec]. rewrite F. replace (o_count o <? 2147483647) with true by lia. set (o' := mkObject (o_kind o) (o_count o + 1) (o_fields o)). exists (store h a (Some o')). split; [reflexivity|].
  assert (F1 : forall x, fetch (store h a (Some o')) x = if (x =? a)%nat then Some o' else fetch h x) by (intro x; now apply fetch_store).
  destruct (E _ _ F) as (ea & Ea & Y1 & Y2).
  assert (Hd : forall x, held (change b a (add_held 1)) x = if (x =? a)%nat then (held b x + 1)%nat else held b x).
  { intro x. rewrite held_change. destruct (Nat.eqb_spec x a) as [->|]; [|reflexivity]. unfold held. rewrite Ea. lia. }
  assert (RR : forall x, refs [] (store h a (Some o')) x = refs [] h x).
  { intro x. pose proof (refs_store [] h a (Some o') (held b) x o I F (no_dead a)) as S. cbn [o_fields o'] in S. unfold o' in S. cbn [o_fields] in S. fold o' in S. lia. }
  split.
  - now rewrite store_len, change_len.
  - intros x ox Fx. rewrite F1 in Fx. rewrite entry_change. destruct (Nat.eqb_spec x a) as [->|N].
    + injection Fx as <-. rewrite Ea. exists (add_held 1 ea). now split.
    + now apply E.
  - split.
    + intros x ox _ Fx. rewrite RR, Hd. rewrite F1 in Fx. destruct (Nat.eqb_spec x a) as [->|N].
      * injection Fx as <-. destruct (inv_count _ _ _ I a o (no_dead a) F) as (X1 & X2 & X3). unfold o'. cbn [o_count o_kind]. split; [lia|]. split; [lia|]. intro X. rewrite Ko in X. contradiction.
      * now apply (inv_count _ _ _ I).
    + intros x [[]|Fx]. rewrite F1 in Fx. rewrite RR, Hd. destruct (x =? a)%nat; [discriminate|]. apply (inv_none _ _ _ I). now right.
    + intros x ox _ Fx. rewrite F1 in Fx. apply (typed_store _ _ _ o o' ox F eq_refl). destruct (Nat.eqb_spec x a) as [->|N]; [|now apply (inv_types _ _ _ I x)].
      injection Fx as <-. exact (inv_types _ _ _ I a o (no_dead a) F).
  - intros x ox Fx. rewrite F1 in Fx. destruct (Nat.eqb_spec x a) as [->|N]; [injection Fx as <-; cbn; lia|]. specialize (B _ _ Fx). lia.
Qed.
Lemma release_ok b h n k a : agree b h n -> kind_is b a k -> (0 < held b a)%nat -> exists h', exec h (Free k (Some a)) = Ok h' /\ agree (change b a (add_held (-1))) h' (n + 1).
Proof.
  intros A Ka Ha. pose proof A as A0. destruct A as [L E I B]. destruct (held_live b h n a A0 Ha) as (o & F). assert (Ko := kind_fetch b h n a o k A0 Ka F).
  destruct (free_ok k [] h (held b) a o I (no_dead a) F Ko ltac:(lia)) as (h' & X & I' & (L' & K') & _). exists h'. split; [exact X|]. split.
  - now rewrite L', change_len.
  - intros x ox Fx. destruct (K' _ _ Fx) as (o0 & F0 & K0 & Fs & _). destruct (E _ _ F0) as (e & Ee & X1 & X2). rewrite entry_change, Ee. destruct (x =? a)%nat; [exists (add_held (-1) e)|exists e]; cbn; (split; [reflexivity|]); split; congruence.
  - eapply inv_ext; [|exact I']. intro x. rewrite held_change. unfold dec. destruct (Nat.eqb_spec x a) as [->|]; [|reflexivity]. unfold held. destruct (entry_of b a); lia.
  - intros x ox Fx. destruct (K' _ _ Fx) as (o0 & F0 & _ & _ & C0). specialize (B _ _ F0). lia.
Qed.
Lemma agree_more b h n : agree b h n -> agree b h (n + 1).
Proof. intros [L E I B]. split; try assumption. intros a o F. specialize (B a o F). lia. Qed.
Lemma step_ok b h n c b' : agree b h n -> 1 <= n < 2147483647 -> allowed b c b' -> exists h', exec h c = Ok h' /\ agree b' h' (n + 1).
Proof.
  intros A Bn Al. assert (Lv : forall a, alive b a -> exists o, fetch h a = Some o). { intros a H. apply (agree_live _ _ _ A) in H. destruct (fetch h a) as [o|]; [now exists o|congruence]. }
  inversion Al; subst.
  - eexists. split; [reflexivity|]. apply create_ok; try assumption. lia.
  - apply (append_ok b h n k k'); auto.
  - apply clear_ok; auto.
  - apply new_ok; auto. lia.
  - exists h. split; [reflexivity|now apply agree_more].
  - now apply release_ok.
  - exists h. split; [reflexivity|now apply agree_more].
Qed.
Lemma history_ok l : forall b h n b', agree b h n -> 1 <= n -> n + Z.of_nat (List.length l) <= 2147483647 -> history b l b' ->
  exists h', exec_all h l = Ok h' /\ agree b' h' (n + Z.of_nat (List.length l)).
Proof.
  induction l as [|c l IH]; intros b h n b' A N B H; inversion H; subst.
  - exists h. split; [reflexivity|]. cbn. now rewrite Z.add_0_r.
  - cbn [List.length] in *. destruct (step_ok b h n c b2 A ltac:(lia)) as (h1 & E1 & A1); [assumption|]. cbn [exec_all]. rewrite E1. cbn [obind].
    destruct (IH b2 h1 (n + 1) b' A1) as (h2 & E2 & A2); [lia|lia|assumption|]. exists h2. split; [exact E2|]. replace (n + Z.of_nat (S (List.length l))) with (n + 1 + Z.of_nat (List.length l)) by lia. exact A2.
Qed.
Lemma agree_empty : agree [] [] 1.
Proof.
  split; [reflexivity| | |].
  - intros a o F. apply fetch_lt in F. cbn in F. lia.
  - split.
    + intros a o _ F. apply fetch_lt in F. cbn in F. lia.
    + intros a _. split; [unfold held, entry_of; now destruct a|reflexivity].
    + intros a o _ F. apply fetch_lt in F. cbn in F. lia.
  - intros a o F. apply fetch_lt in F. cbn in F. lia.
Qed.
(** Whatever the client does within its rights, no call touches a released object, and an object is
    allocated exactly while the client holds a reference to it or it is stored in a living object.
    (Fewer than 2^31 - 1 calls: the count is an int.) *)
Theorem C37_alive_while_referenced l b : history [] l b -> Z.of_nat (List.length l) < 2^31 - 1 ->
  exists h, exec_all [] l = Ok h /\ forall a, fetch h a <> None <-> alive b a.
Proof.
  intros H B. destruct (history_ok l [] [] 1 b agree_empty ltac:(lia) ltac:(lia) H) as (h & E & A). exists h. split; [exact E|]. intro a. symmetry. now apply (agree_live _ _ _ A).
Qed.
Print Assumptions C37_alive_while_referenced.
(** The reference count of a living object is the number of references the client holds plus the
    number of places it is stored in. *)
Theorem C37_count l b h a o : history [] l b -> Z.of_nat (List.length l) < 2^31 - 1 -> exec_all [] l = Ok h -> fetch h a = Some o ->
  o_count o = Z.of_nat (held b a + fold_right (fun p n => (match fetch h p with Some q => stored (o_fields q) a | None => 0 end + n)%nat) 0%nat (seq 0 (List.length h))).
Proof.
  intros H B E F. destruct (history_ok l [] [] 1 b agree_empty ltac:(lia) ltac:(lia) H) as (h' & E' & A). rewrite E in E'. injection E' as <-. destruct (inv_count _ _ _ (ag_inv _ _ _ A) a o (no_dead a) F) as (C & _).
  exact C.
Qed.
Print Assumptions C37_count.
(** When the client has given back every reference, nothing is left allocated. *)
Theorem C37_no_leak l b : history [] l b -> Z.of_nat (List.length l) < 2^31 - 1 -> (forall a, held b a = 0%nat) ->
  exists h, exec_all [] l = Ok h /\ forall a, fetch h a = None.
Proof.
  intros H B Z0. destruct (C37_alive_while_referenced l b H B) as (h & E & Lv). exists h. split; [exact E|]. intro a. destruct (fetch h a) eqn:F; [|reflexivity]. exfalso.
  assert (Al : alive b a) by (apply Lv; congruence). clear - Al Z0. induction Al as [a P|p e a _ IH _ _]; [rewrite Z0 in P; lia|exact IH].
Qed.
Print Assumptions C37_no_leak.
(** An object that was never stored anywhere lives exactly as long as frees are fewer than references taken. *)
Definition taken (l : list call) (a : nat) : nat := List.length (filter (fun c => match c with NewReference _ (Some x) => (x =? a)%nat | _ => false end) l).
Definition freed (l : list call) (a : nat) : nat := List.length (filter (fun c => match c with Free _ (Some x) => (x =? a)%nat | _ => false end) l).
Definition never_stored (l : list call) (a : nat) : Prop :=
  forall c, In c l -> match c with Create _ fields => ~ In a (List.concat fields) | Append _ _ _ x => x <> a | _ => True end.
Lemma held_history l : forall b b' a, history b l b' -> (a < List.length b)%nat -> never_stored l a -> (held b' a + freed l a = held b a + taken l a)%nat /\ (List.length b <= List.length b')%nat.
Proof.
  induction l as [|c l IH]; intros b b' a H La NS; inversion H; subst; [cbn; lia|].
  assert (NS' : never_stored l a) by (intros x I; apply NS; now right). pose proof (NS c (or_introl eq_refl)) as Nc.
  assert (K : (held b2 a + freed [c] a = held b a + taken [c] a)%nat /\ (List.length b <= List.length b2)%nat).
  { match goal with X : allowed _ _ _ |- _ => inversion X; subst end; unfold freed, taken; cbn [filter].
    - cbn [List.length]. split; [|rewrite app_length, give_len; lia]. unfold held, entry_of. rewrite nth_error_app1 by (rewrite give_len; exact La). pose proof (entry_give b fields a) as Eg. unfold entry_of in Eg. rewrite Eg.
      assert (S0 : stored fields a = 0%nat) by (destruct (stored fields a) eqn:Q; [reflexivity|exfalso; apply Nc; apply stored_in; lia]). rewrite S0. destruct (nth_error b a); cbn; lia.
    - cbn [List.length]. split; [|rewrite !change_len; lia]. unfold held. rewrite !entry_change. destruct (Nat.eqb_spec a c0) as [->|_]; [congruence|]. destruct (a =? a0)%nat; destruct (entry_of b a); cbn; lia.
    - cbn [List.length]. split; [|rewrite change_len; lia]. unfold held. rewrite entry_change. destruct (a =? a0)%nat; destruct (entry_of b a); cbn; lia.
    - split; [|rewrite change_len; lia]. rewrite held_change. rewrite (Nat.eqb_sym a0 a). destruct (Nat.eqb_spec a a0) as [->|_]; cbn [List.length]; [|lia]. unfold held. destruct (entry_of b a0) eqn:Q; [lia|]. match goal with X : kind_is _ _ _ |- _ => destruct X as (e & Qe & _) end. congruence.
    - cbn. lia.
    - split; [|rewrite change_len; lia]. rewrite held_change. rewrite (Nat.eqb_sym a0 a). destruct (Nat.eqb_spec a a0) as [->|_]; cbn [List.length]; [|lia]. unfold held in *. destruct (entry_of b a0) eqn:Q; lia.
    - cbn. lia. }
  destruct K as (K1 & K2). match goal with X : history b2 l b' |- _ => destruct (IH _ _ a X ltac:(lia) NS') as (J1 & J2) end. split; [|lia].
  assert (S1 : freed (c :: l) a = (freed [c] a + freed l a)%nat) by (unfold freed; cbn [filter]; destruct c as [| | |? [?|]|? [?|]]; try reflexivity; destruct (_ =? _)%nat; reflexivity).
  assert (S2 : taken (c :: l) a = (taken [c] a + taken l a)%nat) by (unfold taken; cbn [filter]; destruct c as [| | |? [?|]|? [?|]]; try reflexivity; destruct (_ =? _)%nat; reflexivity).
  lia.
Qed.

Lemma append_in fields i c x : In x (List.concat (append_field fields i c)) -> In x (List.concat fields) \/ x = c.
Proof.
  revert i. induction fields as [|l fields IH]; intros [|i]; cbn [append_field List.concat]; [easy..| |]; rewrite !in_app_iff.
  - intros [[H|[<-|[]]]|H]; tauto.
  - intros [H|H]; [tauto|]. destruct (IH i H); tauto.
Qed.
Definition fields_in (b : books) (P : nat -> Prop) : Prop := forall p e x, entry_of b p = Some e -> In x (List.concat (e_fields e)) -> P x.
Lemma fields_step (P : nat -> Prop) b c b' : fields_in b P -> (match c with Create _ fields => forall x, In x (List.concat fields) -> P x | Append _ _ _ x => P x | _ => True end) -> allowed b c b' -> fields_in b' P.
Proof.
  intros F Pc Al p e x Ep Ix. inversion Al; subst; try (now apply (F p e)).
  - unfold entry_of in Ep. destruct (Nat.lt_ge_cases p (List.length b)) as [Lp|Lp].
    + rewrite nth_error_app1 in Ep by (now rewrite give_len). pose proof (entry_give b fields p) as Eg. unfold entry_of in Eg. rewrite Eg in Ep. destruct (nth_error b p) as [e0|] eqn:E0; [|discriminate]. injection Ep as <-. now apply (F p e0).
    + rewrite nth_error_app2 in Ep by (rewrite give_len; exact Lp). destruct (p - List.length (give b fields))%nat as [|m]; [injection Ep as <-; now apply Pc|]. now destruct m.
  - rewrite !entry_change in Ep. destruct (p =? a)%nat; destruct (p =? c0)%nat; destruct (entry_of b p) as [e0|] eqn:E0; try discriminate; injection Ep as <-; cbn [e_fields add_held] in Ix;
      try (apply append_in in Ix; destruct Ix as [Ix| ->]; [|exact Pc]); now apply (F p e0).
  - rewrite entry_change in Ep. destruct (p =? a)%nat; destruct (entry_of b p) as [e0|] eqn:E0; try discriminate; injection Ep as <-; cbn [e_fields] in Ix; try apply clear_in in Ix; now apply (F p e0).
  - rewrite entry_change in Ep. destruct (p =? a)%nat; destruct (entry_of b p) as [e0|] eqn:E0; try discriminate; injection Ep as <-; now apply (F p e0).
  - rewrite entry_change in Ep. destruct (p =? a)%nat; destruct (entry_of b p) as [e0|] eqn:E0; try discriminate; injection Ep as <-; now apply (F p e0).
Qed.
Lemma kind_lt b a k : kind_is b a k -> (a < List.length b)%nat.
Proof. intros (e & E & _). apply nth_error_Some. unfold entry_of in E. congruence. Qed.
Lemma allowed_grows b c b' : allowed b c b' -> (List.length b <= List.length b')%nat.
Proof. intro Al. inversion Al; subst; rewrite ?app_length, ?give_len, ?change_len; lia. Qed.
Lemma fields_lt b ks fields x : Forall2 (fun k l => forall a, In a l -> kind_is b a k) ks fields -> In x (List.concat fields) -> (x < List.length b)%nat.
Proof. intro T. induction T as [|k l ks ls H T IH]; [easy|]. cbn. rewrite in_app_iff. intros [J|J]; [now apply (kind_lt b x k); apply H|now apply IH]. Qed.
Lemma history_below l : forall b b', history b l b' -> fields_in b (fun x => (x < List.length b)%nat) -> fields_in b' (fun x => (x < List.length b')%nat).
Proof.
  induction l as [|c l IH]; intros b b' H F; inversion H; subst; [exact F|]. match goal with X : allowed _ _ _, Y : history _ _ _ |- _ => pose proof X as Al; apply (IH _ _ Y); clear Y end.
  pose proof (allowed_grows _ _ _ Al) as G. apply (fields_step _ b c b2); [| |exact Al].
  - intros p e x Ep Ix. specialize (F p e x Ep Ix). cbn in F. lia.
  - inversion Al; subst; try exact Logic.I.
    + intros x Ix. assert (Lx : (x < List.length b)%nat); [|lia]. now apply (fields_lt b (contains k) fields).
    + match goal with K : kind_is _ c0 _ |- _ => apply kind_lt in K; lia end.
Qed.
Lemma fields_history (P : nat -> Prop) l : forall b b', history b l b' -> fields_in b P ->
  (forall c, In c l -> match c with Create _ fields => forall x, In x (List.concat fields) -> P x | Append _ _ _ x => P x | _ => True end) -> fields_in b' P.
Proof.
  induction l as [|c l IH]; intros b b' H F Pl; inversion H; subst; [exact F|]. match goal with X : allowed _ _ _, Y : history _ _ _ |- _ => apply (IH _ _ Y) end; [|intros; apply Pl; now right].
  eapply fields_step; [exact F|apply Pl; now left|eassumption].
Qed.
Lemma history_app l1 : forall b1 b2 l2 b3, history b1 l1 b2 -> history b2 l2 b3 -> history b1 (l1 ++ l2) b3.
Proof. induction l1 as [|c l IH]; intros b1 b2 l2 b3 H1 H2; inversion H1; subst; [exact H2|]. cbn. econstructor; [eassumption|]. eapply IH; eassumption. Qed.
Theorem C37_released_when_equal l1 b1 k fields b2 l2 b3 : history [] l1 b1 -> allowed b1 (Create k fields) b2 -> history b2 l2 b3 ->
  let a := List.length b1 in never_stored l2 a -> Z.of_nat (List.length l1 + 1 + List.length l2) < 2^31 - 1 ->
  exists h, exec_all [] (l1 ++ Create k fields :: l2) = Ok h /\ (fetch h a <> None <-> (freed l2 a < 1 + taken l2 a)%nat).
Proof.
  intros H1 Al H2 a NS B. assert (H : history [] (l1 ++ Create k fields :: l2) b3) by (eapply history_app; [exact H1|]; econstructor; eassumption).
  destruct (C37_alive_while_referenced _ _ H) as (h & E & Lv); [rewrite app_length; cbn [List.length]; lia|]. exists h. split; [exact E|]. rewrite Lv.
  assert (Below : fields_in b1 (fun x => (x < List.length b1)%nat)). { apply (history_below l1 [] b1 H1). intros p e x Ep. unfold entry_of in Ep. now destruct p. }
  assert (F2 : fields_in b2 (fun x => x <> a)).
  { apply (fields_step _ b1 (Create k fields) b2); [| |exact Al].
    - intros p e x Ep Ix. specialize (Below p e x Ep Ix). cbn in Below. unfold a. lia.
    - intros x Ix. inversion Al; subst. match goal with T : Forall2 _ _ _ |- _ => pose proof (fields_lt _ _ _ _ T Ix) end. unfold a. lia. }
  assert (F3 : fields_in b3 (fun x => x <> a)).
  { apply (fields_history _ l2 b2 b3 H2 F2). intros c Ic. specialize (NS c Ic). destruct c; try exact Logic.I; [|exact NS]. intros x Ix ->. contradiction. }
  assert (La : (a < List.length b2)%nat). { inversion Al; subst. rewrite app_length, give_len. cbn. unfold a. lia. }
  destruct (held_history l2 b2 b3 a H2 La NS) as (Hd & _).
  assert (H0 : held b2 a = 1%nat). { inversion Al; subst. unfold held, entry_of. rewrite nth_error_app2 by (rewrite give_len; unfold a; lia). rewrite give_len. unfold a. now rewrite Nat.sub_diag. }
  split.
  - intro Av. inversion Av; subst; [lia|]. exfalso. match goal with X : In _ (List.concat (e_fields ?e)), Y : entry_of b3 ?p = Some ?e |- _ => exact (F3 p e a Y X eq_refl) end.
  - intro Lt. apply alive_held. lia.
Qed.
Print Assumptions C37_released_when_equal.
(** A preview with one page; the client keeps a reference to the page and frees the preview, then the page. *)
Definition ex_calls : list call := [Create KString []; Create KPage [[0%nat]]; Create KPreview [[]]; Append KPreview 2 0 1; NewReference KPage (Some 1%nat); Free KPreview (Some 2%nat)].
Definition ex_books : books := [mkEntry KString [] 0; mkEntry KPage [[0%nat]] 1; mkEntry KPreview [[1%nat]] 0].
Example C37_witness : history [] ex_calls ex_books /\ exec_all [] ex_calls = Ok [Some (mkObject KString 1 []); Some (mkObject KPage 1 [[0%nat]]); None] /\
  history [] (ex_calls ++ [Free KPage (Some 1%nat)]) [mkEntry KString [] 0; mkEntry KPage [[0%nat]] 0; mkEntry KPreview [[1%nat]] 0] /\ exec_all [] (ex_calls ++ [Free KPage (Some 1%nat)]) = Ok [None; None; None].
Proof.
  assert (St : history [] ex_calls ex_books).
  { unfold ex_calls. econstructor; [apply (allowed_create [] KString []); [constructor|intro a; cbn; lia]|]. cbn.
    econstructor; [apply (allowed_create [mkEntry KString [] 1] KPage [[0%nat]])|].
    - constructor; [|constructor]. intros a [<-|[]]. now exists (mkEntry KString [] 1).
    - intros [|a]; [cbn; lia|]. unfold stored. cbn. lia.
    - cbn. econstructor; [apply (allowed_create _ KPreview [[]]); [constructor; [easy|constructor]|intro a; cbn; lia]|]. cbn.
      econstructor; [apply (allowed_append _ KPreview KPage 2 0 1)|].
      + apply alive_held. cbn. lia.
      + now exists (mkEntry KPreview [[]] 1).
      + reflexivity.
      + now exists (mkEntry KPage [[0%nat]] 1).
      + cbn. lia.
      + cbn. econstructor; [apply (allowed_new _ KPage 1)|].
        * apply (alive_stored _ 2 (mkEntry KPreview [[1%nat]] 1)); [apply alive_held; cbn; lia|reflexivity|now left].
        * now exists (mkEntry KPage [[0%nat]] 0).
        * split; discriminate.
        * cbn. econstructor; [apply (allowed_free _ KPreview 2); [now exists (mkEntry KPreview [[1%nat]] 1)|cbn; lia]|]. cbn. constructor. }
  split; [exact St|]. split; [vm_compute; reflexivity|]. split; [|vm_compute; reflexivity].
  eapply history_app; [exact St|]. econstructor; [apply (allowed_free _ KPage 1); [now exists (mkEntry KPage [[0%nat]] 1)|cbn; lia]|]. cbn. constructor.
Qed.
