(** Save, then load: the tree comes back. *)
From Verif Require Import CBase CBaseProofs XmlEntity XmlModel SpecXml Utf8Proofs XmlTermProofs TrimProofs XmlProofs.

(** The tree read back, for indentation strings in [W]. *)
Inductive same (W : cstr -> Prop) : node -> node -> Prop :=
| same_leaf n a : same W (Elem n a []) (Elem n a [])
| same_text n a s w1 w2 : W w1 -> W w2 -> same W (Elem n a [Opaque s]) (Elem n a [Opaque (w1 ++ s ++ w2)])
| same_elems n a ks ks' : ks <> [] -> weave W ks ks' -> same W (Elem n a ks) (Elem n a ks')
with weave (W : cstr -> Prop) : list node -> list node -> Prop :=
| weave_nil w : W w -> weave W [] (pend w)
| weave_cons w k k' ks ks' : W w -> is_elem k = true -> same W k k' -> weave W ks ks' -> weave W (k :: ks) (pend w ++ k' :: ks').
Scheme same_mut := Minimality for same Sort Prop with weave_mut := Minimality for weave Sort Prop.
Combined Scheme same_weave_ind from same_mut, weave_mut.

Lemma cdata_name_write p : write_tag_name (s2z "![CDATA[" ++ p ++ s2z "]]") = s2z "![CDATA[" ++ p ++ s2z "]]".
Proof. reflexivity. Qed.
Lemma name_special n : name_ok n -> is_special n = false.
Proof. intros (H & F & _). destruct n as [|x n]; [congruence|]. cbn. inversion F; subst. unfold name_char in *. lia. Qed.
Lemma name_tag_write n : name_ok n -> write_tag_name n = n.
Proof.
  intros H. pose proof H as (H0 & F & _). unfold write_tag_name.
  destruct n as [|x n]; [congruence|]. inversion F; subst.
  assert (E : has_prefix COMMENT (x :: n) = false /\ has_prefix CDATA (x :: n) = false).
  { assert (A : (33 =? x) = false) by (unfold name_char in *; lia).
    split; [transitivity ((33 =? x) && has_prefix (tl COMMENT) n)|transitivity ((33 =? x) && has_prefix (tl CDATA) n)];
      try reflexivity; now rewrite A. }
  destruct E as (-> & ->). cbn [orb]. rewrite (write_name_ok (x :: n) H).
  destruct x as [|p|p]; try reflexivity. do 6 (destruct p as [p|p|]; try reflexivity).
Qed.

Lemma name_plain n : name_ok n -> note_name n = false.
Proof. intros (H & F & _). destruct n as [|x n]; [congruence|]. inversion F; subst. unfold note_name, name_char in *. replace (x =? 63) with false by lia. now replace (x =? 33) with false by lia. Qed.
Lemma wf_is_elem t : wf t -> is_elem t = true.
Proof.
  intro H. inversion H; subst; try reflexivity.
  - unfold is_elem. rewrite name_plain by assumption. now destruct a.
  - now destruct a.
  - now destruct a.
Qed.

Section Round.
Variable W : cstr -> Prop.
Hypothesis Wb : forall w, W w -> blank w.
Hypothesis W0 : W [].
Hypothesis Wapp : forall a b, W a -> W b -> W (a ++ b).
Variable ws : ws_cb.
Hypothesis Hws : forall path t p, W (ws path t p).

Definition top_after (S : list frame) (tp : option node) (t : node) := match S with [] => Some t | _ => tp end.
Definition good_state (S : list frame) (tp : option node) (b : cstr) (op : bool) : Prop :=
  W b /\ (S = [] -> tp = None) /\ (op = false -> S = [] /\ b = []).
Lemma node_ind2 (P : node -> Prop) :
  (forall n a ks, Forall P ks -> P (Elem n a ks)) -> (forall s, P (Opaque s)) -> forall t, P t.
Proof.
  intros HE HO. fix IH 1. intros [n a ks|s]; [|apply HO]. apply HE.
  induction ks as [|k ks IHk]; constructor; [apply IH|exact IHk].
Qed.
Lemma top_step S tp b op w r : good_state S tp b op -> W w ->
  exists b1, W b1 /\ (op = false -> b1 = []) /\ reach (mkP S tp b op) (tok8 (w ++ r)) (mkP S tp b1 op) (tok8 r).
Proof.
  intros (B & T & O) Hw. destruct op.
  - exists (b ++ w). repeat split; [auto|discriminate|]. apply reach_blank. auto.
  - destruct (O eq_refl) as (-> & ->). exists []. repeat split; auto. apply reach_blank_top. auto.
Qed.
Lemma attach_elem S tp n a ks op : (S = [] -> tp = None) ->
  attach (Elem n a ks) (mkP S tp [] op) = mkP (add_kids S [Elem n a ks]) (top_after S tp (Elem n a ks)) [] op.
Proof. intro H. unfold attach, top_after. destruct S; cbn; [rewrite H by reflexivity|]; reflexivity. Qed.
Lemma add_kids_app S a b : add_kids (add_kids S a) b = add_kids S (b ++ a).
Proof. destruct S; cbn; [reflexivity|]. now rewrite app_assoc. Qed.
Lemma add_kids_empty S a : add_kids S a = [] <-> S = [].
Proof. destruct S; cbn; split; congruence. Qed.

Definition round (t : node) : Prop := forall path S tp b op r,
  good_state S tp b op ->
  exists t' w b' op', same W t t' /\ W w /\ W b' /\ (op' = false -> op = false /\ b' = []) /\
    reach (mkP S tp b op) (tok8 (write_node ws path t ++ r))
          (mkP (add_kids S (t' :: pend w)) (top_after S tp t') b' op') (tok8 r).

(** '<' and what follows it, with the pending text flushed. *)
Lemma step_tag S tp b op t : (op = false -> b = []) ->
  step (mkP S tp b op) (tok8 (60 :: t)) = tag (mkP (add_kids S (pend b)) tp [] op) (tok8 t).
Proof.
  intro H. rewrite tok8_ascii by lia. unfold step. change (60 =? 60) with true. cbv iota.
  destruct (flush_pend S tp b op H) as (-> & ->). reflexivity.
Qed.
Lemma second_root_no S tp b op : (S = [] -> tp = None) -> second_root (mkP S tp b op) = false.
Proof. intro H. unfold second_root. cbn. destruct S; [rewrite H by reflexivity|]; reflexivity. Qed.
(** Content of an element: its children. *)
Lemma round_kids path ks : Forall (fun k => round k /\ is_elem k = true) ks -> forall f l tp b r, W b ->
  exists ks1 b', W b' /\ (forall w, W w -> weave W ks (ks1 ++ pend (b' ++ w))) /\
    reach (mkP (f :: l) tp b true) (tok8 (flat_map (write_node ws path) ks ++ r))
          (mkP (add_kids (f :: l) (rev ks1)) tp b' true) (tok8 r).
Proof.
  induction 1 as [|k ks (Hk & Ek) _ IH]; intros f l tp b r B.
  - exists [], b. repeat split; auto; [intros; constructor; auto|]. cbn. destruct f. apply reach_refl.
  - cbn [flat_map]. rewrite <- app_assoc.
    destruct (Hk path (f :: l) tp b true (flat_map (write_node ws path) ks ++ r)) as (k' & w & b1 & op' & S1 & Ww & Wb1 & Op & R).
    { repeat split; auto; discriminate. }
    assert (op' = true) as -> by (destruct op'; [reflexivity|destruct (Op eq_refl); discriminate]).
    cbn [add_kids top_after] in R.
    destruct (IH (mkFrame (fr_name f) (fr_attrs f) ((k' :: pend w) ++ fr_kids f)) l tp b1 r Wb1) as (ks1 & b' & Wb' & V & R2).
    exists (pend w ++ k' :: ks1), b'. repeat split; auto.
    + intros w2 W2. rewrite <- app_assoc. cbn [app]. constructor; auto.
    + eapply reach_trans; [exact R|]. cbn [add_kids fr_name fr_attrs fr_kids] in *.
      replace (rev (pend w ++ k' :: ks1) ++ fr_kids f) with (rev ks1 ++ (k' :: pend w) ++ fr_kids f); [exact R2|].
      rewrite rev_app_distr. cbn [rev]. rewrite <- !app_assoc. cbn [app]. destruct w; reflexivity.
Qed.

Theorem round_trip : forall t, wf t -> round t.
Proof.
  apply (node_ind2 (fun t => wf t -> round t)); [|intros s H; inversion H].
  intros n a ks IH Hwf path S tp b op r G. cbn [write_node].
  set (T := Elem n a ks).
  destruct (top_step S tp b op (ws path T BeforeOpen)
    (60 :: write_tag_name n ++ flat_map write_attr a ++
      match ks with
      | [] => (if is_special n then [62] else [32; 47; 62]) ++ ws path T AfterOpen
      | _ :: _ => 62 :: ws path T AfterOpen ++ flat_map (write_node ws (n :: path)) ks ++
             (if is_special n then [] else ws path T BeforeClose ++ 60 :: 47 :: escape n ++ 62 :: ws path T AfterClose)
      end ++ r) G (Hws _ _ _)) as (b1 & B1 & O1 & R1).
  destruct G as (Gb & Gt & Go1).
  assert (R0 : forall st2, reach (mkP S tp b1 op) (tok8 (60 :: write_tag_name n ++ flat_map write_attr a ++
      match ks with
      | [] => (if is_special n then [62] else [32; 47; 62]) ++ ws path T AfterOpen
      | _ :: _ => 62 :: ws path T AfterOpen ++ flat_map (write_node ws (n :: path)) ks ++
             (if is_special n then [] else ws path T BeforeClose ++ 60 :: 47 :: escape n ++ 62 :: ws path T AfterClose)
      end ++ r)) st2 (tok8 r) ->
     reach (mkP S tp b op) (tok8 ((ws path T BeforeOpen ++ 60 :: write_tag_name n ++ flat_map write_attr a ++
      match ks with
      | [] => (if is_special n then [62] else [32; 47; 62]) ++ ws path T AfterOpen
      | _ :: _ => 62 :: ws path T AfterOpen ++ flat_map (write_node ws (n :: path)) ks ++
             (if is_special n then [] else ws path T BeforeClose ++ 60 :: 47 :: escape n ++ 62 :: ws path T AfterClose)
      end) ++ r)) st2 (tok8 r)).
  { intros st2 R2. eapply reach_trans; [|exact R2]. rewrite <- !app_assoc, <- app_comm_cons, <- !app_assoc. exact R1. }
  clear R1.
  assert (Gt' : add_kids S (pend b1) = [] -> tp = None) by (rewrite add_kids_empty; exact Gt).
  assert (TA : forall x, top_after (add_kids S (pend b1)) tp x = top_after S tp x) by (intro; destruct S; reflexivity).
  (* a node without content *)
  assert (Leaf : forall e, reach (mkP (add_kids S (e :: pend b1)) (top_after S tp e) [] op)
             (tok8 (ws path T AfterOpen ++ r))
             (mkP (add_kids S (e :: pend b1)) (top_after S tp e) (if op then ws path T AfterOpen else []) op) (tok8 r)).
  { intro e. destruct op.
    - apply (reach_blank _ _ (ws path T AfterOpen) (Wb _ (Hws _ _ _)) r []).
    - apply reach_blank_top. auto. }
  assert (Wl : W (if op then ws path T AfterOpen else [])) by (destruct op; auto).
  inversion Hwf as [n' a' Hn Ha|n' a' s Hn Ha Hs Ts|n' a' k ks' Hn Ha Hk|p Hp]; subst.
  - (* empty element *)
    exists T, b1, (if op then ws path T AfterOpen else []), op.
    split; [constructor|]. split; [assumption|]. split; [assumption|]. split; [intros ->; auto|].
    apply R0. rewrite name_tag_write, name_special by assumption.
    eapply reach_trans; [apply reach_one|apply Leaf].
    rewrite step_tag by assumption. rewrite <- app_assoc.
    rewrite (open_tag_text n a [32; 47; 62] 47); auto; [|right; auto|now apply second_root_no].
    change (47 =? 47) with true. cbv iota. rewrite attach_elem by assumption. now rewrite add_kids_app, TA.
  - (* text *)
    exists (Elem n a [Opaque (ws path T AfterOpen ++ s ++ ws path T BeforeClose)]), b1, (ws path T AfterClose), true.
    split; [constructor; auto|]. split; [assumption|]. split; [auto|]. split; [discriminate|].
    apply R0. rewrite name_tag_write, name_special by assumption. cbn [flat_map write_node].
    rewrite app_nil_r. rewrite <- app_comm_cons, <- !app_assoc, <- !app_comm_cons, <- app_assoc, <- app_comm_cons.
    eapply reach_step.
    { rewrite step_tag by assumption.
      etransitivity; [apply (open_tag_text n a [62] 62); auto; [left; auto|now apply second_root_no]|reflexivity]. }
    unfold push. cbn [stack top].
    eapply reach_trans; [apply (reach_blank _ _ (ws path T AfterOpen)); auto|].
    eapply reach_trans; [apply reach_escape; assumption|].
    eapply reach_trans; [apply (reach_blank _ _ (ws path T BeforeClose)); auto|].
    eapply reach_step; [apply close_tag_text; [assumption|reflexivity]|]. cbn [fr_attrs fr_kids].
    rewrite attach_elem by assumption. rewrite add_kids_app, TA.
    assert (X : pend ((([] ++ ws path T AfterOpen) ++ s) ++ ws path T BeforeClose) = [Opaque (ws path T AfterOpen ++ s ++ ws path T BeforeClose)]).
    { cbn [app]. rewrite <- app_assoc. destruct (ws path T AfterOpen ++ s ++ ws path T BeforeClose) eqn:Z; [|reflexivity].
      exfalso. apply app_eq_nil in Z as (_ & Z). apply app_eq_nil in Z as (Z & _). contradiction. }
    rewrite X. cbn [app rev]. apply (reach_blank _ _ (ws path T AfterClose) (Wb _ (Hws _ _ _)) r []).
  - (* elements *)
    assert (IHk : Forall (fun k => round k /\ is_elem k = true) (k :: ks')).
    { rewrite Forall_forall in *. intros x Hx. split; [now apply IH, Hk|now apply wf_is_elem, Hk]. }
    destruct (round_kids (n :: path) (k :: ks') IHk (mkFrame n a []) (add_kids S (pend b1)) tp (ws path T AfterOpen)
                (ws path T BeforeClose ++ 60 :: 47 :: escape n ++ 62 :: ws path T AfterClose ++ r)) as (ks1 & b2 & B2 & V & R2); [auto|].
    exists (Elem n a (ks1 ++ pend (b2 ++ ws path T BeforeClose))), b1, (ws path T AfterClose), true.
    split. { apply same_elems; [discriminate|]. apply V. auto. } split; [assumption|]. split; [auto|]. split; [discriminate|].
    apply R0. rewrite name_tag_write, name_special by assumption.
    rewrite <- app_comm_cons, <- !app_assoc, <- !app_comm_cons, <- app_assoc, <- app_comm_cons.
    eapply reach_step.
    { rewrite step_tag by assumption.
      etransitivity; [apply (open_tag_text n a [62] 62); auto; [left; auto|now apply second_root_no]|reflexivity]. }
    unfold push. cbn [stack top].
    eapply reach_trans; [apply (reach_blank _ _ (ws path T AfterOpen)); auto|]. cbn [app].
    eapply reach_trans; [exact R2|]. cbn [add_kids fr_name fr_attrs fr_kids]. rewrite app_nil_r.
    eapply reach_trans; [apply (reach_blank _ _ (ws path T BeforeClose)); auto|].
    eapply reach_step; [apply close_tag_text; [assumption|reflexivity]|]. cbn [fr_attrs fr_kids].
    rewrite attach_elem by assumption. rewrite add_kids_app, TA.
    replace (rev (pend (b2 ++ ws path T BeforeClose) ++ rev ks1)) with (ks1 ++ pend (b2 ++ ws path T BeforeClose)).
    2:{ rewrite rev_app_distr, rev_involutive. destruct (b2 ++ ws path T BeforeClose); reflexivity. }
    apply (reach_blank _ _ (ws path T AfterClose) (Wb _ (Hws _ _ _)) r []).
  - (* CDATA *)
    exists T, b1, (if op then ws path T AfterOpen else []), op.
    split; [constructor|]. split; [assumption|]. split; [assumption|]. split; [intros ->; auto|].
    apply R0.
    match goal with |- reach _ (tok8 ?x) _ _ => replace x with (60 :: s2z "![CDATA[" ++ p ++ s2z "]]" ++ 62 :: ws path T AfterOpen ++ r) end.
    2:{ match goal with |- _ = 60 :: write_tag_name ?n ++ _ => change (write_tag_name n) with (s2z "![CDATA[" ++ p ++ s2z "]]") end.
        match goal with |- context [is_special ?n] => change (is_special n) with true end. cbn [flat_map].
        cbv iota. rewrite <- !app_assoc. reflexivity. }
    eapply reach_trans; [apply reach_one|apply Leaf].
    rewrite step_tag by assumption. rewrite (cdata_tag p) by (auto; now apply second_root_no).
    unfold cdata_node. rewrite attach_elem by assumption. now rewrite add_kids_app, TA.
Qed.
End Round.

(** * Documents *)
Lemma elem_with_kids n a k ks : is_elem (Elem n a (k :: ks)) = true. Proof. now destruct a. Qed.
Lemma same_is_elem W k k' : same W k k' -> is_elem k = true -> is_elem k' = true.
Proof.
  intros [n a|n a s w1 w2 _ _|n a ks ks' N V] E; [exact E|apply elem_with_kids|]. destruct V as [w _|w k0 k1 ks ks' _ _ _ _]; [congruence|].
  destruct (pend w); apply elem_with_kids.
Qed.
Lemma same_sim t t' : same blank t t' -> sim t t'.
Proof.
  apply (same_mut blank sim (fun ks ks' => Forall2 sim ks (elems ks') /\ elems ks = ks)).
  - intros. constructor; [intro; reflexivity|constructor|reflexivity].
  - intros n a s w1 w2 B1 B2. constructor; [intro; reflexivity|constructor|]. intros _. cbn. now rewrite trim_blanks.
  - intros n a ks ks' N V (F & E). constructor; [intro; reflexivity|now rewrite E|]. rewrite E. contradiction.
  - intros w B. split; [destruct w; constructor|reflexivity].
  - intros w k k' ks ks' B K S Sk V (F & E). assert (K' := same_is_elem _ _ _ S K).
    split.
    + unfold elems. rewrite filter_app. cbn [filter]. rewrite K'.
      replace (filter is_elem (pend w)) with (@nil node) by (destruct w; reflexivity). cbn. constructor; assumption.
    + cbn. rewrite K. f_equal. exact E.
Qed.
Lemma same_eq t t' : same (eq []) t t' -> t' = t.
Proof.
  apply (same_mut (eq []) (fun t t' => t' = t) (fun ks ks' => ks' = ks)).
  - reflexivity.
  - intros n a s w1 w2 <- <-. cbn. now rewrite app_nil_r.
  - intros n a ks ks' _ _ ->. reflexivity.
  - intros w <-. reflexivity.
  - intros w k k' ks ks' <- _ _ -> _ ->. reflexivity.
Qed.
Lemma decl_tag r : 
  step (mkP [] None [] false) (tok8 (60 :: XML_DECL ++ 62 :: r)) = Ret (Go (mkP [mkFrame XML_DECL [] []] None [] true) (tok8 r)).
Proof. rewrite tok8_ascii by lia. unfold step. change (60 =? 60) with true. cbv iota. unfold XML_DECL. cbn [s2z list_ascii_of_string map app].
  rewrite !tok8_ascii by (cbn; lia). reflexivity. Qed.

Definition closed_ws (W : cstr -> Prop) : Prop :=
  (forall w, W w -> blank w) /\ W [] /\ (forall a b, W a -> W b -> W (a ++ b)).
Lemma closed_blank : closed_ws blank.
Proof. repeat split; [auto|constructor|]. intros. now apply Forall_app. Qed.
Lemma closed_none : closed_ws (eq []).
Proof. repeat split; [intros w <-; constructor|]. intros a b <- <-. reflexivity. Qed.
Lemma load_document W ws nl t : closed_ws W -> (forall path x p, W (ws path x p)) -> wf t ->
  exists t', load_string (save_text ws nl (new_xml [t])) = Ret (Some t') /\
    exists w1 k, W w1 /\ same W t k /\ t' = Elem XML_DECL [] (pend w1 ++ [k]).
Proof.
  intros (Wb & W0 & Wa) Hws Ht.
  set (D := new_xml [t]).
  assert (E : save_text ws nl D = ws [] D BeforeOpen ++ 60 :: XML_DECL ++ 62 :: ws [] D AfterOpen ++ write_node ws [XML_DECL] t ++ (if nl then [10] else [])).
  { unfold save_text, D, new_xml. cbn [write_node flat_map]. change (is_special XML_DECL) with true. change (write_tag_name XML_DECL) with XML_DECL. cbv iota.
    rewrite !app_nil_r. rewrite <- !app_assoc. cbn [app]. rewrite <- !app_assoc. cbn [app]. rewrite <- !app_assoc. reflexivity. }
  rewrite E.
  destruct (round_trip W Wb W0 Wa ws Hws t Ht [XML_DECL] [mkFrame XML_DECL [] []] None (ws [] D AfterOpen) true (if nl then [10] else []))
    as (t' & w & b' & op' & S1 & Ww & Wb' & Op & R).
  { repeat split; [auto|discriminate..]. }
  assert (op' = true) as -> by (destruct op'; [reflexivity|destruct (Op eq_refl); discriminate]).
  cbn [add_kids top_after fr_name fr_attrs fr_kids] in R. rewrite app_nil_r in R.
  exists (Elem XML_DECL [] (pend w ++ [t'])). split; [|exists w, t'; auto].
  unfold load_string. erewrite run_reach; [| |apply Nat.lt_succ_diag_r].
  2:{ eapply reach_trans; [apply reach_blank_top; apply Wb, Hws|].
      eapply reach_step; [apply decl_tag|].
      eapply reach_trans; [apply (reach_blank _ _ (ws [] D AfterOpen) (Wb _ (Hws _ _ _)) _ [])|].
      cbn [app]. eapply reach_trans; [exact R|].
      assert (Bn : blank (if nl then [10] else [])) by (destruct nl; repeat constructor).
      pose proof (reach_blank [mkFrame XML_DECL [] (t' :: pend w)] None _ Bn [] b') as R9. rewrite app_nil_r in R9. exact R9. }
  cbn [finish stack]. unfold close_frame. cbn [fr_name fr_attrs fr_kids rev].
  do 3 f_equal. destruct w; reflexivity.
Qed.
(** A document without declaration. *)
Lemma load_bare W ws nl t : closed_ws W -> (forall path x p, W (ws path x p)) -> wf t ->
  exists t', load_string (save_text ws nl t) = Ret (Some t') /\ same W t t'.
Proof.
  intros (Wb & W0 & Wa) Hws Ht.
  destruct (round_trip W Wb W0 Wa ws Hws t Ht [] [] None [] false (if nl then [10] else []))
    as (t' & w & b' & op' & S1 & Ww & Wb' & Op & R).
  { repeat split; auto. }
  cbn [add_kids top_after] in R.
  exists t'. split; [|assumption].
  unfold load_string, save_text.
  assert (Bn : blank (if nl then [10] else [])) by (destruct nl; repeat constructor).
  assert (exists b2, reach (mkP [] None [] false) (tok8 (write_node ws [] t ++ (if nl then [10] else []))) (mkP [] (Some t') b2 op') []) as (b2 & R2).
  { destruct op'.
    - exists (b' ++ (if nl then [10] else [])). eapply reach_trans; [exact R|].
      pose proof (reach_blank [] (Some t') _ Bn [] b') as R9. rewrite app_nil_r in R9. exact R9.
    - destruct (Op eq_refl) as (_ & ->). exists []. eapply reach_trans; [exact R|].
      pose proof (reach_blank_top [] (Some t') _ Bn []) as R9. rewrite app_nil_r in R9. exact R9. }
  erewrite run_reach; [|exact R2|apply Nat.lt_succ_diag_r]. reflexivity.
Qed.

Theorem save_load_document ws nl t : indenting ws -> wf t ->
  exists t', load_string (save_text ws nl (new_xml [t])) = Ret (Some t') /\ sim (new_xml [t]) t'.
Proof.
  intros Hi Ht. destruct (load_document blank ws nl t closed_blank Hi Ht) as (t' & E & w & k & B & S & ->).
  exists (Elem XML_DECL [] (pend w ++ [k])). split; [exact E|]. apply same_sim.
  apply same_elems; [discriminate|]. apply (weave_cons blank w t k [] []); auto; [now apply wf_is_elem|]. apply (weave_nil blank []). constructor.
Qed.
Theorem save_load_bare ws nl t : indenting ws -> wf t ->
  exists t', load_string (save_text ws nl t) = Ret (Some t') /\ sim t t'.
Proof.
  intros Hi Ht. destruct (load_bare blank ws nl t closed_blank Hi Ht) as (t' & E & S). exists t'. split; [exact E|now apply same_sim].
Qed.
Theorem save_load_compact nl t : wf t ->
  load_string (save_text no_ws nl (new_xml [t])) = Ret (Some (new_xml [t])) /\
  load_string (save_text no_ws nl t) = Ret (Some t).
Proof.
  intro Ht. split.
  - destruct (load_document (eq []) no_ws nl t closed_none ltac:(reflexivity) Ht) as (t' & E & w & k & <- & S & ->).
    apply same_eq in S. subst k. exact E.
  - destruct (load_bare (eq []) no_ws nl t closed_none ltac:(reflexivity) Ht) as (t' & E & S). apply same_eq in S. now subst t'.
Qed.
