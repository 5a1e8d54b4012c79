(** The command line of the recovery tool. *)
From Verif Require Import CBase CBaseProofs TocModel FileModel ImageModel ToolModel SpecTool SpecTool2 ToolProofs ToolProofs2.
Notation length := List.length.
Local Open Scope Z_scope.

Lemma isdigit_spec c : c_isdigit c = true <-> 48 <= c <= 57. Proof. unfold c_isdigit. lia. Qed.
Lemma is_digit_spec s : boxing_is_digit s = true <-> digits s.
Proof.
  unfold boxing_is_digit, digits. destruct s as [|c s]; [split; [discriminate|intros (H & _); congruence]|]. rewrite forallb_forall, Forall_forall.
  setoid_rewrite isdigit_spec. split; [intro H; split; [discriminate|exact H]|intros (_ & H); exact H].
Qed.
Lemma digits_loop_app a b : Forall (fun c => 48 <= c <= 57) a -> (match b with c :: _ => c_isdigit c = false | [] => True end) -> digits_loop (a ++ b) = length a.
Proof.
  intros F B. induction F as [|c a C F IH]; cbn [app digits_loop List.length].
  - destruct b as [|c b]; [reflexivity|]. cbn [digits_loop]. now rewrite B.
  - replace (c_isdigit c) with true by (symmetry; now apply isdigit_spec). now rewrite IH.
Qed.
Lemma digits_loop_split s : exists a b, s = a ++ b /\ Forall (fun c => 48 <= c <= 57) a /\ digits_loop s = length a /\ (match b with c :: _ => c_isdigit c = false | [] => True end).
Proof.
  induction s as [|c s IH]; [exists [], []; repeat split; constructor|]. cbn [digits_loop]. destruct (c_isdigit c) eqn:E.
  - destruct IH as (a & b & -> & F & L & B). exists (c :: a), b. split; [reflexivity|]. split; [constructor; [now apply isdigit_spec|exact F]|]. split; [cbn [List.length]; congruence|exact B].
  - exists [], (c :: s). split; [reflexivity|]. split; [constructor|]. split; [reflexivity|exact E].
Qed.
(** At most 2^64 - 1 characters. *)
Lemma is_range_spec s : Z.of_nat (length s) < 2 ^ 64 -> boxing_is_range s = true <-> exists a b, s = a ++ 45 :: b /\ digits a /\ digits b.
Proof.
  intro SZ. split.
  - intro H. unfold boxing_is_range in H. destruct s as [|c0 s0] eqn:ES; [discriminate|]. rewrite <- ES in *. clear ES c0 s0.
    destruct (digits_loop_split s) as (a & b & -> & F & L & B). rewrite L in H. rewrite app_length in *.
    destruct (Nat.eqb_spec (length a) 0) as [Z0|N0]; [discriminate|]. cbn [orb] in H.
    destruct (u64 (Z.of_nat (length a + length b) - 2) <? Z.of_nat (length a)) eqn:U; [discriminate|].
    rewrite app_nth2, Nat.sub_diag in H by lia. destruct b as [|c b]; cbn [nth] in H; [discriminate|].
    destruct (Z.eqb_spec c 45) as [-> |]; cbn [negb] in H; [|discriminate]. exists a, b. split; [reflexivity|].
    rewrite skipn_app, skipn_all2 in H by lia. replace (S (length a) - length a)%nat with 1%nat in H by lia. cbn [skipn app] in H.
    rewrite forallb_forall in H. split; [split; [intros ->; now apply N0|exact F]|]. split.
    + intros ->. cbn [List.length] in *. unfold u64 in U. destruct (Nat.eq_dec (length a) 1); [rewrite e in U; cbn in U|]; [|rewrite Z.mod_small in U by lia; lia].
      vm_compute in U. discriminate.
    + apply Forall_forall. intros x I. apply isdigit_spec. auto.
  - intros (a & b & -> & (Na & Fa) & (Nb & Fb)). unfold boxing_is_range.
    destruct (a ++ 45 :: b) as [|c0 s0] eqn:ES; [destruct a; discriminate|]. rewrite <- ES in *. clear ES c0 s0.
    rewrite digits_loop_app by (auto; reflexivity). rewrite app_length in *. cbn [List.length] in *.
    assert (0 < length a)%nat by (destruct a; [congruence|cbn; lia]). assert (0 < length b)%nat by (destruct b; [congruence|cbn; lia]).
    replace ((length a =? 0)%nat) with false by lia. unfold u64. rewrite Z.mod_small by lia. replace (Z.of_nat (length a + S (length b)) - 2 <? Z.of_nat (length a)) with false by lia.
    cbn [orb]. rewrite app_nth2, Nat.sub_diag by lia. cbn [nth]. change (45 =? 45) with true. cbn [negb].
    rewrite skipn_app, skipn_all2 by lia. replace (S (length a) - length a)%nat with 1%nat by lia. cbn [skipn app].
    apply forallb_forall. intros x I. rewrite Forall_forall in Fb. apply isdigit_spec. auto.
Qed.
Lemma read_digits_value s : Forall (fun c => 48 <= c <= 57) s -> forall acc, read_digits s acc = (fold_left (fun n c => 10 * n + (c - 48)) s acc, []).
Proof. induction 1 as [|c s C F IH]; intro acc; cbn [read_digits fold_left]; [reflexivity|]. replace (c_isdigit c) with true by (symmetry; now apply isdigit_spec). apply IH. Qed.
Lemma value_from s : Forall (fun c => 48 <= c <= 57) s -> forall acc, 0 <= acc -> 0 <= fold_left (fun n c => 10 * n + (c - 48)) s acc.
Proof. induction 1 as [|c s C F IH]; intros acc A; cbn [fold_left]; [exact A|]. apply IH. lia. Qed.
Lemma value_nonneg s : digits s -> 0 <= value s.
Proof. intros (_ & F). apply value_from; [exact F|lia]. Qed.
Lemma read_int_digits s : digits s -> read_int s = value s.
Proof.
  intros (N & F). unfold read_int. destruct s as [|c s]; [congruence|]. assert (C : 48 <= c <= 57) by (now apply Forall_inv in F).
  assert (E : skip_space (c :: s) = c :: s).
  { cbn [skip_space]. replace (c_isspace c) with false; [reflexivity|]. unfold c_isspace. lia. }
  rewrite E. assert (G : fst (read_digits (c :: s) 0) = value (c :: s)) by (rewrite read_digits_value by exact F; reflexivity).
  destruct (Z.eq_dec c 45) as [-> |N1]; [lia|]. destruct (Z.eq_dec c 43) as [-> |N2]; [lia|].
  destruct c as [|q|q]; try lia. rewrite <- G. repeat match goal with |- context [match ?x with xI _ => _ | xO _ => _ | xH => _ end] => destruct x; try reflexivity; try lia end.
Qed.
Lemma atoi_digits s : digits s -> value s < 2 ^ 31 -> atoi s = value s.
Proof.
  intros D L. pose proof (value_nonneg s D). unfold atoi. rewrite read_int_digits by exact D. rewrite clamp64_small, i32_small; [reflexivity| |]; unfold is_i32, is_i64; lia.
Qed.
Lemma dash_index_digits a b : Forall (fun c => 48 <= c <= 57) a -> dash_index (a ++ 45 :: b) = Some (length a).
Proof. induction 1 as [|c a C F IH]; [reflexivity|]. cbn [app dash_index List.length]. replace (c =? 45) with false by lia. rewrite IH. reflexivity. Qed.
Lemma u64_id x : 0 <= x < 2 ^ 64 -> u64 x = x. Proof. intro. unfold u64. now apply Z.mod_small. Qed.
Lemma map_u64 a b : 0 <= a -> b < 2 ^ 64 -> map u64 (frame_numbers a b) = from_to a b.
Proof.
  intros A B. unfold frame_numbers, from_to. rewrite map_map. apply map_ext_in. intros k I. apply in_seq in I. apply u64_id. lia.
Qed.
Lemma range_numbers_spec a b : digits a -> digits b -> value a < 2 ^ 31 -> value b < 2 ^ 31 - 1 -> range_numbers (a ++ 45 :: b) = Ok (from_to (value a) (value b)).
Proof.
  intros Da Db La Lb. unfold range_numbers. rewrite dash_index_digits by apply Da.
  assert (0 < length a)%nat by (destruct Da; destruct a; [congruence|cbn; lia]). assert (0 < length b)%nat by (destruct Db; destruct b; [congruence|cbn; lia]).
  unfold boxing_get_substring. rewrite app_length. cbn [List.length].
  replace ((length a <=? 0)%nat) with false by lia. replace ((length a + S (length b) <=? 0)%nat || (length a + S (length b) <? length a)%nat) with false by lia.
  replace ((0 =? 0)%nat && (length a =? length a + S (length b))%nat) with false by lia.
  replace ((length a + S (length b) <=? length a + 1)%nat) with false by lia.
  replace ((length a + S (length b) <=? length a + 1)%nat || (length a + S (length b) <? length a + S (length b))%nat) with false by lia.
  replace ((length a + 1 =? 0)%nat && (length a + S (length b) =? length a + S (length b))%nat) with false by lia. cbn [orb].
  replace ((length a + S (length b) <? length a + S (length b))%nat) with false by lia.
  assert (E1 : firstn (length a - 0) (skipn 0 (a ++ 45 :: b)) = a) by (rewrite Nat.sub_0_r; cbn [skipn]; rewrite firstn_app, Nat.sub_diag, firstn_all; cbn [firstn]; apply app_nil_r).
  assert (E2 : firstn (length a + S (length b) - (length a + 1)) (skipn (length a + 1) (a ++ 45 :: b)) = b).
  { rewrite skipn_app, skipn_all2 by lia. replace (length a + 1 - length a)%nat with 1%nat by lia. cbn [skipn app]. apply firstn_all2. lia. }
  rewrite E1, E2. cbn [obind]. rewrite !atoi_digits by (auto; lia). cbn [fst snd]. replace (value b =? 2 ^ 31 - 1) with false by lia. rewrite andb_false_r.
  f_equal. apply map_u64; [now apply value_nonneg|lia].
Qed.
Lemma digits_no_dash s : digits s -> first_is_dash s = false.
Proof.
  intros (N & F). destruct s as [|c s]; [congruence|]. apply Forall_inv in F. unfold first_is_dash.
  destruct c as [|q|q]; try reflexivity. repeat match goal with |- context [match ?x with xI _ => _ | xO _ => _ | xH => _ end] => destruct x; try reflexivity; try lia end.
Qed.
Lemma digits_not_range a b : ~ digits (a ++ 45 :: b).
Proof. intros (_ & F). apply Forall_app in F. destruct F as (_ & F). apply Forall_inv in F. lia. Qed.
Definition stops (l : list cstr) : Prop := match l with [] => True | s :: _ => first_is_dash s = true end.
Lemma read_numbers_spec args ls l : Forall2 denotes args ls -> Forall (fun s => Z.of_nat (length s) < 2 ^ 64) args -> stops l -> forall acc, read_numbers (args ++ l) acc = Ok (acc ++ List.concat ls, l).
Proof.
  intros F SZ ST. induction F as [|s x args ls D F IH]; intro acc.
  - cbn [app List.concat]. rewrite app_nil_r. destruct l as [|s l]; [reflexivity|]. cbn [read_numbers]. cbn [stops] in ST. rewrite ST. reflexivity.
  - inversion SZ as [|? ? S1 S2]; subst. cbn [app read_numbers List.concat]. destruct D as [s D V|a b Da Db Va Vb].
    + rewrite digits_no_dash by exact D. replace (boxing_is_digit s) with true by (symmetry; now apply is_digit_spec). cbn [negb orb andb].
      rewrite IH by exact S2. rewrite atoi_digits by auto. rewrite u64_id by (pose proof (value_nonneg s D); lia). now rewrite <- app_assoc.
    + replace (boxing_is_digit (a ++ 45 :: b)) with false.
      2:{ symmetry. apply not_true_iff_false. rewrite is_digit_spec. apply digits_not_range. }
      replace (boxing_is_range (a ++ 45 :: b)) with true by (symmetry; apply is_range_spec; eauto).
      replace (first_is_dash (a ++ 45 :: b)) with false.
      2:{ symmetry. destruct Da as (N & F1). destruct a as [|c a]; [congruence|]. apply (digits_no_dash [c]). split; [discriminate|]. constructor; [now apply Forall_inv in F1|constructor]. }
      cbn [negb orb andb]. rewrite range_numbers_spec by auto. cbn [obind]. rewrite IH by exact S2. now rewrite <- app_assoc.
Qed.
Lemma says_stops l p p' : says l p p' -> stops l.
Proof. intro H. destruct H; cbn [stops]; try exact Logic.I; reflexivity. Qed.
Lemma parse_says l p p' : says l p p' -> Forall (fun s => Z.of_nat (length s) < 2 ^ 64) l -> forall fuel, (length l < fuel)%nat -> parse_args fuel l p = Ok p'.
Proof.
  intro H. induction H as [p|l p p' H IH|s l p p' H IH|x y l p p' Dx Dy Vx Vy H IH|l p p' H IH|args ls l p p' D H IH]; intros SZ [|fuel] F; cbn [List.length] in F; try lia.
  - reflexivity.
  - cbn [parse_args]. change (str_eqb (s2z "-h") (s2z "-h")) with true. cbv iota. apply IH; [now inversion SZ|lia].
  - cbn [parse_args]. change (str_eqb (s2z "-i") (s2z "-h")) with false. change (str_eqb (s2z "-i") (s2z "-i")) with true. cbv iota. apply IH; [|lia]. inversion SZ as [|? ? ? S1]; subst. now inversion S1.
  - cbn [parse_args]. change (str_eqb (s2z "-s") (s2z "-h")) with false. change (str_eqb (s2z "-s") (s2z "-i")) with false. change (str_eqb (s2z "-s") (s2z "-s")) with true. cbv iota.
    rewrite !digits_no_dash by auto. cbn [orb]. rewrite !atoi_digits by auto. pose proof (value_nonneg x Dx). pose proof (value_nonneg y Dy). rewrite !u64_id by lia. apply IH; [|lia].
    inversion SZ as [|? ? ? S1]; subst. inversion S1 as [|? ? ? S2]; subst. now inversion S2.
  - cbn [parse_args]. change (str_eqb (s2z "-is_raw") (s2z "-h")) with false. change (str_eqb (s2z "-is_raw") (s2z "-i")) with false. change (str_eqb (s2z "-is_raw") (s2z "-s")) with false. change (str_eqb (s2z "-is_raw") (s2z "-is_raw")) with true. cbv iota.
    apply IH; [now inversion SZ|lia].
  - cbn [parse_args]. change (str_eqb (s2z "-read") (s2z "-h")) with false. change (str_eqb (s2z "-read") (s2z "-i")) with false. change (str_eqb (s2z "-read") (s2z "-s")) with false. change (str_eqb (s2z "-read") (s2z "-is_raw")) with false. change (str_eqb (s2z "-read") (s2z "-read")) with true. cbv iota.
    inversion SZ as [|? ? ? S1]; subst. apply Forall_app in S1. destruct S1 as (S1 & S2). rewrite read_numbers_spec with (ls := ls); [|exact D|exact S1|eapply says_stops; eassumption].
    cbn [obind fst snd app]. apply IH; [exact S2|]. rewrite app_length in F. lia.
Qed.
(** * The chosen numbers *)
Lemma present_spec l n : boxing_value_is_present l n = true <-> In n l.
Proof. unfold boxing_value_is_present. rewrite existsb_exists. split; [intros (x & I & E); apply Z.eqb_eq in E; now subst|intro I; exists n; split; [exact I|apply Z.eqb_refl]]. Qed.
Lemma Add_app_nil {A} (x : A) l : Add x l (l ++ [x]).
Proof. induction l; cbn [app]; constructor. assumption. Qed.
Lemma NoDup_app_comm_local {A} (l : list A) x : NoDup (x :: l) -> NoDup (l ++ [x]).
Proof. intro H. apply (NoDup_Add (a := x) (l := l)); [apply Add_app_nil|]. now inversion H. Qed.
Lemma check_loop_spec count l : forall chosen, NoDup chosen -> exists more, check_loop count l chosen = chosen ++ more /\ NoDup (chosen ++ more) /\ sublist l more /\ (forall n, In n more <-> In n l /\ n < count /\ ~ In n chosen).
Proof.
  induction l as [|n l IH]; intros chosen N; cbn [check_loop].
  - exists []. rewrite app_nil_r. split; [reflexivity|]. split; [exact N|]. split; [constructor|]. intro n. cbn [In]. tauto.
  - destruct ((n <? count) && negb (boxing_value_is_present chosen n)) eqn:E.
    + apply andb_true_iff in E. destruct E as (E1 & E2). apply negb_true_iff in E2. apply Z.ltb_lt in E1. assert (E3 : ~ In n chosen) by (rewrite <- present_spec; congruence).
      destruct (IH (chosen ++ [n])) as (more & H1 & H2 & H3 & H4).
      { apply NoDup_app_comm_local. constructor; [exact E3|exact N]. }
      exists (n :: more). rewrite H1. rewrite <- app_assoc. cbn [app]. split; [reflexivity|]. rewrite <- app_assoc in H2. split; [exact H2|]. split; [now constructor|].
      intro m. cbn [In]. rewrite H4, in_app_iff. cbn [In]. split.
      * intros [-> |(K1 & K2 & K3)]; [auto|]. split; [now right|]. split; [exact K2|]. tauto.
      * intros ([-> |K1] & K2 & K3); [now left|]. destruct (Z.eq_dec n m) as [-> |]; [now left|right]. split; [exact K1|]. split; [exact K2|]. tauto.
    + destruct (IH chosen N) as (more & H1 & H2 & H3 & H4). exists more. split; [exact H1|]. split; [exact H2|]. split; [now constructor|]. intro m. rewrite H4. cbn [In].
      split; [tauto|]. intros ([-> |K1] & K2 & K3); [|tauto]. exfalso. apply andb_false_iff in E. destruct E as [E|E]; [lia|]. apply negb_false_iff, present_spec in E. tauto.
Qed.

Lemma filter_filter {A} (P Q : A -> bool) l : filter P (filter Q l) = filter (fun x => Q x && P x) l.
Proof. induction l as [|x l IH]; [reflexivity|]. cbn [filter]. destruct (Q x) eqn:E; cbn [filter andb]; [destruct (P x); now rewrite IH|exact IH]. Qed.
Lemma filter_ext_in' {A} (P Q : A -> bool) l : (forall x, P x = Q x) -> filter P l = filter Q l.
Proof. intro H. apply filter_ext. exact H. Qed.
Lemma check_loop_asked count l : forall chosen, check_loop count l chosen = chosen ++ filter (fun n => negb (boxing_value_is_present chosen n)) (keep_first (filter (fun n => n <? count) l)).
Proof.
  induction l as [|n l IH]; intro chosen; cbn [check_loop filter]; [cbn [keep_first filter]; now rewrite app_nil_r|].
  destruct (n <? count); cbn [andb]; [|apply IH]. cbn [keep_first filter]. rewrite filter_filter. destruct (boxing_value_is_present chosen n) eqn:P; cbn [negb].
  - rewrite IH. f_equal. apply filter_ext_in'. intro x. destruct (Z.eqb_spec x n) as [-> |]; [rewrite P; reflexivity|reflexivity].
  - rewrite IH. rewrite <- app_assoc. cbn [app]. do 2 f_equal. apply filter_ext_in'. intro x. unfold boxing_value_is_present. rewrite existsb_app. cbn [existsb]. rewrite orb_false_r, negb_orb, (Z.eqb_sym n x). apply andb_comm.
Qed.
Lemma filter_true {A} (l : list A) : filter (fun _ => true) l = l.
Proof. induction l as [|x l IH]; [reflexivity|]. cbn [filter]. now rewrite IH. Qed.
Lemma asked_spec numbers count : boxing_check_files_numbers (Some numbers) count = Some (asked numbers count).
Proof.
  unfold boxing_check_files_numbers, asked. destruct numbers as [|n l].
  - f_equal. unfold from_to. replace (Z.to_nat (count - 1 - 0 + 1)) with (Z.to_nat count) by lia. apply map_ext. lia.
  - f_equal. rewrite check_loop_asked. cbn [app]. rewrite (filter_ext_in' _ (fun _ => true)) by reflexivity. apply filter_true.
Qed.
