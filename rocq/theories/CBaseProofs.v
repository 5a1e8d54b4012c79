From Verif Require Import CBase.
From Coq Require Import ZifyBool.
Ltac Zify.zify_post_hook ::= Z.div_mod_to_equations.

Lemma str_eqb_refl a : str_eqb a a = true.
Proof. induction a as [|x a IH]; cbn; [reflexivity|]. rewrite Z.eqb_refl, IH; reflexivity. Qed.

Lemma str_eqb_eq a b : str_eqb a b = true <-> a = b.
Proof.
  revert b; induction a as [|x a IH]; intros [|y b]; cbn; split; intro H; try discriminate; try reflexivity.
  - apply andb_true_iff in H as [H1 H2]. apply Z.eqb_eq in H1. apply IH in H2. congruence.
  - injection H as -> ->. rewrite Z.eqb_refl. cbn. apply IH; reflexivity.
Qed.

Lemma str_eqb_neq a b : str_eqb a b = false <-> a <> b.
Proof. rewrite <- not_true_iff_false, str_eqb_eq. tauto. Qed.

Lemma str_eqb_sym a b : str_eqb a b = str_eqb b a.
Proof.
  destruct (str_eqb a b) eqn:E; symmetry.
  - apply str_eqb_eq in E as ->; apply str_eqb_refl.
  - apply str_eqb_neq in E. apply str_eqb_neq. congruence.
Qed.

Lemma strcmp_eq a b : strcmp a b = 0 <-> a = b.
Proof.
  revert b; induction a as [|x a IH]; intros [|y b]; cbn; split; intro H; try discriminate; try reflexivity.
  - destruct (Z.ltb_spec x y); [discriminate|]. destruct (Z.ltb_spec y x); [discriminate|].
    apply IH in H. subst. f_equal; lia.
  - injection H as -> ->. rewrite Z.ltb_irrefl. apply IH; reflexivity.
Qed.

Lemma str_eqb_strcmp a b : str_eqb a b = (strcmp a b =? 0).
Proof.
  destruct (str_eqb a b) eqn:E.
  - apply str_eqb_eq, strcmp_eq in E. rewrite E. reflexivity.
  - apply str_eqb_neq in E. symmetry. apply Z.eqb_neq. intro H; apply E, strcmp_eq, H.
Qed.

Lemma strcmp_antisym a b : strcmp a b = - strcmp b a.
Proof.
  revert b; induction a as [|x a IH]; intros [|y b]; cbn; try reflexivity.
  destruct (Z.ltb_spec x y); destruct (Z.ltb_spec y x); try lia; apply IH.
Qed.

Lemma strcmp_range a b : strcmp a b = -1 \/ strcmp a b = 0 \/ strcmp a b = 1.
Proof.
  revert b; induction a as [|x a IH]; intros [|y b]; cbn; auto.
  destruct (x <? y); auto. destruct (y <? x); auto.
Qed.

Lemma strcmp_le_trans a b c : strcmp a b <= 0 -> strcmp b c <= 0 -> strcmp a c <= 0.
Proof.
  revert b c; induction a as [|x a IH]; intros [|y b] [|z c]; cbn; try lia.
  destruct (Z.ltb_spec x y), (Z.ltb_spec y x), (Z.ltb_spec y z), (Z.ltb_spec z y), (Z.ltb_spec x z), (Z.ltb_spec z x);
    try lia; apply IH.
Qed.

(** * Ranges of the conversions *)
Lemma u32_range z : 0 <= u32 z < 2^32.
Proof. unfold u32. apply Z.mod_pos_bound; reflexivity. Qed.
Lemma u32_small z : 0 <= z < 2^32 -> u32 z = z.
Proof. intro. apply Z.mod_small; assumption. Qed.
Lemma i32_range z : is_i32 (i32 z).
Proof. unfold is_i32, i32. pose proof (Z.mod_pos_bound (z + 2^31) (2^32) eq_refl). lia. Qed.
Lemma i32_small z : is_i32 z -> i32 z = z.
Proof. unfold is_i32, i32. intro. rewrite Z.mod_small; lia. Qed.
Lemma i64_small z : is_i64 z -> i64 z = z.
Proof. unfold is_i64, i64. intro. rewrite Z.mod_small; lia. Qed.
Lemma u32_i32 z : u32 (i32 z) = u32 z.
Proof.
  unfold u32, i32.
  rewrite <- (Zminus_mod_idemp_l _ (2^31)), Z.mod_mod by lia.
  rewrite Zminus_mod_idemp_l. f_equal. lia.
Qed.

(** * Decimal printing and parsing *)
Lemma c_isdigit_digit d : 0 <= d < 10 -> c_isdigit (48 + d) = true.
Proof. unfold c_isdigit. lia. Qed.

(** Strings that stop the digit reader. *)
Definition no_digit_head (s : cstr) : Prop :=
  match s with [] => True | c :: _ => c_isdigit c = false end.

Lemma log2_div10 n : 10 <= n -> Z.log2 (n / 10) < Z.log2 n.
Proof.
  intro H. assert (n / 10 <= n / 2) by lia.
  apply Z.le_lt_trans with (Z.log2 (n / 2)); [apply Z.log2_le_mono; assumption|].
  change 2 with (2 ^ 1) at 1. rewrite <- Z.shiftr_div_pow2 by lia.
  rewrite Z.log2_shiftr by lia. pose proof (Z.log2_pos n ltac:(lia)). lia.
Qed.

Lemma read_dec_digits fuel n acc rest a0 :
  0 <= n -> (Z.to_nat (Z.log2 n) < fuel)%nat ->
  exists k, (0 <= k) /\ read_digits (dec_digits fuel n acc ++ rest) a0
         = read_digits (acc ++ rest) (10 ^ k * a0 + n).
Proof.
  revert n acc a0; induction fuel as [|f IH]; intros n acc a0 Hn Hf; [lia|].
  cbn [dec_digits]. destruct (Z.ltb_spec n 10) as [Hlt|Hge].
  - exists 1. split; [lia|]. cbn [app read_digits].
    rewrite c_isdigit_digit by lia. f_equal. rewrite Z.mod_small by lia. lia.
  - destruct (IH (n / 10) ((48 + n mod 10) :: acc) a0) as (k & Hk & E); [lia| |].
    { pose proof (log2_div10 n Hge). pose proof (Z.log2_nonneg (n/10)). lia. }
    exists (k + 1). split; [lia|]. rewrite E. cbn [app read_digits].
    rewrite c_isdigit_digit by lia. f_equal.
    rewrite Z.pow_add_r by lia. change (10 ^ 1) with 10. lia.
Qed.

Lemma read_print_nonneg n rest a0 :
  0 <= n -> exists k, 0 <= k /\ read_digits (print_nonneg n ++ rest) a0
     = read_digits rest (10 ^ k * a0 + n).
Proof.
  intro Hn. destruct (read_dec_digits (S (Z.to_nat (Z.log2 n))) n [] rest a0 Hn) as (k & Hk & E); [lia|].
  exists k. split; [assumption|]. exact E.
Qed.

Lemma read_print_nonneg0 n rest :
  0 <= n -> no_digit_head rest -> read_digits (print_nonneg n ++ rest) 0 = (n, rest).
Proof.
  intros Hn Hr. destruct (read_print_nonneg n rest 0 Hn) as (k & _ & ->).
  rewrite Z.mul_0_r, Z.add_0_l. destruct rest as [|c r]; cbn in *; [reflexivity|]. rewrite Hr. reflexivity.
Qed.

Lemma read_digits_zeros k s a : a = 0 -> read_digits (repeat 48 k ++ s) a = read_digits s 0.
Proof. intros ->. induction k as [|k IH]; [reflexivity|]. cbn. exact IH. Qed.

(** All bytes of a printed number are digits, and there is at least one. *)
Lemma dec_digits_all fuel n acc :
  0 <= n -> Forall (fun c => 48 <= c <= 57) acc -> Forall (fun c => 48 <= c <= 57) (dec_digits fuel n acc).
Proof.
  revert n acc; induction fuel as [|f IH]; intros n acc Hn Ha; [exact Ha|].
  cbn [dec_digits]. destruct (n <? 10).
  - constructor; [lia|exact Ha].
  - apply IH; [lia|]. constructor; [lia|exact Ha].
Qed.
Lemma print_nonneg_digits n : 0 <= n -> Forall (fun c => 48 <= c <= 57) (print_nonneg n).
Proof. intro. apply dec_digits_all; auto. Qed.

Lemma dec_digits_nonempty fuel n acc : acc <> [] -> dec_digits fuel n acc <> [].
Proof.
  revert n acc; induction fuel as [|f IH]; intros n acc H; [exact H|]. cbn [dec_digits].
  destruct (n <? 10); [discriminate|]. apply IH. discriminate.
Qed.
Lemma print_nonneg_nonempty n : print_nonneg n <> [].
Proof.
  unfold print_nonneg. cbn [dec_digits]. destruct (n <? 10); [discriminate|].
  apply dec_digits_nonempty. discriminate.
Qed.
Lemma print_dec_nonempty z : print_dec z <> [].
Proof. unfold print_dec. destruct (z <? 0); [discriminate|apply print_nonneg_nonempty]. Qed.

Lemma head_digit s : s <> [] -> Forall (fun c => 48 <= c <= 57) s ->
  exists c r, s = c :: r /\ 48 <= c <= 57.
Proof. destruct s as [|c r]; [contradiction|]. intros _ H. inversion H; subst. eauto. Qed.

Lemma read_int_digits s : s <> [] -> Forall (fun c => 48 <= c <= 57) s ->
  read_int s = fst (read_digits s 0).
Proof.
  intros H1 H2. destruct (head_digit s H1 H2) as (c & r & -> & Hc).
  unfold read_int. cbn [skip_space]. replace (c_isspace c) with false by (unfold c_isspace; lia).
  destruct c as [|p|p]; try lia.
  do 6 (destruct p as [p|p|]; try reflexivity; try lia).
Qed.

Lemma read_int_minus s : read_int (45 :: s) = - fst (read_digits s 0).
Proof. reflexivity. Qed.

Lemma read_int_print_dec z : read_int (print_dec z) = z.
Proof.
  unfold print_dec. destruct (Z.ltb_spec z 0).
  - rewrite read_int_minus. rewrite <- (app_nil_r (print_nonneg _)), read_print_nonneg0; cbn; [lia|lia|exact I].
  - rewrite read_int_digits by (apply print_nonneg_nonempty || apply print_nonneg_digits; lia).
    rewrite <- (app_nil_r (print_nonneg _)), read_print_nonneg0; cbn; [lia|lia|exact I].
Qed.

Lemma pad_zero_digits w s : Forall (fun c => 48 <= c <= 57) s -> Forall (fun c => 48 <= c <= 57) (pad_zero w s).
Proof.
  intro H. unfold pad_zero. apply Forall_app. split; [|exact H].
  apply Forall_forall. intros x Hx. apply repeat_spec in Hx. lia.
Qed.
Lemma pad_zero_nonempty w s : s <> [] -> pad_zero w s <> [].
Proof. unfold pad_zero. intros H E. apply app_eq_nil in E as [_ E]. contradiction. Qed.

Lemma read_int_print_dec_pad w z : read_int (print_dec_pad w z) = z.
Proof.
  unfold print_dec_pad. destruct (Z.ltb_spec z 0).
  - rewrite read_int_minus. unfold pad_zero.
    rewrite read_digits_zeros by reflexivity.
    rewrite <- (app_nil_r (print_nonneg _)), read_print_nonneg0; cbn; [lia|lia|exact I].
  - rewrite read_int_digits.
    + unfold pad_zero. rewrite read_digits_zeros by reflexivity.
      rewrite <- (app_nil_r (print_nonneg _)), read_print_nonneg0; cbn; [lia|lia|exact I].
    + apply pad_zero_nonempty, print_nonneg_nonempty.
    + apply pad_zero_digits, print_nonneg_digits. lia.
Qed.

Lemma clamp64_small z : is_i64 z -> clamp64 z = z.
Proof. unfold is_i64, clamp64. lia. Qed.

Lemma atoi_print_dec z : is_i32 z -> atoi (print_dec z) = z.
Proof.
  intro H. unfold atoi. rewrite read_int_print_dec, clamp64_small, i32_small; [reflexivity|assumption|].
  unfold is_i32, is_i64 in *. lia.
Qed.
Lemma atoi_print_dec_pad w z : is_i32 z -> atoi (print_dec_pad w z) = z.
Proof.
  intro H. unfold atoi. rewrite read_int_print_dec_pad, clamp64_small, i32_small; [reflexivity|assumption|].
  unfold is_i32, is_i64 in *. lia.
Qed.
Lemma atoll_print_dec z : is_i64 z -> atoll (print_dec z) = z.
Proof. intro H. unfold atoll. rewrite read_int_print_dec, clamp64_small; auto. Qed.
Lemma atoi_print_unsigned z : is_u32 z -> u32 (atoi (print_nonneg z)) = z.
Proof.
  intro H. unfold is_u32 in H. unfold atoi.
  replace (print_nonneg z) with (print_dec z).
  2:{ unfold print_dec. destruct (Z.ltb_spec z 0); [lia|reflexivity]. }
  rewrite read_int_print_dec, clamp64_small, u32_i32, u32_small; [reflexivity|lia|unfold is_i64; lia].
Qed.
