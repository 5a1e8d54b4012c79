(** Lemmas about the table model. *)
From Verif Require Import CBase CBaseProofs TocModel TableModel SpecTable.

Lemma len_app a b : len (a ++ b) = len a + len b.
Proof. unfold len. rewrite app_length. lia. Qed.
Lemma len_cons x a : len (x :: a) = 1 + len a.
Proof. unfold len. cbn [List.length]. lia. Qed.
Lemma len_nonneg a : 0 <= len a.
Proof. unfold len. lia. Qed.

(** * Digits *)
Lemma dec_digits_len fuel : forall n acc, List.length (dec_digits fuel n acc) = (List.length (dec_digits fuel n []) + List.length acc)%nat.
Proof.
  induction fuel as [|fuel IH]; intros n acc; [reflexivity|]. cbn [dec_digits]. cbv zeta. destruct (n <? 10); [reflexivity|].
  rewrite IH. rewrite (IH _ [_]). cbn [List.length]. lia.
Qed.
Lemma dec_digits_fuel f1 : forall f2 n acc, 0 <= n -> (Z.to_nat (Z.log2 n) < f1)%nat -> (Z.to_nat (Z.log2 n) < f2)%nat -> dec_digits f1 n acc = dec_digits f2 n acc.
Proof.
  induction f1 as [|f1 IH]; intros f2 n acc P H1 H2; [lia|]. destruct f2 as [|f2]; [lia|]. cbn [dec_digits]. cbv zeta.
  destruct (n <? 10) eqn:E; [reflexivity|]. pose proof (log2_div10 n ltac:(lia)). pose proof (Z.log2_nonneg (n / 10)). pose proof (Z.div_pos n 10 P ltac:(lia)).
  apply IH; lia.
Qed.
(** the number of digits follows the recursion by ten *)
Lemma print_len n : 0 <= n -> len (print_nonneg n) = if n <? 10 then 1 else 1 + len (print_nonneg (n / 10)).
Proof.
  intro P. unfold print_nonneg at 1. cbn [dec_digits]. cbv zeta. destruct (n <? 10) eqn:E; [reflexivity|]. unfold len. rewrite dec_digits_len.
  pose proof (log2_div10 n ltac:(lia)). pose proof (Z.log2_nonneg (n / 10)). pose proof (Z.div_pos n 10 P ltac:(lia)).
  rewrite (dec_digits_fuel (Z.to_nat (Z.log2 n)) (S (Z.to_nat (Z.log2 (n / 10)))) (n / 10) [] ltac:(lia) ltac:(lia) ltac:(lia)). fold (print_nonneg (n / 10)). cbn [List.length]. lia.
Qed.
Lemma div10_bound n k : 0 <= n < 10 ^ Z.of_nat (S k) -> 0 <= n / 10 < 10 ^ Z.of_nat k.
Proof.
  intros (A & B). split; [apply Z.div_pos; lia|]. apply Z.div_lt_upper_bound; [reflexivity|]. rewrite Nat2Z.inj_succ, Z.pow_succ_r in B by lia. exact B.
Qed.
Lemma udigits_loop_len k : forall n, 0 <= n < 10 ^ Z.of_nat (S k) -> udigits_loop (S k) n = len (print_nonneg n).
Proof.
  induction k as [|k IH]; intros n H.
  - change (10 ^ Z.of_nat 1) with 10 in H. cbn [udigits_loop]. replace (n / 10) with 0 by (symmetry; apply Z.div_small; lia). rewrite print_len by lia. replace (n <? 10) with true by lia. reflexivity.
  - cbn [udigits_loop] in *. rewrite print_len by lia. pose proof (Z.div_mod n 10 ltac:(lia)). pose proof (Z.mod_pos_bound n 10 ltac:(lia)).
    destruct (n <? 10) eqn:E; [replace (n / 10) with 0 by (symmetry; apply Z.div_small; lia); reflexivity|].
    replace (n / 10 =? 0) with false by lia. cbn [negb]. f_equal. apply IH. apply div10_bound. exact H.
Qed.
Lemma udigits_len n : is_u32 n -> udigits_count n = len (print_dec n).
Proof. intros (A & B). unfold udigits_count. rewrite udigits_loop_len by (split; [lia|]; change (10 ^ Z.of_nat 20) with 100000000000000000000; lia). unfold print_dec. replace (n <? 0) with false by lia. reflexivity. Qed.
Lemma quot_pos n : 0 <= n -> Z.quot n 10 = n / 10.
Proof. intro. apply Z.quot_div_nonneg; lia. Qed.
Lemma quot_neg n : n <= 0 -> Z.quot n 10 = - ((- n) / 10).
Proof. intro. rewrite <- (Z.opp_involutive n) at 1. rewrite Z.quot_opp_l by lia. rewrite quot_pos by lia. reflexivity. Qed.
Lemma print_len_pos n : 0 <= n -> 1 <= len (print_nonneg n).
Proof. intro. pose proof (print_nonneg_nonempty n). destruct (print_nonneg n); [congruence|]. rewrite len_cons. pose proof (len_nonneg l). lia. Qed.
Lemma digits_loop_len k : forall n, Z.abs n < 10 ^ Z.of_nat (S k) -> digits_loop (S k) n = len (print_dec n).
Proof.
  induction k as [|k IH]; intros n H.
  - change (10 ^ Z.of_nat 1) with 10 in H. cbn [digits_loop]. unfold print_dec. destruct (n <? 0) eqn:E.
    + rewrite quot_neg by lia. rewrite (Z.div_small (- n)) by lia. rewrite len_cons, print_len by lia. replace (- n <? 10) with true by lia. reflexivity.
    + rewrite quot_pos by lia. rewrite (Z.div_small n) by lia. rewrite print_len by lia. replace (n <? 10) with true by lia. reflexivity.
  - unfold print_dec in *. destruct (n <? 0) eqn:E.
    + change (digits_loop (S (S k)) n) with (let c := if negb (Z.quot n 10 =? 0) then 1 + digits_loop (S k) (Z.quot n 10) else 1 in if (n <? 0) && (c =? 1) then c + 1 else c).
      rewrite E. rewrite quot_neg by lia. pose proof (Z.div_mod (- n) 10 ltac:(lia)). pose proof (Z.mod_pos_bound (- n) 10 ltac:(lia)). cbv zeta. rewrite len_cons, print_len by lia.
      destruct (- n <? 10) eqn:E2; [rewrite (Z.div_small (- n)) by lia; reflexivity|]. replace (- (- n / 10) =? 0) with false by lia. cbn [negb].
      rewrite IH by (rewrite Z.abs_opp, Z.abs_eq by lia; apply div10_bound; lia). replace (- (- n / 10) <? 0) with true by lia. rewrite len_cons. rewrite Z.opp_involutive.
      pose proof (print_len_pos (- n / 10) ltac:(lia)). cbn [andb]. replace (1 + (1 + len (print_nonneg (- n / 10))) =? 1) with false by lia. lia.
    + change (digits_loop (S (S k)) n) with (let c := if negb (Z.quot n 10 =? 0) then 1 + digits_loop (S k) (Z.quot n 10) else 1 in if (n <? 0) && (c =? 1) then c + 1 else c).
      rewrite E. rewrite quot_pos by lia. pose proof (Z.div_mod n 10 ltac:(lia)). pose proof (Z.mod_pos_bound n 10 ltac:(lia)). cbv zeta. rewrite print_len by lia. cbn [andb].
      destruct (n <? 10) eqn:E2; [rewrite (Z.div_small n) by lia; reflexivity|]. replace (n / 10 =? 0) with false by lia. cbn [negb].
      rewrite IH by (rewrite Z.abs_eq by lia; apply div10_bound; lia). replace (n / 10 <? 0) with false by lia. reflexivity.
Qed.
Lemma digits_len n : is_i32 n -> digits_count n = len (print_dec n).
Proof. intros (A & B). unfold digits_count. apply digits_loop_len. change (10 ^ Z.of_nat 20) with 100000000000000000000. lia. Qed.
Lemma digits64_loop_len k : forall n, Z.abs n < 10 ^ Z.of_nat (S k) -> digits64_loop (S k) n = len (size_text n).
Proof.
  induction k as [|k IH]; intros n H; unfold size_text, print_dec in *.
  - change (10 ^ Z.of_nat 1) with 10 in H. cbn [digits64_loop]. destruct (n <? 0) eqn:E.
    + rewrite quot_neg by lia. rewrite (Z.div_small (- n)) by lia. rewrite len_app, print_len by lia. replace (- n <? 10) with true by lia. reflexivity.
    + rewrite quot_pos by lia. rewrite (Z.div_small n) by lia. rewrite print_len by lia. replace (n <? 10) with true by lia. reflexivity.
  - change (digits64_loop (S (S k)) n) with (let c := if negb (Z.quot n 10 =? 0) then 1 + digits64_loop (S k) (Z.quot n 10) else 1 in if (n <? 0) then c + 1 else c).
    destruct (n <? 0) eqn:E.
    + rewrite quot_neg by lia. pose proof (Z.div_mod (- n) 10 ltac:(lia)). pose proof (Z.mod_pos_bound (- n) 10 ltac:(lia)). cbv zeta. rewrite len_app, print_len by lia.
      destruct (- n <? 10) eqn:E2; [rewrite (Z.div_small (- n)) by lia; reflexivity|]. replace (- (- n / 10) =? 0) with false by lia. cbn [negb].
      rewrite IH by (rewrite Z.abs_opp, Z.abs_eq by lia; apply div10_bound; lia). replace (- (- n / 10) <? 0) with true by lia. rewrite len_app. rewrite Z.opp_involutive. lia.
    + rewrite quot_pos by lia. pose proof (Z.div_mod n 10 ltac:(lia)). pose proof (Z.mod_pos_bound n 10 ltac:(lia)). cbv zeta. rewrite print_len by lia.
      destruct (n <? 10) eqn:E2; [rewrite (Z.div_small n) by lia; reflexivity|]. replace (n / 10 =? 0) with false by lia. cbn [negb].
      rewrite IH by (rewrite Z.abs_eq by lia; apply div10_bound; lia). replace (n / 10 <? 0) with false by lia. reflexivity.
Qed.
Lemma digits64_len n : is_i64 n -> digits64_count n = len (size_text n).
Proof. intros (A & B). unfold digits64_count. apply digits64_loop_len. change (10 ^ Z.of_nat 20) with 100000000000000000000. lia. Qed.
Lemma print_bound k : forall n, 0 <= n < 10 ^ Z.of_nat (S k) -> len (print_nonneg n) <= Z.of_nat (S k).
Proof.
  induction k as [|k IH]; intros n H; rewrite print_len by lia.
  - change (10 ^ Z.of_nat 1) with 10 in H. replace (n <? 10) with true by lia. lia.
  - destruct (n <? 10); [lia|]. specialize (IH (n / 10) (div10_bound _ _ H)). lia.
Qed.
Lemma print_lower k : forall n, 10 ^ Z.of_nat k <= n -> Z.of_nat (S k) <= len (print_nonneg n).
Proof.
  induction k as [|k IH]; intros n H.
  - change (10 ^ Z.of_nat 0) with 1 in H. apply print_len_pos. lia.
  - assert (0 < 10 ^ Z.of_nat k) by (apply Z.pow_pos_nonneg; lia). rewrite Nat2Z.inj_succ, Z.pow_succ_r in H by lia.
    rewrite print_len by lia. replace (n <? 10) with false by lia. specialize (IH (n / 10) ltac:(apply Z.div_le_lower_bound; lia)). lia.
Qed.
Lemma dec_bound32 n : is_i32 n -> len (print_dec n) <= 11.
Proof.
  intros (A & B). unfold print_dec. destruct (n <? 0) eqn:E; [rewrite len_cons|].
  - pose proof (print_bound 9 (- n) ltac:(change (10 ^ Z.of_nat 10) with 10000000000; lia)). lia.
  - pose proof (print_bound 9 n ltac:(change (10 ^ Z.of_nat 10) with 10000000000; lia)). lia.
Qed.
Lemma dec_boundu n : is_u32 n -> len (print_dec n) <= 10.
Proof. intros (A & B). unfold print_dec. replace (n <? 0) with false by lia. pose proof (print_bound 9 n ltac:(change (10 ^ Z.of_nat 10) with 10000000000; lia)). lia. Qed.
Lemma size_bound n : is_i64 n -> len (size_text n) <= 40.
Proof.
  intros (A & B). unfold size_text, print_dec. destruct (n <? 0) eqn:E; [rewrite len_app|].
  - pose proof (print_bound 19 (- n) ltac:(change (10 ^ Z.of_nat 20) with 100000000000000000000; lia)). lia.
  - pose proof (print_bound 19 n ltac:(change (10 ^ Z.of_nat 20) with 100000000000000000000; lia)). lia.
Qed.
Lemma size_dec n : len (print_dec n) <= len (size_text n).
Proof. unfold size_text, print_dec. destruct (n <? 0) eqn:E; [rewrite len_cons, len_app; pose proof (print_len_pos (- n) ltac:(lia)); lia|lia]. Qed.

(** * Formats *)
Lemma pad_zero_len w s : len (pad_zero w s) = Z.max (Z.of_nat w) (len s).
Proof. unfold pad_zero, len. rewrite app_length, repeat_length. lia. Qed.
Lemma number_len w z : len (number w z) = Z.max (Z.of_nat w) (len (print_dec z)).
Proof.
  unfold number, print_dec_pad, print_dec. destruct (z <? 0) eqn:E; [|apply pad_zero_len]. rewrite !len_cons, pad_zero_len.
  pose proof (print_len_pos (- z) ltac:(lia)). lia.
Qed.
Lemma left_len w s : len (left_aligned w s) = Z.max (Z.of_nat w) (len s).
Proof. unfold left_aligned, len. rewrite app_length, repeat_length. lia. Qed.
Lemma fmt_d_ok w z : Z.of_nat w < 2^31 -> fmt_d (Z.of_nat w) z = Ok (number w z).
Proof. intro H. unfold fmt_d, width. replace (Z.of_nat w <? 2^31) with true by lia. cbn [obind]. now rewrite Nat2Z.id. Qed.
Lemma fmt_u_ok w z : Z.of_nat w < 2^31 -> 0 <= z -> fmt_u (Z.of_nat w) z = Ok (number w z).
Proof. intros H P. unfold fmt_u, width. replace (Z.of_nat w <? 2^31) with true by lia. cbn [obind]. rewrite Nat2Z.id. unfold number, print_dec_pad. now replace (z <? 0) with false by lia. Qed.
Lemma fmt_s_ok w s : Z.of_nat w < 2^31 -> fmt_s (Z.of_nat w) s = Ok (left_aligned w s).
Proof. intro H. unfold fmt_s, width. replace (Z.of_nat w <? 2^31) with true by lia. cbn [obind]. now rewrite Nat2Z.id. Qed.
Lemma cells_ok l : cells (map Ok l) = Ok (line l).
Proof.
  induction l as [|x [|y l] IH]; [reflexivity|reflexivity|]. change (cells (map Ok (x :: y :: l))) with (obind (Ok x) (fun x => obind (cells (map Ok (y :: l))) (fun r => Ok (x ++ 32 :: r)))).
  rewrite IH. reflexivity.
Qed.
Lemma line_len l : l <> [] -> len (line l) = fold_right (fun c n => len c + n) 0 l + Z.of_nat (List.length l).
Proof.
  induction l as [|x [|y l] IH]; intro N; [congruence|cbn; rewrite len_app; change (len [10]) with 1; lia|].
  change (line (x :: y :: l)) with (x ++ 32 :: line (y :: l)). rewrite len_app, len_cons, IH by discriminate. cbn [fold_right List.length]. lia.
Qed.

(** * Maxima *)
Definition maxz (a : Z) (l : list Z) : Z := fold_left set_max l a.
Lemma set_max_max a b : set_max a b = Z.max a b.
Proof. unfold set_max. destruct (a <? b) eqn:E; lia. Qed.
Lemma maxz_widest (texts : list cstr) : forall n, maxz (Z.of_nat n) (map len texts) = Z.of_nat (widest n texts).
Proof.
  assert (G : forall l a b, fold_left set_max l (Z.max a b) = Z.max a (fold_left set_max l b)).
  { induction l as [|x l IH]; intros a b; [reflexivity|]. cbn [fold_left]. rewrite !set_max_max. rewrite <- Z.max_assoc. apply IH. }
  unfold maxz. induction texts as [|t l IH]; intro n; [reflexivity|]. cbn [map fold_left widest]. rewrite set_max_max, Z.max_comm, G, IH.
  unfold widest. cbn [map fold_right]. unfold len. lia.
Qed.
Lemma maxz_widest' {A} (f : A -> Z) (g : A -> cstr) (l : list A) n : (forall x, In x l -> f x = len (g x)) -> maxz (Z.of_nat n) (map f l) = Z.of_nat (widest n (map g l)).
Proof.
  intro H. rewrite <- maxz_widest. f_equal. rewrite map_map. now apply map_ext_in.
Qed.
Lemma widest_least n t : (n <= widest n t)%nat.
Proof. unfold widest. induction t; cbn; lia. Qed.
Lemma widest_in n t x : In x t -> len x <= Z.of_nat (widest n t).
Proof. unfold widest, len. induction t as [|y t IH]; [easy|]. intros [->|I]; cbn [map fold_right]; [lia|]. specialize (IH I). lia. Qed.
Lemma widest_map {A} n (g : A -> cstr) l x : In x l -> len (g x) <= Z.of_nat (widest n (map g l)).
Proof. intro I. apply widest_in. now apply in_map. Qed.
Lemma widest_bound n t m : Z.of_nat n <= m -> (forall x, In x t -> len x <= m) -> Z.of_nat (widest n t) <= m.
Proof.
  unfold widest, len. intros N. induction t as [|y t IH]; intro H; [exact N|]. cbn [map fold_right]. specialize (IH (fun x I => H x (or_intror I))). pose proof (H y (or_introl eq_refl)). lia.
Qed.
Lemma widest_map_bound {A} n (g : A -> cstr) l m : Z.of_nat n <= m -> (forall x, In x l -> len (g x) <= m) -> Z.of_nat (widest n (map g l)) <= m.
Proof. intros N H. apply widest_bound; [exact N|]. intros x I. apply in_map_iff in I. destruct I as (y & <- & I). now apply H. Qed.

(** * Writing *)
Lemma put_ok n t s : len (or_empty t) + len s + 1 <= n -> put (mkBlock n t) s = Ok (mkBlock n (Some (or_empty t ++ s))).
Proof. intro H. unfold put. cbn [bk_text bk_size]. rewrite len_app. replace (_ <=? n) with true by lia. reflexivity. Qed.
Lemma put_asserted_ok n t s : n < 2^31 -> len (or_empty t) + len s + 1 <= n -> put_asserted (mkBlock n t) s = Ok (mkBlock n (Some (or_empty t ++ s))).
Proof.
  intros N H. unfold put_asserted. cbn [bk_text bk_size]. pose proof (len_nonneg (or_empty t)). pose proof (len_nonneg s). unfold u64. rewrite Z.mod_small by lia.
  rewrite i32_small by (unfold is_i32; lia). unfold INT_MAX. replace ((len s <=? 2147483647) && (len s <? n - len (or_empty t))) with true by lia. now apply put_ok.
Qed.
Lemma flat_map_len {A} (r : A -> cstr) l W : (forall x, In x l -> len (r x) <= W) -> len (flat_map r l) <= Z.of_nat (List.length l) * W.
Proof.
  induction l as [|x l IH]; intro H; [unfold len; cbn; lia|]. cbn [flat_map]. rewrite len_app. pose proof (H x (or_introl eq_refl)).
  specialize (IH (fun y I => H y (or_intror I))). cbn [List.length]. lia.
Qed.
(** a loop whose every step writes one text *)
Lemma puts_ok {A} (step : block -> A -> outcome block) (r : A -> cstr) n (w : block -> cstr -> outcome block) :
  (forall t s, len (or_empty t) + len s + 1 <= n -> w (mkBlock n t) s = Ok (mkBlock n (Some (or_empty t ++ s)))) ->
  forall l t, (forall x b, In x l -> step b x = w b (r x)) -> len t + len (flat_map r l) + 1 <= n ->
  ofold step (mkBlock n (Some t)) l = Ok (mkBlock n (Some (t ++ flat_map r l))).
Proof.
  intros Hw. induction l as [|x l IH]; intros t S H; [cbn; now rewrite app_nil_r|]. cbn [ofold flat_map] in *. rewrite len_app in H. pose proof (len_nonneg (flat_map r l)).
  rewrite S by now left. rewrite Hw by (cbn [or_empty]; lia). cbn [obind or_empty].
  rewrite IH; [now rewrite app_assoc|intros; apply S; now right|rewrite len_app; lia].
Qed.
(** the same with a header before the first row; [b] may not have been written *)
Lemma headed_ok {A} (step : block * bool -> A -> outcome (block * bool)) (r : A -> cstr) (head : cstr) n l :
  (forall x b d, In x l -> step (b, d) x = obind (if d then Ok b else put b head) (fun b => obind (put b (r x)) (fun b => Ok (b, true)))) ->
  forall t, len (or_empty t) + len head + len (flat_map r l) + 1 <= n ->
  ofold step (mkBlock n t, false) l =
    Ok (match l with [] => (mkBlock n t, false) | _ => (mkBlock n (Some (or_empty t ++ head ++ flat_map r l)), true) end).
Proof.
  intros S.
  assert (G : forall t, len t + len (flat_map r l) + 1 <= n -> ofold step (mkBlock n (Some t), true) l = Ok (mkBlock n (Some (t ++ flat_map r l)), true)).
  { revert S. induction l as [|x l IH]; intros S t H; [cbn; now rewrite app_nil_r|]. cbn [ofold flat_map] in *. rewrite len_app in H. pose proof (len_nonneg (flat_map r l)).
    rewrite S by now left. cbn [obind]. rewrite put_ok by (cbn [or_empty]; lia). cbn [obind or_empty].
    rewrite IH; [now rewrite app_assoc|intros; apply S; now right|rewrite len_app; lia]. }
  destruct l as [|x l]; intros t H; [reflexivity|]. cbn [ofold flat_map] in *. rewrite len_app in H. pose proof (len_nonneg (flat_map r l)). pose proof (len_nonneg (r x)).
  rewrite S by now left. rewrite put_ok by lia. cbn [obind]. rewrite put_ok by (cbn [or_empty]; rewrite len_app; lia). cbn [obind or_empty].
  specialize (G (or_empty t ++ head)). rewrite S in G by now left. cbn [obind] in G. rewrite put_ok in G by (cbn [or_empty]; rewrite !len_app; lia). cbn [obind or_empty] in G.
  rewrite G by (rewrite !len_app; lia). now rewrite <- !app_assoc.
Qed.
(** and what happens when the rows do not fit *)
Lemma headed_iff {A} (step : block * bool -> A -> outcome (block * bool)) (r : A -> cstr) (head : cstr) n l :
  (forall x b d, In x l -> step (b, d) x = obind (if d then Ok b else put b head) (fun b => obind (put b (r x)) (fun b => Ok (b, true)))) -> l <> [] ->
  forall t, ofold step (mkBlock n t, false) l =
    if len (or_empty t ++ head ++ flat_map r l) + 1 <=? n then Ok (mkBlock n (Some (or_empty t ++ head ++ flat_map r l)), true) else UB.
Proof.
  intros S.
  assert (G : forall t, len t + 1 <= n -> ofold step (mkBlock n (Some t), true) l = if len (t ++ flat_map r l) + 1 <=? n then Ok (mkBlock n (Some (t ++ flat_map r l)), true) else UB).
  { revert S. induction l as [|x l IH]; intros S t H; cbn [ofold flat_map]; [rewrite app_nil_r; replace (_ <=? n) with true by lia; reflexivity|].
    rewrite S by now left. cbn [obind]. unfold put. cbn [bk_text bk_size or_empty]. destruct (len (t ++ r x) + 1 <=? n) eqn:E; cbn [obind].
    - rewrite IH; [now rewrite <- app_assoc|intros; apply S; now right|lia].
    - rewrite app_assoc, (len_app (t ++ r x)). pose proof (len_nonneg (flat_map r l)). replace (_ <=? n) with false by lia. reflexivity. }
  destruct l as [|x l]; intros N t; [congruence|]. cbn [ofold]. rewrite S by now left. unfold put at 1. cbn [bk_text bk_size].
  destruct (len (or_empty t ++ head) + 1 <=? n) eqn:E; cbn [obind].
  - specialize (G (or_empty t ++ head) ltac:(lia)). cbn [ofold] in G. rewrite S in G by now left. cbn [obind] in G. rewrite G. now rewrite <- app_assoc.
  - rewrite app_assoc, (len_app (or_empty t ++ head)). pose proof (len_nonneg (flat_map r (x :: l))). replace (_ <=? n) with false by lia. reflexivity.
Qed.
Lemma ofold_flat {A B S} (step : S -> B -> outcome S) (sub : A -> list B) l : forall s,
  ofold (fun s x => ofold step s (sub x)) s l = ofold step s (flat_map sub l).
Proof.
  assert (G : forall l2 l1 s, ofold step s (l1 ++ l2) = obind (ofold step s l1) (fun s => ofold step s l2)).
  { intro l2. induction l1 as [|x l1 IH]; intro s; [reflexivity|]. cbn [app ofold]. destruct (step s x); [apply IH|reflexivity]. }
  induction l as [|x l IH]; intro s; [reflexivity|]. cbn [ofold flat_map]. rewrite G. destruct (ofold step s (sub x)); [apply IH|reflexivity].
Qed.
Lemma ofold_ext {A S} (f g : S -> A -> outcome S) l : (forall s x, In x l -> f s x = g s x) -> forall s, ofold f s l = ofold g s l.
Proof.
  induction l as [|x l IH]; intros H s; [reflexivity|]. cbn [ofold]. rewrite (H s x (or_introl eq_refl)). destruct (g s x); [|reflexivity]. apply IH. intros. apply H. now right.
Qed.
Lemma ofold_map {A B S} (f : S -> B -> outcome S) (g : A -> B) l : forall s, ofold f s (map g l) = ofold (fun s x => f s (g x)) s l.
Proof. induction l as [|x l IH]; intro s; [reflexivity|]. cbn [ofold map]. destruct (f s (g x)); [apply IH|reflexivity]. Qed.
Lemma ofold_filter {A S} (f : S -> A -> outcome S) (p : A -> bool) l : forall s, ofold (fun s x => if p x then f s x else Ok s) s l = ofold f s (filter p l).
Proof. induction l as [|x l IH]; intro s; [reflexivity|]. cbn [ofold filter]. destruct (p x); cbn [ofold]; [destruct (f s x); [apply IH|reflexivity]|apply IH]. Qed.
Lemma deref_ok (s : option cstr) : s <> None -> deref s = Ok (text s).
Proof. destruct s; [reflexivity|congruence]. Qed.
Lemma strlen_ok s : len s < 2^32 -> strlen32 s = len s.
Proof. intro H. pose proof (len_nonneg s). apply u32_small. lia. Qed.
