(** Names of the frame files. *)
From Verif Require Import CBase CBaseProofs TocModel FileModel ImageModel ToolModel SpecTool SpecTool2 ToolProofs5.
Notation length := List.length.
Local Open Scope Z_scope.

Lemma change_plain s : plain s -> change_symbols s = s.
Proof. induction 1 as [|c s (H1 & H2) F IH]; [reflexivity|]. cbn [change_symbols map]. replace (c =? 42) with false by lia. f_equal. exact IH. Qed.
Lemma change_app a b : change_symbols (a ++ b) = change_symbols a ++ change_symbols b. Proof. apply map_app. Qed.
Lemma sprintf_plain p rest used n k : plain p -> sprintf_d (length p + k) used (p ++ rest) n = obind (sprintf_d k used rest n) (fun s => Ok (p ++ s)).
Proof.
  induction 1 as [|c p (H1 & H2) F IH]; [cbn [List.length Nat.add app]; now destruct (sprintf_d k used rest n)|].
  cbn [List.length Nat.add app sprintf_d]. replace (c =? 37) with false by lia. cbn [negb]. rewrite IH. now destruct (sprintf_d k used rest n).
Qed.
Lemma sprintf_end s used n k : plain s -> sprintf_d (length s + S k) used s n = Ok s.
Proof. intro P. rewrite <- (app_nil_r s) at 2. rewrite sprintf_plain by exact P. cbn [sprintf_d obind]. now rewrite app_nil_r. Qed.
(** The printed number. *)
Lemma dec_digits_length fuel : forall n acc k, 0 <= n < 10 ^ Z.of_nat k -> (0 < k)%nat -> (length (dec_digits fuel n acc) <= k + length acc)%nat.
Proof.
  induction fuel as [|f IH]; intros n acc k B K; cbn [dec_digits]; [lia|]. destruct (Z.ltb_spec n 10); [cbn [List.length]; lia|].
  destruct k as [|k]; [lia|]. destruct k as [|k]; [change (10 ^ Z.of_nat 1) with 10 in B; lia|].
  assert (0 <= n / 10 < 10 ^ Z.of_nat (S k)). { rewrite Nat2Z.inj_succ, Z.pow_succ_r in B by lia. split; [apply Z.div_pos; lia|]. apply Z.div_lt_upper_bound; lia. }
  specialize (IH (n / 10) ((48 + n mod 10) :: acc) (S k) H0 ltac:(lia)). cbn [List.length] in IH. lia.
Qed.
Lemma dec_digits_head fuel : forall n acc, 1 <= n -> (Z.to_nat (Z.log2 n) < fuel)%nat -> hd 0 (dec_digits fuel n acc) <> 48.
Proof.
  induction fuel as [|f IH]; intros n acc N F; [lia|]. cbn [dec_digits]. destruct (Z.ltb_spec n 10).
  - cbn [hd]. rewrite Z.mod_small by lia. lia.
  - apply IH; [apply Z.div_le_lower_bound; lia|]. pose proof (log2_div10 n H). pose proof (Z.log2_nonneg (n / 10)). lia.
Qed.
Lemma print_value n : 0 <= n -> value (print_nonneg n) = n.
Proof.
  intro H. pose proof (read_print_nonneg0 n [] H Logic.I) as R. rewrite app_nil_r in R. rewrite read_digits_value in R by now apply print_nonneg_digits.
  unfold value. congruence.
Qed.
Lemma value_zeros k s : value (repeat 48 k ++ s) = value s.
Proof. unfold value. rewrite fold_left_app. f_equal. induction k as [|k IH]; [reflexivity|]. cbn [repeat fold_left]. exact IH. Qed.
Lemma print_nonneg_head n : 0 <= n -> hd 0 (print_nonneg n) <> 48 \/ print_nonneg n = [48].
Proof. intro H. destruct (Z.eq_dec n 0) as [-> |N]; [now right|]. left. apply dec_digits_head; lia. Qed.
Lemma print_padded n w : 0 <= n -> 0 <= w -> padded (print_dec_pad (Z.to_nat w) n) n w.
Proof.
  intros N W. unfold print_dec_pad. replace (n <? 0) with false by lia. unfold pad_zero. pose proof (print_nonneg_digits n N) as D. pose proof (print_nonneg_nonempty n) as NE.
  split; [|split].
  - split; [destruct (repeat 48 (Z.to_nat w - length (print_nonneg n))); [exact NE|discriminate]|]. apply Forall_app. split; [|exact D].
    apply Forall_forall. intros x I. apply repeat_spec in I. lia.
  - rewrite value_zeros. now apply print_value.
  - rewrite app_length, repeat_length. destruct (Nat.le_gt_cases (length (print_nonneg n)) (Z.to_nat w)) as [L|L]; [left; lia|]. right. split; [lia|].
    replace (Z.to_nat w - length (print_nonneg n))%nat with 0%nat by lia. cbn [repeat app]. now apply print_nonneg_head.
Qed.
Lemma print_plain_padded n : 0 <= n -> padded (print_dec n) n 0.
Proof.
  intro N. unfold print_dec. replace (n <? 0) with false by lia. pose proof (print_nonneg_nonempty n) as NE. split; [split; [exact NE|now apply print_nonneg_digits]|].
  split; [now apply print_value|]. right. split; [destruct (print_nonneg n); [congruence|cbn [List.length]; lia]|]. now apply print_nonneg_head.
Qed.
Lemma print_nonneg_length n : 0 <= n < 2 ^ 31 -> (length (print_nonneg n) <= 10)%nat.
Proof. intro H. pose proof (dec_digits_length (S (Z.to_nat (Z.log2 n))) n [] 10) as L. cbn [List.length] in L. unfold print_nonneg. lia. Qed.
Lemma read_digits_stop s rest acc : Forall (fun c => 48 <= c <= 57) s -> (match rest with c :: _ => c_isdigit c = false | [] => True end) ->
  read_digits (s ++ rest) acc = (fold_left (fun n c => 10 * n + (c - 48)) s acc, rest).
Proof.
  intros F R. revert acc. induction F as [|c s C F IH]; intro acc; cbn [app read_digits fold_left].
  - destruct rest as [|c r]; [reflexivity|]. cbn [read_digits]. now rewrite R.
  - replace (c_isdigit c) with true by (symmetry; now apply isdigit_spec). apply IH.
Qed.
(** "%d" *)
Lemma name_plain prefix suffix n : plain prefix -> plain suffix -> 0 <= n < 2 ^ 31 ->
  get_input_file_name (prefix ++ s2z "*d" ++ suffix) n = Ok (prefix ++ print_dec n ++ suffix).
Proof.
  intros P S0 N. unfold get_input_file_name. rewrite i32_small by (unfold is_i32; lia). rewrite !change_app, (change_plain prefix), (change_plain suffix) by assumption. change (change_symbols (s2z "*d")) with [37; 100].
  rewrite !app_length. change (length (s2z "*d")) with 2%nat. replace (S (length prefix + (2 + length suffix)))%nat with (length prefix + S (length suffix + S 1))%nat by lia.
  rewrite sprintf_plain by exact P. cbn [app sprintf_d]. change (37 =? 37) with true. cbn [negb]. change (100 =? 37) with false. cbv iota.
  cbn [read_digits]. change (c_isdigit 100) with false. cbv iota. change (100 =? 48) with false. cbv iota. change (Z.to_nat 0) with 0%nat. cbn [Nat.sub repeat app].
  rewrite sprintf_end by exact S0. cbn [obind]. rewrite !app_length.
  assert (L : (length (print_dec n) <= 10)%nat) by (unfold print_dec; replace (n <? 0) with false by lia; now apply print_nonneg_length).
  match goal with |- (if ?x then _ else _) = _ => replace x with true; [reflexivity|symmetry; apply Nat.leb_le; lia] end.
Qed.
(** "%0<w>d" *)
Lemma name_padded prefix suffix w n : plain prefix -> plain suffix -> Forall (fun c => 48 <= c <= 57) w -> value w <= 12 + Z.of_nat (length w) -> 0 <= n < 2 ^ 31 ->
  get_input_file_name (prefix ++ s2z "*0" ++ w ++ s2z "d" ++ suffix) n = Ok (prefix ++ print_dec_pad (Z.to_nat (value w)) n ++ suffix).
Proof.
  intros P S0 W V N. unfold get_input_file_name. rewrite i32_small by (unfold is_i32; lia). rewrite !change_app, !(change_plain prefix), !(change_plain suffix) by assumption.
  rewrite (change_plain w) by (revert W; apply Forall_impl; intros; lia). change (change_symbols (s2z "*0")) with [37; 48]. change (change_symbols (s2z "d")) with [100].
  rewrite !app_length. change (length (s2z "*0")) with 2%nat. change (length (s2z "d")) with 1%nat.
  replace (S (length prefix + (2 + (length w + (1 + length suffix)))))%nat with (length prefix + S (length suffix + S (S (S (length w)))))%nat by lia.
  rewrite sprintf_plain by exact P. cbn [app sprintf_d]. change (37 =? 37) with true. cbn [negb]. change (48 =? 37) with false. cbv iota.
  cbn [read_digits]. change (c_isdigit 48) with true. cbv iota. change (10 * 0 + (48 - 48)) with 0. rewrite read_digits_stop by (auto; reflexivity). change (fold_left (fun n c => 10 * n + (c - 48)) w 0) with (value w).
  change (48 =? 48) with true. cbv iota. rewrite sprintf_end by exact S0. cbn [obind]. rewrite !app_length.
  assert (L : (length (print_dec_pad (Z.to_nat (value w)) n) <= 12 + length w)%nat).
  { unfold print_dec_pad. replace (n <? 0) with false by lia. unfold pad_zero. rewrite app_length, repeat_length. pose proof (print_nonneg_length n N). lia. }
  match goal with |- (if ?x then _ else _) = _ => replace x with true; [reflexivity|symmetry; apply Nat.leb_le; lia] end.
Qed.
Lemma name_wide prefix suffix w n : plain prefix -> plain suffix -> Forall (fun c => 48 <= c <= 57) w -> 12 + Z.of_nat (length w) < value w -> 0 <= n < 2 ^ 31 ->
  get_input_file_name (prefix ++ s2z "*0" ++ w ++ s2z "d" ++ suffix) n = UB.
Proof.
  intros P S0 W V N. unfold get_input_file_name. rewrite i32_small by (unfold is_i32; lia). rewrite !change_app, !(change_plain prefix), !(change_plain suffix) by assumption.
  rewrite (change_plain w) by (revert W; apply Forall_impl; intros; lia). change (change_symbols (s2z "*0")) with [37; 48]. change (change_symbols (s2z "d")) with [100].
  rewrite !app_length. change (length (s2z "*0")) with 2%nat. change (length (s2z "d")) with 1%nat.
  replace (S (length prefix + (2 + (length w + (1 + length suffix)))))%nat with (length prefix + S (length suffix + S (S (S (length w)))))%nat by lia.
  rewrite sprintf_plain by exact P. cbn [app sprintf_d]. change (37 =? 37) with true. cbn [negb]. change (48 =? 37) with false. cbv iota.
  cbn [read_digits]. change (c_isdigit 48) with true. cbv iota. change (10 * 0 + (48 - 48)) with 0. rewrite read_digits_stop by (auto; reflexivity). change (fold_left (fun n c => 10 * n + (c - 48)) w 0) with (value w).
  change (48 =? 48) with true. cbv iota. rewrite sprintf_end by exact S0. cbn [obind]. rewrite !app_length.
  assert (L : (Z.to_nat (value w) <= length (print_dec_pad (Z.to_nat (value w)) n))%nat).
  { unfold print_dec_pad. replace (n <? 0) with false by lia. unfold pad_zero. rewrite app_length, repeat_length. lia. }
  match goal with |- (if ?x then _ else _) = _ => replace x with false; [reflexivity|symmetry; apply Nat.leb_gt; lia] end.
Qed.
