(** The code of SHA-1 and SHA-256 against FIPS 180-4: words, compression, streaming. *)
From Coq Require Import Btauto.
From Verif Require Import CBase ShaModel SpecSha.
Notation length := List.length.

(* ------------------------------------------------------------------ words *)

Lemma u32_ones z : u32 z = Z.land z (Z.ones 32).
Proof. unfold u32. rewrite Z.land_ones by lia. reflexivity. Qed.

Lemma u32_bit z i : 0 <= i -> Z.testbit (u32 z) i = Z.testbit z i && (i <? 32).
Proof.
  intros Hi. unfold u32. destruct (i <? 32) eqn:E.
  - apply Z.ltb_lt in E. rewrite Z.mod_pow2_bits_low by lia. btauto.
  - apply Z.ltb_ge in E. rewrite Z.mod_pow2_bits_high by lia. btauto.
Qed.

Lemma u32_idem z : u32 (u32 z) = u32 z.
Proof. unfold u32. apply Z.mod_mod. lia. Qed.

Lemma u32_range z : 0 <= u32 z < 2 ^ 32.
Proof. unfold u32. apply Z.mod_pos_bound. lia. Qed.

Lemma u32_word z : 0 <= z < 2 ^ 32 -> u32 z = z.
Proof. intros H. unfold u32. apply Z.mod_small. exact H. Qed.

Lemma u32_land x y : u32 (Z.land x y) = Z.land (u32 x) (u32 y).
Proof.
  apply Z.bits_inj'. intros i Hi. rewrite Z.land_spec, !u32_bit, Z.land_spec by lia. btauto.
Qed.

Lemma u32_lor x y : u32 (Z.lor x y) = Z.lor (u32 x) (u32 y).
Proof.
  apply Z.bits_inj'. intros i Hi. rewrite Z.lor_spec, !u32_bit, Z.lor_spec by lia. btauto.
Qed.

Lemma u32_lxor x y : u32 (Z.lxor x y) = Z.lxor (u32 x) (u32 y).
Proof.
  apply Z.bits_inj'. intros i Hi. rewrite Z.lxor_spec, !u32_bit, Z.lxor_spec by lia.
  destruct (i <? 32); btauto.
Qed.

Lemma u32_add x y : u32 (x + y) = addw (u32 x) (u32 y).
Proof. unfold u32, addw. apply Zplus_mod. Qed.

Lemma u32_ul lw z : 32 <= lw -> u32 (ul lw z) = u32 z.
Proof.
  intros H. unfold u32, ul. symmetry. apply Znumtheory.Zmod_div_mod; try lia.
  exists (2 ^ (lw - 32)). rewrite <- Z.pow_add_r by lia. f_equal. lia.
Qed.

Lemma notw_bit x i : 0 <= i < 32 -> 0 <= x < 2 ^ 32 -> Z.testbit (notw x) i = negb (Z.testbit x i).
Proof.
  intros Hi Hx. unfold notw.
  replace (2 ^ 32 - 1 - x) with (Z.lnot x + 1 * 2 ^ 32) by (unfold Z.lnot; lia).
  rewrite <- (Z.mod_pow2_bits_low _ 32) by lia.
  rewrite Z.mod_add by lia. rewrite Z.mod_pow2_bits_low by lia.
  apply Z.lnot_spec. lia.
Qed.

Lemma notw_range x : 0 <= x < 2 ^ 32 -> 0 <= notw x < 2 ^ 32.
Proof. unfold notw. lia. Qed.

Lemma word_bits_ext x y :
  0 <= x < 2 ^ 32 -> 0 <= y < 2 ^ 32 ->
  (forall i, 0 <= i < 32 -> Z.testbit x i = Z.testbit y i) -> x = y.
Proof.
  intros Hx Hy H. apply Z.bits_inj'. intros i Hi.
  destruct (Z_lt_dec i 32); [apply H; lia|].
  rewrite <- (u32_word x Hx), <- (u32_word y Hy), !u32_bit by lia.
  replace (i <? 32) with false by (symmetry; apply Z.ltb_ge; lia). btauto.
Qed.

Lemma land_word x y : 0 <= x < 2 ^ 32 -> 0 <= y < 2 ^ 32 -> 0 <= Z.land x y < 2 ^ 32.
Proof. intros. rewrite <- (u32_word x), <- (u32_word y), <- u32_land by lia. apply u32_range. Qed.
Lemma lor_word x y : 0 <= x < 2 ^ 32 -> 0 <= y < 2 ^ 32 -> 0 <= Z.lor x y < 2 ^ 32.
Proof. intros. rewrite <- (u32_word x), <- (u32_word y), <- u32_lor by lia. apply u32_range. Qed.
Lemma lxor_word x y : 0 <= x < 2 ^ 32 -> 0 <= y < 2 ^ 32 -> 0 <= Z.lxor x y < 2 ^ 32.
Proof. intros. rewrite <- (u32_word x), <- (u32_word y), <- u32_lxor by lia. apply u32_range. Qed.

Ltac wordly := repeat first [apply land_word | apply lor_word | apply lxor_word | apply notw_range
                            | apply u32_range].

(** The code's choice function is the standard's. *)
Lemma choice x y z :
  u32 (Z.lxor z (Z.land x (Z.lxor y z))) = Ch (u32 x) (u32 y) (u32 z).
Proof.
  unfold Ch. apply word_bits_ext; [apply u32_range | wordly |].
  intros i Hi. rewrite u32_bit by lia.
  rewrite !Z.lxor_spec, !Z.land_spec, !Z.lxor_spec, notw_bit by (try lia; apply u32_range).
  rewrite !u32_bit by lia. replace (i <? 32) with true by (symmetry; apply Z.ltb_lt; lia).
  destruct (Z.testbit x i), (Z.testbit y i), (Z.testbit z i); reflexivity.
Qed.

Lemma parity x y z : u32 (Z.lxor (Z.lxor x y) z) = Parity (u32 x) (u32 y) (u32 z).
Proof. unfold Parity. rewrite !u32_lxor. reflexivity. Qed.

Lemma majority_a x y z :
  u32 (Z.lor (Z.land x y) (Z.land z (Z.lor x y))) = Maj (u32 x) (u32 y) (u32 z).
Proof.
  unfold Maj. apply word_bits_ext; [apply u32_range | wordly |].
  intros i Hi. rewrite u32_bit by lia.
  rewrite !Z.lor_spec, !Z.lxor_spec, !Z.land_spec, !Z.lor_spec, !u32_bit by lia.
  replace (i <? 32) with true by (symmetry; apply Z.ltb_lt; lia).
  destruct (Z.testbit x i), (Z.testbit y i), (Z.testbit z i); reflexivity.
Qed.

Lemma majority_b x y z :
  u32 (Z.lor (Z.land (Z.lor x y) z) (Z.land x y)) = Maj (u32 x) (u32 y) (u32 z).
Proof.
  unfold Maj. apply word_bits_ext; [apply u32_range | wordly |].
  intros i Hi. rewrite u32_bit by lia.
  rewrite !Z.lor_spec, !Z.lxor_spec, !Z.land_spec, !Z.lor_spec, !u32_bit by lia.
  replace (i <? 32) with true by (symmetry; apply Z.ltb_lt; lia).
  destruct (Z.testbit x i), (Z.testbit y i), (Z.testbit z i); reflexivity.
Qed.

Lemma land31 s : 0 < s < 32 -> Z.land s 31 = s /\ (s =? 0) = false.
Proof.
  intros H. split; [|apply Z.eqb_neq; lia].
  change 31 with (Z.ones 5). rewrite Z.land_ones by lia. apply Z.mod_small. lia.
Qed.

Lemma rotl_spec v s : 0 < s < 32 -> rotl v s = rotl32 s (u32 v).
Proof.
  intros H. unfold rotl, rotl32. destruct (land31 s H) as [-> ->].
  rewrite Z.shiftl_mul_pow2, Z.shiftr_div_pow2 by lia. reflexivity.
Qed.

Lemma rotr_spec v s : 0 < s < 32 -> rotr v s = rotr32 s (u32 v).
Proof.
  intros H. unfold rotr, rotr32. destruct (land31 s H) as [-> ->].
  rewrite Z.shiftl_mul_pow2, Z.shiftr_div_pow2 by lia. reflexivity.
Qed.

Lemma div_word x n : 0 <= n -> 0 <= x < 2 ^ 32 -> 0 <= x / 2 ^ n < 2 ^ 32.
Proof.
  intros Hn Hx. split; [apply Z.div_pos; lia|].
  apply Z.le_lt_trans with x; [|lia].
  apply Z.div_le_upper_bound; [lia|]. nia.
Qed.

Lemma rotl32_word s x : 0 <= s <= 32 -> 0 <= x < 2 ^ 32 -> 0 <= rotl32 s x < 2 ^ 32.
Proof.
  intros Hs Hx. unfold rotl32. apply lor_word; [apply Z.mod_pos_bound; lia | apply div_word; lia].
Qed.

Lemma rotr32_word s x : 0 <= s <= 32 -> 0 <= x < 2 ^ 32 -> 0 <= rotr32 s x < 2 ^ 32.
Proof.
  intros Hs Hx. unfold rotr32. apply lor_word; [apply div_word; lia | apply Z.mod_pos_bound; lia].
Qed.

Lemma AFS_R_spec x n : 0 <= n -> AFS_R x n = shr n (u32 x).
Proof.
  intros H. unfold AFS_R, shr. change 0xFFFFFFFF with (Z.ones 32).
  rewrite <- u32_ones, Z.shiftr_div_pow2 by lia. reflexivity.
Qed.

Ltac rotators := rewrite ?rotr_spec, ?rotl_spec, ?AFS_R_spec by lia.

Lemma Sigma0_spec x : AFS_Sigma0 x = Sigma0 (u32 x).
Proof. unfold AFS_Sigma0, AFS_S, Sigma0. rotators. reflexivity. Qed.
Lemma Sigma1_spec x : AFS_Sigma1 x = Sigma1 (u32 x).
Proof. unfold AFS_Sigma1, AFS_S, Sigma1. rotators. reflexivity. Qed.
Lemma Gamma0_spec x : AFS_Gamma0 x = sigma0 (u32 x).
Proof. unfold AFS_Gamma0, AFS_S, sigma0. rotators. reflexivity. Qed.
Lemma Gamma1_spec x : AFS_Gamma1 x = sigma1 (u32 x).
Proof. unfold AFS_Gamma1, AFS_S, sigma1. rotators. reflexivity. Qed.

Lemma rot3_word x a b c : 0 <= a <= 32 -> 0 <= b <= 32 -> 0 <= c <= 32 -> 0 <= x < 2 ^ 32 ->
  0 <= Z.lxor (Z.lxor (rotr32 a x) (rotr32 b x)) (rotr32 c x) < 2 ^ 32.
Proof. intros. repeat apply lxor_word; apply rotr32_word; lia. Qed.

Lemma Sigma0_word x : u32 (Sigma0 (u32 x)) = Sigma0 (u32 x).
Proof. apply u32_word, rot3_word; try lia. apply u32_range. Qed.
Lemma Sigma1_word x : u32 (Sigma1 (u32 x)) = Sigma1 (u32 x).
Proof. apply u32_word, rot3_word; try lia. apply u32_range. Qed.
Lemma sigma0_word x : u32 (sigma0 (u32 x)) = sigma0 (u32 x).
Proof.
  apply u32_word. unfold sigma0, shr. repeat apply lxor_word;
    try (apply rotr32_word; [lia | apply u32_range]). apply div_word; [lia | apply u32_range].
Qed.
Lemma sigma1_word x : u32 (sigma1 (u32 x)) = sigma1 (u32 x).
Proof.
  apply u32_word. unfold sigma1, shr. repeat apply lxor_word;
    try (apply rotr32_word; [lia | apply u32_range]). apply div_word; [lia | apply u32_range].
Qed.

Lemma rotl32_u32 s x : 0 <= s <= 32 -> u32 (rotl32 s (u32 x)) = rotl32 s (u32 x).
Proof. intros. apply u32_word, rotl32_word; [lia | apply u32_range]. Qed.

Lemma addw_u32 x y : u32 (addw x y) = addw x y.
Proof. unfold addw. apply u32_idem. Qed.

(* ------------------------------------------------------------ load, store *)

Lemma get_map f l i : f 0 = 0 -> get (map f l) i = f (get l i).
Proof. intros H. unfold get. rewrite <- H at 1. apply map_nth. Qed.

Lemma message_get b i : message b -> 0 <= get b i < 256.
Proof.
  intros H. unfold get. destruct (nth_in_or_default i b 0) as [Hin | ->]; [|lia].
  unfold message in H. rewrite Forall_forall in H. apply H. exact Hin.
Qed.

Lemma land255 x : Z.land x 255 = x mod 256.
Proof. change 255 with (Z.ones 8). rewrite Z.land_ones by lia. reflexivity. Qed.

Lemma lor_disjoint a b n : 0 <= n -> a mod 2 ^ n = 0 -> 0 <= b < 2 ^ n -> Z.lor a b = a + b.
Proof.
  intros Hn Ha Hb. symmetry. rewrite Z.add_nocarry_lxor.
  - apply Z.lxor_lor. apply Z.bits_inj'. intros i Hi. rewrite Z.land_spec, Z.bits_0.
    destruct (Z_lt_dec i n).
    + rewrite <- (Z.mod_pow2_bits_low a n) by lia. rewrite Ha, Z.bits_0. reflexivity.
    + rewrite <- (Z.mod_small b (2 ^ n)) by lia. rewrite Z.mod_pow2_bits_high by lia. btauto.
  - apply Z.bits_inj'. intros i Hi. rewrite Z.land_spec, Z.bits_0.
    destruct (Z_lt_dec i n).
    + rewrite <- (Z.mod_pow2_bits_low a n) by lia. rewrite Ha, Z.bits_0. reflexivity.
    + rewrite <- (Z.mod_small b (2 ^ n)) by lia. rewrite Z.mod_pow2_bits_high by lia. btauto.
Qed.

Lemma load32h_spec b t : message b -> load32h b (4 * t) = word b t.
Proof.
  intros H. unfold load32h, word.
  pose proof (message_get b (4 * t) H) as H0. pose proof (message_get b (4 * t + 1) H) as H1.
  pose proof (message_get b (4 * t + 2) H) as H2. pose proof (message_get b (4 * t + 3) H) as H3.
  rewrite !land255, !Z.mod_small by lia. unfold get in *.
  rewrite !Z.shiftl_mul_pow2 by lia.
  rewrite (lor_disjoint _ (_ * 2 ^ 16) 24); [|lia| |lia].
  2: { apply Z.mod_mul. lia. }
  rewrite (lor_disjoint _ (_ * 2 ^ 8) 16); [|lia| |lia].
  2: { apply Z.mod_divide; [lia|]. exists (nth (4 * t) b 0 * 2 ^ 8 + nth (4 * t + 1) b 0). lia. }
  rewrite (lor_disjoint _ (nth (4 * t + 3) b 0) 8); [reflexivity|lia| |lia].
  apply Z.mod_divide; [lia|].
  exists (nth (4 * t) b 0 * 2 ^ 16 + nth (4 * t + 1) b 0 * 2 ^ 8 + nth (4 * t + 2) b 0). lia.
Qed.

Lemma word_range b t : message b -> 0 <= word b t < 2 ^ 32.
Proof.
  intros H. unfold word.
  pose proof (message_get b (4 * t) H) as H0. pose proof (message_get b (4 * t + 1) H) as H1.
  pose proof (message_get b (4 * t + 2) H) as H2. pose proof (message_get b (4 * t + 3) H) as H3.
  unfold get in *. lia.
Qed.

Lemma load_words_spec b : message b -> map u32 (load_words b) = map (word b) (seq 0 16).
Proof.
  intros H. unfold load_words. rewrite map_map. apply map_ext. intros i.
  rewrite load32h_spec by assumption. apply u32_word, word_range, H.
Qed.

Lemma byte_of x n : 0 <= n -> Z.land (Z.shiftr x n) 255 = (x / 2 ^ n) mod 256.
Proof. intros. rewrite land255, Z.shiftr_div_pow2 by lia. reflexivity. Qed.

Lemma byte_of_u32 x n : 0 <= n <= 24 -> (u32 x / 2 ^ n) mod 256 = (x / 2 ^ n) mod 256.
Proof.
  intros H. rewrite <- !land255, <- !Z.shiftr_div_pow2 by lia.
  apply Z.bits_inj'. intros i Hi. change 255 with (Z.ones 8).
  destruct (Z_lt_dec i 8).
  - rewrite !Z.land_spec, !Z.shiftr_spec, u32_bit by lia.
    replace (i + n <? 32) with true by (symmetry; apply Z.ltb_lt; lia). btauto.
  - rewrite !Z.land_spec. rewrite (Z.ones_spec_high 8 i) by lia. btauto.
Qed.

Lemma store32h_spec x : store32h x = big_endian 4 (u32 x).
Proof.
  unfold store32h, big_endian. cbn [seq map Nat.sub Z.of_nat Z.mul].
  rewrite !byte_of by lia. change (8 * Z.of_nat 3) with 24. change (8 * Z.of_nat 2) with 16.
  change (8 * Z.of_nat 1) with 8.
  rewrite !byte_of_u32 by lia.
  rewrite land255. change (2 ^ 0) with 1.
  rewrite Z.div_1_r.
  replace (u32 x mod 256) with (x mod 256); [reflexivity|].
  pose proof (byte_of_u32 x 0) as E. change (2 ^ 0) with 1 in E. rewrite !Z.div_1_r in E.
  symmetry. apply E. lia.
Qed.

Lemma store64h_spec x : store64h x = big_endian 8 x.
Proof.
  unfold store64h, big_endian. cbn [seq map Nat.sub Z.of_nat Z.mul].
  rewrite !byte_of, land255 by lia. change (2 ^ 0) with 1. rewrite Z.div_1_r. reflexivity.
Qed.
