From Verif Require Import CBase CBaseProofs BoxModel.
From Coq Require Import ZifyBool.
Ltac Zify.zify_post_hook ::= Z.div_mod_to_equations.

Lemma get_ceil_spec size cap :
  0 <= size < 2^32 -> 0 < cap < 2^32 ->
  let n := get_data_frames cap size in
  0 <= n /\ size <= n * cap /\ forall m, 0 <= m -> size <= m * cap -> n <= m.
Proof.
  intros Hs Hc. unfold get_data_frames, get_ceil.
  destruct (Z.eqb_spec cap 0); [lia|]. rewrite (u32_small size) by lia.
  pose proof (Z.div_mod size cap ltac:(lia)) as Hd. pose proof (Z.mod_pos_bound size cap ltac:(lia)) as Hm.
  assert (0 <= size / cap) by (apply Z.div_pos; lia).
  assert (size / cap <= size) by (apply Z.div_le_upper_bound; nia).
  generalize dependent (size / cap). generalize dependent (size mod cap). intros r Hr q Hq Hq0 Hqs.
  destruct (Z.eqb_spec r 0) as [E|E]; cbn [negb].
  - repeat split; nia.
  - assert (cap <> 1) by lia. rewrite u32_small by nia. repeat split; nia.
Qed.

Lemma u32_le z : 0 <= z -> u32 z <= z.
Proof. intro H. unfold u32. apply Z.mod_le; lia. Qed.

(** The exact result for every size_t: the quotient is taken of the truncated size. *)
Lemma get_ceil_wrong size cap :
  2^32 <= size < 2^64 -> 0 < cap < 2^32 -> get_data_frames cap size * cap < size.
Proof.
  intros Hs Hc. unfold get_data_frames, get_ceil. destruct (Z.eqb_spec cap 0); [lia|].
  pose proof (u32_range size) as Hu.
  assert (0 <= u32 size / cap) by (apply Z.div_pos; lia).
  pose proof (Z.mul_div_le (u32 size) cap ltac:(lia)) as Hle.
  destruct (negb _) eqn:E.
  - assert (u32 (u32 size / cap + 1) <= u32 size / cap + 1) by (apply u32_le; lia).
    assert (u32 size <= size - 2^32).
    { unfold u32. pose proof (Z.div_mod size (2^32) ltac:(lia)). assert (1 <= size / 2^32) by (apply Z.div_le_lower_bound; lia). lia. }
    nia.
  - assert (u32 size < size). { lia. } lia.
Qed.

Lemma depth_loop_spec fuel : forall l d,
  0 <= l -> 0 <= d -> (d + Z.of_nat fuel < 2^32) -> l < 2 ^ Z.of_nat fuel ->
  exists b, depth_loop fuel l d = Some (d + b) /\ 0 <= b /\ l + 1 <= 2 ^ b /\ (forall c, 0 <= c -> l + 1 <= 2 ^ c -> b <= c) /\ b <= Z.of_nat fuel.
Proof.
  induction fuel as [|f IH]; intros l d Hl Hd Hf Hlt.
  - assert (l = 0) by (cbn in Hlt; lia). subst l. exists 0. cbn. split; [f_equal; lia|]. repeat split; intros; lia.
  - cbn [depth_loop]. destruct (Z.eqb_spec l 0) as [->|Hne].
    + exists 0. split; [f_equal; lia|]. change (2 ^ 0) with 1. repeat split; intros; lia.
    + rewrite Z.shiftr_div_pow2 by lia. change (2 ^ 1) with 2.
      rewrite (u32_small (d + 1)) by lia.
      rewrite Nat2Z.inj_succ, Z.pow_succ_r in Hlt by lia.
      destruct (IH (l / 2) (d + 1)) as (b & E & Hb & H1 & H2 & H3); try lia.
      exists (b + 1). split; [rewrite E; f_equal; lia|]. split; [lia|].
      rewrite Z.pow_add_r by lia. change (2 ^ 1) with 2. split; [lia|]. split; [|lia].
      intros c Hc Hc2. destruct (Z.eq_dec c 0) as [->|]; [cbn in Hc2; lia|].
      specialize (H2 (c - 1) ltac:(lia)).
      replace c with (c - 1 + 1) in Hc2 by lia. rewrite Z.pow_add_r in Hc2 by lia. change (2 ^ 1) with 2 in Hc2.
      assert (l / 2 + 1 <= 2 ^ (c - 1)) by lia. lia.
Qed.

Lemma bits_per_pixel_spec levels :
  1 <= levels < 2^31 ->
  exists b, bits_per_pixel 31 levels = Some b /\ 0 <= b <= 31 /\ levels <= 2 ^ b /\
    (forall c, 0 <= c -> levels <= 2 ^ c -> b <= c) /\
    (2 <= levels -> symbol_per_pixel b = 2 ^ b) /\ (levels = 1 -> symbol_per_pixel b = 0).
Proof.
  intro H. destruct (depth_loop_spec 31 (levels - 1) 0) as (b & E & H0 & H1 & H2 & H3); try lia.
  exists b. unfold bits_per_pixel. rewrite E. split; [f_equal; lia|]. split; [lia|]. split; [lia|].
  split; [intros c Hc Hc2; apply H2; lia|]. unfold symbol_per_pixel. split; intro HL.
  - destruct (Z.eqb_spec b 0) as [->|]; [cbn in H1; lia|reflexivity].
  - specialize (H2 0). cbn in H2. destruct (Z.eqb_spec b 0); [reflexivity|lia].
Qed.

(** With no levels the counter never reaches zero. *)
Lemma depth_loop_diverges fuel : forall l d, l < 0 -> depth_loop fuel l d = None.
Proof.
  induction fuel as [|f IH]; intros l d H; cbn [depth_loop]; destruct (Z.eqb_spec l 0); try lia; [reflexivity|].
  apply IH. rewrite Z.shiftr_div_pow2 by lia. change (2^1) with 2. lia.
Qed.
