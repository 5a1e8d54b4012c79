(** The compression functions of SHA-1 and SHA-256 agree with FIPS 180-4 modulo 2^32. *)
From Verif Require Import CBase ShaModel SpecSha ShaProofs.
Notation length := List.length.

Section Width.
Variable lw : Z.
Hypothesis Hlw : 32 <= lw.

Lemma u32_0 : u32 0 = 0. Proof. reflexivity. Qed.

Lemma nth_u32 l i : nth i (map u32 l) 0 = u32 (nth i l 0).
Proof. change 0 with (u32 0) at 1. apply map_nth. Qed.

Lemma u32_ul_l x y : u32 (ul lw x + y) = u32 (x + y).
Proof. rewrite !u32_add, u32_ul by assumption. reflexivity. Qed.

Lemma u32_sum5 a b c d e :
  u32 (ul lw (ul lw (ul lw (ul lw (a + b) + c) + d) + e)) = u32 (a + b + c + d + e).
Proof. do 4 rewrite u32_ul, u32_add by assumption. rewrite !u32_add. reflexivity. Qed.

Lemma u32_sum4 a b c d :
  u32 (ul lw (ul lw (ul lw (a + b) + c) + d)) = u32 (a + b + c + d).
Proof. do 3 rewrite u32_ul, u32_add by assumption. rewrite !u32_add. reflexivity. Qed.

Lemma u32_sum2 a b : u32 (ul lw (a + b)) = addw (u32 a) (u32 b).
Proof. rewrite u32_ul by assumption. apply u32_add. Qed.

Lemma addw_sum5 a b c d e :
  addw (addw (addw (addw (u32 a) (u32 b)) (u32 c)) (u32 d)) (u32 e) = u32 (a + b + c + d + e).
Proof. rewrite <- !u32_add. reflexivity. Qed.

Lemma addw_sum4 a b c d :
  addw (addw (addw (u32 a) (u32 b)) (u32 c)) (u32 d) = u32 (a + b + c + d).
Proof. rewrite <- !u32_add. reflexivity. Qed.

(* ------------------------------------------------------------------ SHA-1 *)

Lemma expand1_spec n : forall W,
  map u32 (expand1 n W (length W)) = schedule next1 n (map u32 W).
Proof.
  induction n as [|n IH]; intros W; [reflexivity|]. cbn [expand1 schedule].
  replace (S (length W)) with
    (length (W ++ [rotl (Z.lxor (Z.lxor (Z.lxor (get W (length W - 3)) (get W (length W - 8)))
       (get W (length W - 14))) (get W (length W - 16))) 1])).
  2: { rewrite app_length. cbn [length]. lia. }
  rewrite IH, map_app. cbn [map]. do 3 f_equal. unfold next1. rewrite map_length, !nth_u32.
  rewrite rotl_spec by lia. rewrite rotl32_u32 by lia. rewrite !u32_lxor. reflexivity.
Qed.

Lemma load_words_length b : length (load_words b) = 16%nat.
Proof. reflexivity. Qed.

Lemma schedule1_spec b : message b -> map u32 (expand1 64 (load_words b) 16) = schedule1 b.
Proof.
  intros H. rewrite <- (load_words_length b). rewrite expand1_spec, load_words_spec by assumption.
  unfold schedule1. reflexivity.
Qed.

(** One step; [F] and [k] are those the standard prescribes for step [t]. *)
Lemma FF_spec F k W t a b c d e :
  (forall x y z, u32 (F x y z) = f1 t (u32 x) (u32 y) (u32 z)) -> k = K1 t ->
  step1 (map u32 W) (map u32 [a; b; c; d; e]) t =
  map u32 [snd (FF lw F k a b c d e (get W t)); a; fst (FF lw F k a b c d e (get W t)); c; d].
Proof.
  intros HF Hk. unfold FF. cbn [map step1 fst snd].
  rewrite nth_u32.
  rewrite !rotl_spec by lia. rewrite rotl32_u32 by lia.
  f_equal. rewrite <- HF. change (nth t W 0) with (get W t).
  assert (Hk' : K1 t = u32 (K1 t)).
  { unfold K1. destruct (t <? 20)%nat, (t <? 40)%nat, (t <? 60)%nat; reflexivity. }
  rewrite Hk'. rewrite <- (rotl32_u32 5 a) by lia. rewrite addw_sum5, <- Hk.
  rewrite u32_sum5, ?rotl32_u32 by lia. f_equal. lia.
Qed.

Lemma fives F k W t :
  (forall u, (t <= u < t + 5)%nat -> k = K1 u) ->
  (forall u x y z, (t <= u < t + 5)%nat -> u32 (F x y z) = f1 u (u32 x) (u32 y) (u32 z)) ->
  forall a b c d e, exists a' b' c' d' e',
    five lw F k W t (a, b, c, d, e) = (a', b', c', d', e') /\
    fold_left (step1 (map u32 W)) (seq t 5) (map u32 [a; b; c; d; e])
    = map u32 [a'; b'; c'; d'; e'].
Proof.
  intros Hk HF a b c d e. unfold five.
  destruct (FF lw F k a b c d e (get W t)) as [b1 e1] eqn:E0.
  destruct (FF lw F k e1 a b1 c d (get W (t + 1))) as [a1 d1] eqn:E1.
  destruct (FF lw F k d1 e1 a1 b1 c (get W (t + 2))) as [e2 c1] eqn:E2.
  destruct (FF lw F k c1 d1 e2 a1 b1 (get W (t + 3))) as [d2 b2] eqn:E3.
  destruct (FF lw F k b2 c1 d2 e2 a1 (get W (t + 4))) as [c2 a2] eqn:E4.
  exists a2, b2, c2, d2, e2. split; [reflexivity|].
  cbn [seq fold_left].
  replace (S t) with (t + 1)%nat by lia. replace (S (t + 1)) with (t + 2)%nat by lia.
  replace (S (t + 2)) with (t + 3)%nat by lia. replace (S (t + 3)) with (t + 4)%nat by lia.
  rewrite (FF_spec F k W t) by (try (apply Hk; lia); intros; apply HF; lia). rewrite E0. cbn [fst snd].
  rewrite (FF_spec F k W (t + 1)) by (try (apply Hk; lia); intros; apply HF; lia). rewrite E1. cbn [fst snd].
  rewrite (FF_spec F k W (t + 2)) by (try (apply Hk; lia); intros; apply HF; lia). rewrite E2. cbn [fst snd].
  rewrite (FF_spec F k W (t + 3)) by (try (apply Hk; lia); intros; apply HF; lia). rewrite E3. cbn [fst snd].
  rewrite (FF_spec F k W (t + 4)) by (try (apply Hk; lia); intros; apply HF; lia). rewrite E4. cbn [fst snd].
  reflexivity.
Qed.

Lemma seq_20 t : seq t 20 = seq t 5 ++ seq (t + 5) 5 ++ seq (t + 10) 5 ++ seq (t + 15) 5.
Proof.
  rewrite (seq_app 5 15), (seq_app 5 10), (seq_app 5 5), <- !Nat.add_assoc. reflexivity.
Qed.

Lemma twenties F k W t :
  (forall u, (t <= u < t + 20)%nat -> k = K1 u) ->
  (forall u x y z, (t <= u < t + 20)%nat -> u32 (F x y z) = f1 u (u32 x) (u32 y) (u32 z)) ->
  forall a b c d e, exists a' b' c' d' e',
    twenty lw F k W t (a, b, c, d, e) = (a', b', c', d', e') /\
    fold_left (step1 (map u32 W)) (seq t 20) (map u32 [a; b; c; d; e])
    = map u32 [a'; b'; c'; d'; e'].
Proof.
  intros Hk HF a b c d e. unfold twenty. rewrite seq_20, !fold_left_app.
  assert (G : forall s, (s = t \/ s = t + 5 \/ s = t + 10 \/ s = t + 15)%nat ->
    (forall u, (s <= u < s + 5)%nat -> k = K1 u) /\
    (forall u x y z, (s <= u < s + 5)%nat -> u32 (F x y z) = f1 u (u32 x) (u32 y) (u32 z))).
  { intros s Hs. split; intros; [apply Hk | apply HF]; lia. }
  destruct (G t) as [K0 F0]; [auto|].
  destruct (fives F k W t K0 F0 a b c d e) as (a1 & b1 & c1 & d1 & e1 & -> & ->).
  destruct (G (t + 5)%nat) as [K1' F1']; [auto|].
  destruct (fives F k W _ K1' F1' a1 b1 c1 d1 e1) as (a2 & b2 & c2 & d2 & e2 & -> & ->).
  destruct (G (t + 10)%nat) as [K2 F2]; [auto|].
  destruct (fives F k W _ K2 F2 a2 b2 c2 d2 e2) as (a3 & b3 & c3 & d3 & e3 & -> & ->).
  destruct (G (t + 15)%nat) as [K3 F3]; [auto|].
  apply (fives F k W _ K3 F3).
Qed.

Lemma f1_at u : ((u < 20)%nat -> f1 u = Ch) /\ ((20 <= u < 40)%nat -> f1 u = Parity) /\
  ((40 <= u < 60)%nat -> f1 u = Maj) /\ ((60 <= u)%nat -> f1 u = Parity).
Proof.
  unfold f1. destruct (Nat.ltb_spec u 20), (Nat.ltb_spec u 40), (Nat.ltb_spec u 60);
    repeat split; intros; try reflexivity; lia.
Qed.

Lemma K1_at u : ((u < 20)%nat -> 0x5a827999 = K1 u) /\ ((20 <= u < 40)%nat -> 0x6ed9eba1 = K1 u) /\
  ((40 <= u < 60)%nat -> 0x8f1bbcdc = K1 u) /\ ((60 <= u)%nat -> 0xca62c1d6 = K1 u).
Proof.
  unfold K1. destruct (Nat.ltb_spec u 20), (Nat.ltb_spec u 40), (Nat.ltb_spec u 60);
    repeat split; intros; try reflexivity; lia.
Qed.

Lemma seq_80 : seq 0 80 = seq 0 20 ++ seq 20 20 ++ seq 40 20 ++ seq 60 20.
Proof. reflexivity. Qed.

Theorem compress1_spec st b :
  length st = 5%nat -> message b ->
  map u32 (compress1 lw st b) = next_hash1 (map u32 st) b /\ length (compress1 lw st b) = 5%nat.
Proof.
  intros Hst Hb. unfold next_hash1. rewrite <- schedule1_spec by assumption.
  destruct st as [|a [|b0 [|c [|d [|e [|]]]]]]; try discriminate Hst.
  unfold compress1. set (W := expand1 64 (load_words b) 16). rewrite seq_80, !fold_left_app.
  change (get [a; b0; c; d; e] 0) with a. change (get [a; b0; c; d; e] 1) with b0.
  change (get [a; b0; c; d; e] 2) with c. change (get [a; b0; c; d; e] 3) with d.
  change (get [a; b0; c; d; e] 4) with e.
  destruct (twenties AFS_F0 0x5a827999 W 0) with (a := a) (b := b0) (c := c) (d := d) (e := e)
    as (a1 & b1 & c1 & d1 & e1 & -> & ->).
  { intros u Hu. apply K1_at. lia. }
  { intros u x y z Hu. destruct (f1_at u) as (E & _). rewrite E by lia. apply choice. }
  destruct (twenties AFS_F1 0x6ed9eba1 W 20) with (a := a1) (b := b1) (c := c1) (d := d1) (e := e1)
    as (a2 & b2 & c2 & d2 & e2 & -> & ->).
  { intros u Hu. apply K1_at. lia. }
  { intros u x y z Hu. destruct (f1_at u) as (_ & E & _). rewrite E by lia. apply parity. }
  destruct (twenties AFS_F2 0x8f1bbcdc W 40) with (a := a2) (b := b2) (c := c2) (d := d2) (e := e2)
    as (a3 & b3 & c3 & d3 & e3 & -> & ->).
  { intros u Hu. apply K1_at. lia. }
  { intros u x y z Hu. destruct (f1_at u) as (_ & _ & E & _). rewrite E by lia. apply majority_a. }
  destruct (twenties AFS_F3 0xca62c1d6 W 60) with (a := a3) (b := b3) (c := c3) (d := d3) (e := e3)
    as (a4 & b4 & c4 & d4 & e4 & -> & ->).
  { intros u Hu. apply K1_at. lia. }
  { intros u x y z Hu. destruct (f1_at u) as (_ & _ & _ & E). rewrite E by lia. apply parity. }
  split; [|reflexivity].
  unfold add_words. cbn [map combine fst snd]. rewrite !u32_sum2. reflexivity.
Qed.

(* ---------------------------------------------------------------- SHA-256 *)

Lemma expand256_spec n : forall W,
  map u32 (expand256 lw n W (length W)) = schedule next256 n (map u32 W).
Proof.
  induction n as [|n IH]; intros W; [reflexivity|]. cbn [expand256 schedule].
  match goal with |- map u32 (expand256 lw n (W ++ [?x]) _) = _ => set (v := x) end.
  replace (S (length W)) with (length (W ++ [v])).
  2: { rewrite app_length. cbn [length]. lia. }
  rewrite IH, map_app. cbn [map]. do 3 f_equal. unfold next256. rewrite map_length, !nth_u32.
  unfold v. rewrite u32_sum4. rewrite Gamma1_spec, Gamma0_spec.
  rewrite !u32_add, sigma1_word, sigma0_word. reflexivity.
Qed.

Lemma schedule256_spec b : message b -> map u32 (expand256 lw 48 (load_words b) 16) = schedule256 b.
Proof.
  intros H. rewrite <- (load_words_length b). rewrite expand256_spec, load_words_spec by assumption.
  unfold schedule256. reflexivity.
Qed.

(** The registers of the standard before step [t], in the array of the code: they move down by
    one position at each step. *)
Definition view (t : nat) (s : list Z) : list Z :=
  map (fun j => u32 (get s ((j + 7 * t) mod 8))) (seq 0 8).

Lemma step256_words W' a b c d e f g h t w k W :
  nth t (map u32 W) 0 = u32 w -> nth t K256 0 = u32 k -> W' = map u32 W ->
  step256 W' (map u32 [a; b; c; d; e; f; g; h]) t =
  let t0 := ul lw (ul lw (ul lw (ul lw (h + AFS_Sigma1 e) + AFS_Ch e f g) + k) + w) in
  let t1 := ul lw (AFS_Sigma0 a + AFS_Maj a b c) in
  map u32 [ul lw (t0 + t1); a; b; c; ul lw (d + t0); e; f; g].
Proof.
  intros Hw Hk ->. cbn [map step256]. rewrite Hw, Hk.
  unfold AFS_Ch, AFS_Maj. rewrite <- choice, <- majority_b.
  rewrite !u32_sum2, Sigma1_spec, Sigma0_spec, Sigma1_word, Sigma0_word. reflexivity.
Qed.

Definition regular (t : nat) (r : rnd) : bool :=
  (r_a r =? (0 + 7 * t) mod 8)%nat && (r_b r =? (1 + 7 * t) mod 8)%nat && (r_c r =? (2 + 7 * t) mod 8)%nat &&
  (r_d r =? (3 + 7 * t) mod 8)%nat && (r_e r =? (4 + 7 * t) mod 8)%nat && (r_f r =? (5 + 7 * t) mod 8)%nat &&
  (r_g r =? (6 + 7 * t) mod 8)%nat && (r_h r =? (7 + 7 * t) mod 8)%nat && (r_i r =? t)%nat &&
  (nth t K256 0 =? r_k r) && (u32 (r_k r) =? r_k r).

Lemma mod8 t : (t mod 8 = 0 \/ t mod 8 = 1 \/ t mod 8 = 2 \/ t mod 8 = 3 \/ t mod 8 = 4 \/
  t mod 8 = 5 \/ t mod 8 = 6 \/ t mod 8 = 7)%nat.
Proof. pose proof (Nat.mod_upper_bound t 8). lia. Qed.

Lemma rotate7 j t r : (t mod 8 = r -> (j + 7 * t) mod 8 = (j + 7 * r) mod 8)%nat.
Proof.
  intros <-. rewrite Nat.add_mod by lia. rewrite (Nat.add_mod j (7 * (t mod 8))) by lia. f_equal. f_equal.
  rewrite <- Nat.mul_mod_idemp_r by lia. reflexivity.
Qed.

Lemma rnd_step W s t r :
  length s = 8%nat -> regular t r = true ->
  length (do_rnd lw W s r) = 8%nat /\
  view (S t) (do_rnd lw W s r) = step256 (map u32 W) (view t s) t.
Proof.
  intros Hs Hr. destruct r as [a b c d e f g h i k]. unfold regular in Hr.
  cbn [r_a r_b r_c r_d r_e r_f r_g r_h r_i r_k] in Hr.
  repeat rewrite andb_true_iff in Hr. rewrite !Nat.eqb_eq, !Z.eqb_eq in Hr.
  destruct Hr as ((((((((((Ha & Hb) & Hc) & Hd) & He) & Hf) & Hg) & Hh) & Hi) & Hk) & Hku).
  assert (Hstep : nth t (map u32 W) 0 = u32 (get W i)) by (rewrite Hi; apply nth_u32).
  assert (HK : nth t K256 0 = u32 k) by congruence.
  destruct s as [|s0 [|s1 [|s2 [|s3 [|s4 [|s5 [|s6 [|s7 [|]]]]]]]]]; try discriminate Hs.
  unfold view. cbn [seq map].
  assert (Mcase : exists q, (t mod 8 = q /\ S t mod 8 = S q mod 8 /\ q < 8)%nat).
  { exists (t mod 8)%nat. split; [reflexivity|].
    pose proof (Nat.mod_upper_bound t 8). split; [|lia].
    rewrite <- (Nat.add_1_r t), <- (Nat.add_1_r (t mod 8)), Nat.add_mod_idemp_l by lia. reflexivity. }
  destruct Mcase as (q & M & M' & Hq).
  rewrite (rotate7 _ _ _ M) in Ha. rewrite (rotate7 _ _ _ M) in Hb. rewrite (rotate7 _ _ _ M) in Hc.
  rewrite (rotate7 _ _ _ M) in Hd. rewrite (rotate7 _ _ _ M) in He. rewrite (rotate7 _ _ _ M) in Hf.
  rewrite (rotate7 _ _ _ M) in Hg. rewrite (rotate7 _ _ _ M) in Hh.
  rewrite !(rotate7 _ _ _ M), !(rotate7 _ _ _ M').
  destruct q as [|[|[|[|[|[|[|[|]]]]]]]]; [| | | | | | | |lia];
    vm_compute in Ha, Hb, Hc, Hd, He, Hf, Hg, Hh; subst a b c d e f g h;
    (split; [reflexivity|]);
    repeat match goal with |- context [Nat.modulo (?j + 7 * ?r) 8] =>
      let v := eval vm_compute in (Nat.modulo (j + 7 * r) 8) in
      change (Nat.modulo (j + 7 * r) 8) with v end;
    unfold do_rnd; cbn [get nth put];
    match goal with |- _ = step256 _ [u32 ?a; u32 ?b; u32 ?c; u32 ?d; u32 ?e; u32 ?f; u32 ?g; u32 ?h] _ =>
      pose proof (step256_words (map u32 W) a b c d e f g h t (get W i) k W Hstep HK eq_refl) as E;
      cbn [map] in E; unfold get in E |- *; cbn [nth]; rewrite E; reflexivity end.
Qed.

Fixpoint all_regular (t : nat) (rs : list rnd) : bool :=
  match rs with
  | [] => true
  | r :: rs' => regular t r && all_regular (S t) rs'
  end.

Lemma rnds W rs : forall t s,
  length s = 8%nat -> all_regular t rs = true ->
  length (fold_left (do_rnd lw W) rs s) = 8%nat /\
  view (t + length rs) (fold_left (do_rnd lw W) rs s)
  = fold_left (step256 (map u32 W)) (seq t (length rs)) (view t s).
Proof.
  induction rs as [|r rs IH]; intros t s Hs Hr; cbn [fold_left length seq].
  - rewrite Nat.add_0_r. auto.
  - cbn [all_regular] in Hr. apply andb_true_iff in Hr. destruct Hr as [Hr Hrs].
    destruct (rnd_step W s t r Hs Hr) as [Hl E]. rewrite <- E.
    replace (t + S (length rs))%nat with (S t + length rs)%nat by lia.
    apply IH; assumption.
Qed.

Lemma rounds_regular : all_regular 0 rounds = true.
Proof. vm_compute. reflexivity. Qed.

Lemma view_0 s : length s = 8%nat -> view 0 s = map u32 s.
Proof.
  intros Hs. destruct s as [|s0 [|s1 [|s2 [|s3 [|s4 [|s5 [|s6 [|s7 [|]]]]]]]]]; try discriminate Hs.
  reflexivity.
Qed.

Lemma view_64 s : view 64 s = view 0 s.
Proof. reflexivity. Qed.

Theorem compress256_spec st b :
  length st = 8%nat -> message b ->
  map u32 (compress256 lw st b) = next_hash256 (map u32 st) b /\ length (compress256 lw st b) = 8%nat.
Proof.
  intros Hst Hb. unfold next_hash256, compress256. rewrite <- schedule256_spec by assumption.
  set (W := expand256 lw 48 (load_words b) 16).
  assert (E0 : map (get st) (seq 0 8) = st).
  { destruct st as [|s0 [|s1 [|s2 [|s3 [|s4 [|s5 [|s6 [|s7 [|]]]]]]]]]; try discriminate Hst. reflexivity. }
  rewrite E0.
  destruct (rnds W rounds 0 st Hst rounds_regular) as [Hl E].
  set (s := fold_left (do_rnd lw W) rounds st) in *.
  split; [|reflexivity].
  change (length rounds) with 64%nat in E. change (0 + 64)%nat with 64%nat in E.
  rewrite view_64, !view_0 in E by assumption. rewrite <- E.
  destruct st as [|a0 [|a1 [|a2 [|a3 [|a4 [|a5 [|a6 [|a7 [|]]]]]]]]]; try discriminate Hst.
  clearbody s. destruct s as [|s0 [|s1 [|s2 [|s3 [|s4 [|s5 [|s6 [|s7 [|]]]]]]]]]; try discriminate Hl.
  unfold add_words, get. cbn [map combine fst snd seq nth]. rewrite !u32_sum2. reflexivity.
Qed.
End Width.
