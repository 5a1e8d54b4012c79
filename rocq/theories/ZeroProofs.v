(** Error bounds for the zero reference frame. *)
From Coq Require Import ZArith Reals Lra.
From Flocq Require Import Core BinarySingleNaN Relative.
From Verif Require Import CBase CBaseProofs ImageModel ZeroModel.
Open Scope R_scope.

Notation u := (/16777216)%R.
Notation rnd := (round radix2 (SpecFloat.fexp 24 128) ZnearestE).
Lemma bpow_m100 : bpow radix2 (-100) = / bpow radix2 100.
Proof. exact (bpow_opp radix2 100). Qed.
Lemma rnd_near x : bpow radix2 (-100) <= x -> x * (1 - u) <= rnd x <= x * (1 + u).
Proof.
  intro L. assert (P : 0 < bpow radix2 (-100)) by apply bpow_gt_0.
  destruct (relative_error_N_FLT_ex radix2 (-149) 24 ltac:(reflexivity) (fun n => negb (Z.even n)) x) as (eps & E & Q).
  - rewrite Rabs_pos_eq by lra. apply Rle_trans with (2 := L). apply bpow_le. discriminate.
  - change (rnd x) with (round radix2 (FLT_exp (-149) 24) ZnearestE x). rewrite Q.
    assert (B : / 2 * bpow radix2 (-24 + 1) = u) by (cbn; lra). apply (fun E => Rle_trans _ _ _ E (Req_le _ _ B)) in E. apply Rabs_le_inv in E. split; apply Rmult_le_compat_l; lra.
Qed.
Lemma rnd_small x : bpow radix2 (-100) <= x <= bpow radix2 100 -> Rlt_bool (Rabs (rnd x)) (bpow radix2 128) = true.
Proof.
  intros (L & U). assert (P : 0 < bpow radix2 (-100)) by apply bpow_gt_0. destruct (rnd_near x L) as (A & B). apply Rlt_bool_true.
  rewrite Rabs_pos_eq by (apply Rle_trans with (2 := A); apply Rmult_le_pos; lra).
  apply Rle_lt_trans with (1 := B). apply Rle_lt_trans with (bpow radix2 100 * (1 + u)); [apply Rmult_le_compat_r; lra|]. cbn. lra.
Qed.
Definition near (x : f32) (v : R) : Prop := is_finite x = true /\ v * (1 - u) <= B2R x <= v * (1 + u).
Definition ranged (v : R) : Prop := bpow radix2 (-100) <= v <= bpow radix2 100.
Lemma fdiv_near x y : is_finite x = true -> 0 < B2R y -> ranged (B2R x / B2R y) -> near (fdiv x y) (B2R x / B2R y).
Proof.
  intros F P Rg. pose proof (Bdiv_correct 24 128 _ _ mode_NE x y ltac:(lra)) as C. cbn [round_mode] in C. rewrite (rnd_small _ Rg) in C.
  destruct C as (C1 & C2 & _). split; [unfold fdiv; rewrite C2; exact F|]. unfold fdiv. rewrite C1. apply rnd_near, Rg.
Qed.
Lemma fmul_near x y : is_finite x = true -> is_finite y = true -> ranged (B2R x * B2R y) -> near (fmul x y) (B2R x * B2R y).
Proof.
  intros F G Rg. pose proof (Bmult_correct 24 128 _ _ mode_NE x y) as C. cbn [round_mode] in C. rewrite (rnd_small _ Rg) in C.
  destruct C as (C1 & C2 & _). split; [unfold fmul; rewrite C2, F, G; reflexivity|]. unfold fmul. rewrite C1. apply rnd_near, Rg.
Qed.
Lemma of_int_near h : (1 <= h < 2^32)%Z -> near (of_int h) (IZR h).
Proof.
  intro H. pose proof (binary_normalize_correct 24 128 prec32 emax32 mode_NE h 0 false) as C. cbn zeta in C. cbn [round_mode] in C.
  replace (F2R {| Fnum := h; Fexp := 0 |}) with (IZR h) in C by (unfold F2R; cbn; lra).
  assert (1 <= IZR h) by (apply (IZR_le 1); lia). assert (IZR h <= 4294967296) by (apply (IZR_le h 4294967296); lia).
  assert (Rg : ranged (IZR h)) by (split; cbn; lra). rewrite (rnd_small _ Rg) in C. destruct C as (C1 & C2 & _).
  split; [exact C2|]. unfold of_int. rewrite C1. apply rnd_near, Rg.
Qed.
(** Values of the constants. *)
Definition value (x : f32) (m e : Z) : Prop := is_finite x = true /\ B2R x = IZR m * bpow radix2 e.
Lemma value_by (x : f32) (m : positive) (e : Z) : B2SF x = SpecFloat.S754_finite false m e -> value x (Zpos m) e.
Proof. destruct x; cbn; intro H; try discriminate. injection H as -> -> ->. split; reflexivity. Qed.
Lemma frame_value : value FRAME_HEIGHT_MM 14543749 (-20).
Proof. apply value_by. vm_compute. reflexivity. Qed.
Lemma pitch_value : value PITCH_HEIGHT_MM 16609444 (-23).
Proof. apply value_by. vm_compute. reflexivity. Qed.
Lemma diff_value : value (fsub FRAME_HEIGHT_MM (fadd (fmul two PERF_PITCH_HEIGHT_MM) PITCH_HEIGHT_MM)) 10276044 (-22).
Proof. apply value_by. vm_compute. reflexivity. Qed.
Lemma two_value : value two 8388608 (-22).
Proof. apply value_by. vm_compute. reflexivity. Qed.

Definition P := 14543749 / 1048576.
Definition A := 16609444 / 8388608.
Definition D := 10276044 / 4194304.
(** The pixel pitch. *)
Lemma pitch_near h : (1 <= h < 2^32)%Z ->
  exists H p, let f := fdiv FRAME_HEIGHT_MM (of_int h) in is_finite f = true /\ B2R f = p /\
    IZR h * (1 - u) <= H <= IZR h * (1 + u) /\ P * (1 - u) <= p * H <= P * (1 + u) /\ 0 < p /\ / 1000000000 <= p <= 14 /\ 0 < H.
Proof.
  intro B. destruct (of_int_near h B) as (F & N1 & N2). destruct frame_value as (G & V).
  assert (B1 : 1 <= IZR h) by (apply (IZR_le 1); lia). assert (B2 : IZR h <= 4294967296) by (apply (IZR_le h 4294967296); lia).
  exists (B2R (of_int h)), (B2R (fdiv FRAME_HEIGHT_MM (of_int h))). set (H := B2R (of_int h)) in *.
  assert (H0 : 0 < H) by lra. assert (V' : B2R FRAME_HEIGHT_MM = P) by (rewrite V; unfold P; cbn; lra).
  assert (HI : 0 < / H) by (apply Rinv_0_lt_compat; exact H0). assert (E : / H * H = 1) by (apply Rinv_l; lra).
  assert (Q1 : / 5000000000 <= / H) by (apply Rinv_le; lra). assert (Q2 : / H <= 1 + 2 * u) by (apply Rmult_le_reg_r with H; [lra|]; rewrite E; nra).
  assert (K : B2R FRAME_HEIGHT_MM / H = P * / H) by (rewrite V'; reflexivity).
  destruct (fdiv_near FRAME_HEIGHT_MM (of_int h)) as (Fd & N3 & N4); [exact G|exact H0| |].
  { fold H. rewrite K. unfold P. split; cbn; nra. }
  fold H in N3, N4. rewrite K in N3, N4. set (p := B2R (fdiv _ _)) in *. cbn zeta.
  split; [exact Fd|]. split; [reflexivity|]. split; [split; lra|].
  split. { split; [apply Rle_trans with (P * / H * (1 - u) * H); [right; replace (P * / H * (1 - u) * H) with (P * (1 - u) * (/ H * H)) by ring; rewrite E; ring|apply Rmult_le_compat_r; lra]
                  |apply Rle_trans with (P * / H * (1 + u) * H); [apply Rmult_le_compat_r; lra|right; replace (P * / H * (1 + u) * H) with (P * (1 + u) * (/ H * H)) by ring; rewrite E; ring]]. }
  unfold P in N3, N4. split; [nra|]. split; [nra|lra].
Qed.

Lemma to_u32_of x r : is_finite x = true -> B2R x = r -> 0 <= r < 4294967296 ->
  exists n, to_u32 x = Ok n /\ (0 <= n < 2^32)%Z /\ IZR n <= r < IZR n + 1.
Proof.
  intros F E Rg. pose proof (Btrunc_correct 24 128 emax32 x) as T. rewrite round_FIX_IZR in T. apply eq_IZR in T. rewrite E in T.
  rewrite Ztrunc_floor in T by lra. exists (Zfloor r). pose proof (Zfloor_lb r) as L. pose proof (Zfloor_ub r) as U.
  assert (Z0 : (0 <= Zfloor r)%Z) by (apply Zfloor_lub; lra). assert (Z1 : (Zfloor r < 2^32)%Z) by (apply lt_IZR; lra).
  split; [|split; [lia|lra]]. unfold to_u32. rewrite F, T. replace ((0 <=? Zfloor r) && (Zfloor r <? 2^32))%Z with true by lia. reflexivity.
Qed.
Lemma height_bounds h : (1 <= h < 2^32)%Z ->
  exists n, to_u32 (fdiv PITCH_HEIGHT_MM (fdiv FRAME_HEIGHT_MM (of_int h))) = Ok n /\ (0 <= n < 2^32)%Z /\
    (2097152 * (1387 * n - 198 * h) <= 198 * h)%Z /\ (- (198 * h) < 2097152 * (1387 * (n + 1) - 198 * h))%Z.
Proof.
  intro B. destruct (pitch_near h B) as (H & p & F & E & (N1 & N2) & (N3 & N4) & P0 & (P1 & P2) & H0).
  assert (B1 : 1 <= IZR h) by (apply (IZR_le 1); lia). assert (B2 : IZR h <= 4294967295) by (apply (IZR_le h 4294967295); lia).
  set (f := fdiv FRAME_HEIGHT_MM (of_int h)) in *. destruct pitch_value as (G & V).
  assert (V' : B2R PITCH_HEIGHT_MM = A) by (rewrite V; unfold A; cbn; lra).
  assert (I0 : 0 < / p) by (apply Rinv_0_lt_compat; exact P0). assert (I1 : / p * p = 1) by (apply Rinv_l; lra).
  assert (J1 : / p <= 1000000000) by (rewrite <- (Rinv_inv 1000000000); apply Rinv_le; lra). assert (J2 : / 14 <= / p) by (apply Rinv_le; lra).
  destruct (fdiv_near PITCH_HEIGHT_MM f) as (Fd & N5 & N6); [exact G|rewrite E; exact P0|rewrite E, V'; unfold A, Rdiv; split; cbn; lra|].
  rewrite E, V' in N5, N6. set (r := B2R (fdiv PITCH_HEIGHT_MM f)) in *.
  assert (R1 : A * (1 - u) <= r * p) by (apply Rle_trans with (A / p * (1 - u) * p); [right; unfold Rdiv; replace (A * / p * (1 - u) * p) with (A * (1 - u) * (/ p * p)) by ring; rewrite I1; ring|apply Rmult_le_compat_r; lra]).
  assert (R2 : r * p <= A * (1 + u)) by (apply Rle_trans with (A / p * (1 + u) * p); [apply Rmult_le_compat_r; lra|right; unfold Rdiv; replace (A * / p * (1 + u) * p) with (A * (1 + u) * (/ p * p)) by ring; rewrite I1; ring]).
  assert (R0 : 0 < r) by (apply Rlt_le_trans with (2 := N5); unfold A, Rdiv; apply Rmult_lt_0_compat; [apply Rmult_lt_0_compat|]; lra).
  assert (U1 : r * (P * (1 - u)) <= A * (1 + u) * (1 + u) * IZR h).
  { apply Rle_trans with (r * (p * H)); [apply Rmult_le_compat_l; lra|]. replace (r * (p * H)) with (r * p * H) by ring.
    apply Rle_trans with (A * (1 + u) * H); [apply Rmult_le_compat_r; lra|]. unfold A in *. lra. }
  assert (U2 : A * (1 - u) * (1 - u) * IZR h <= r * (P * (1 + u))).
  { apply Rle_trans with (r * (p * H)); [|apply Rmult_le_compat_l; lra]. replace (r * (p * H)) with (r * p * H) by ring.
    apply Rle_trans with (A * (1 - u) * H); [|apply Rmult_le_compat_r; lra]. unfold A in *. lra. }
  assert (K1 : 2097152 * (1387 * r - 198 * IZR h) <= 198 * IZR h) by (unfold A, P in *; lra).
  assert (K2 : - (198 * IZR h) <= 2097152 * (1387 * r - 198 * IZR h)) by (unfold A, P in *; lra).
  destruct (to_u32_of _ r Fd eq_refl) as (n & T & Rn & L1 & L2); [lra|]. exists n. split; [exact T|]. split; [exact Rn|].
  split; [apply le_IZR|apply lt_IZR]; rewrite ?opp_IZR, ?mult_IZR, ?minus_IZR, ?mult_IZR, ?plus_IZR; lra.
Qed.
Lemma top_bounds h : (1 <= h < 2^32)%Z ->
  exists n, to_u32 (fdiv (fsub FRAME_HEIGHT_MM (fadd (fmul two PERF_PITCH_HEIGHT_MM) PITCH_HEIGHT_MM)) (fmul two (fdiv FRAME_HEIGHT_MM (of_int h)))) = Ok n /\ (0 <= n < 2^32)%Z /\
    (2097152 * (2774 * n - 245 * h) <= 245 * h)%Z /\ (- (245 * h) < 2097152 * (2774 * (n + 1) - 245 * h))%Z.
Proof.
  intro B. destruct (pitch_near h B) as (H & p & F & E & (N1 & N2) & (N3 & N4) & P0 & (P1 & P2) & H0).
  assert (B1 : 1 <= IZR h) by (apply (IZR_le 1); lia). assert (B2 : IZR h <= 4294967295) by (apply (IZR_le h 4294967295); lia).
  set (f := fdiv FRAME_HEIGHT_MM (of_int h)) in *. destruct diff_value as (G & V). set (d := fsub _ _) in *. destruct two_value as (G2 & V2).
  assert (V' : B2R d = D) by (rewrite V; unfold D; cbn; lra). assert (V2' : B2R two = 2) by (rewrite V2; cbn; lra).
  destruct (fmul_near two f) as (F2 & M1 & M2); [exact G2|exact F|rewrite E, V2'; split; cbn; lra|]. rewrite E, V2' in M1, M2.
  set (q := B2R (fmul two f)) in *. assert (Q0 : 0 < q) by lra.
  assert (I0 : 0 < / q) by (apply Rinv_0_lt_compat; exact Q0). assert (I1 : / q * q = 1) by (apply Rinv_l; lra).
  assert (J1 : / q <= 1000000000) by (rewrite <- (Rinv_inv 1000000000); apply Rinv_le; lra). assert (J2 : / 30 <= / q) by (apply Rinv_le; lra).
  destruct (fdiv_near d (fmul two f)) as (Fd & N5 & N6); [exact G|exact Q0|fold q; rewrite V'; unfold D, Rdiv; split; cbn; lra|].
  fold q in N5, N6. rewrite V' in N5, N6. set (r := B2R (fdiv d (fmul two f))) in *.
  assert (R1 : D * (1 - u) <= r * q) by (apply Rle_trans with (D / q * (1 - u) * q); [right; unfold Rdiv; replace (D * / q * (1 - u) * q) with (D * (1 - u) * (/ q * q)) by ring; rewrite I1; ring|apply Rmult_le_compat_r; lra]).
  assert (R2 : r * q <= D * (1 + u)) by (apply Rle_trans with (D / q * (1 + u) * q); [apply Rmult_le_compat_r; lra|right; unfold Rdiv; replace (D * / q * (1 + u) * q) with (D * (1 + u) * (/ q * q)) by ring; rewrite I1; ring]).
  assert (R0 : 0 < r) by (apply Rlt_le_trans with (2 := N5); unfold D, Rdiv; apply Rmult_lt_0_compat; [apply Rmult_lt_0_compat|]; lra).
  assert (T1 : r * p * (2 * (1 - u)) <= D * (1 + u)) by (apply Rle_trans with (2 := R2); replace (r * p * (2 * (1 - u))) with (r * (2 * p * (1 - u))) by ring; apply Rmult_le_compat_l; lra).
  assert (T2 : D * (1 - u) <= r * p * (2 * (1 + u))) by (apply Rle_trans with (1 := R1); replace (r * p * (2 * (1 + u))) with (r * (2 * p * (1 + u))) by ring; apply Rmult_le_compat_l; lra).
  assert (U1 : r * (P * (1 - u)) * (2 * (1 - u)) <= D * (1 + u) * (1 + u) * IZR h).
  { apply Rle_trans with (r * (p * H) * (2 * (1 - u))); [apply Rmult_le_compat_r; [lra|]; apply Rmult_le_compat_l; lra|].
    replace (r * (p * H) * (2 * (1 - u))) with (r * p * (2 * (1 - u)) * H) by ring.
    apply Rle_trans with (D * (1 + u) * H); [apply Rmult_le_compat_r; lra|]. unfold D in *. lra. }
  assert (U2 : D * (1 - u) * (1 - u) * IZR h <= r * (P * (1 + u)) * (2 * (1 + u))).
  { apply Rle_trans with (r * (p * H) * (2 * (1 + u))); [|apply Rmult_le_compat_r; [lra|]; apply Rmult_le_compat_l; lra].
    replace (r * (p * H) * (2 * (1 + u))) with (r * p * (2 * (1 + u)) * H) by ring.
    apply Rle_trans with (D * (1 - u) * H); [|apply Rmult_le_compat_r; lra]. unfold D in *. lra. }
  assert (K1 : 2097152 * (2774 * r - 245 * IZR h) <= 245 * IZR h) by (unfold D, P in *; lra).
  assert (K2 : - (245 * IZR h) <= 2097152 * (2774 * r - 245 * IZR h)) by (unfold D, P in *; lra).
  destruct (to_u32_of _ r Fd eq_refl) as (n & T & Rn & L1 & L2); [lra|]. exists n. split; [exact T|]. split; [exact Rn|].
  split; [apply le_IZR|apply lt_IZR]; rewrite ?opp_IZR, ?mult_IZR, ?minus_IZR, ?mult_IZR, ?plus_IZR; lra.
Qed.
