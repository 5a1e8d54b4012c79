(** The reader's decoder inverts the UTF-8 encoding. *)
From Verif Require Import CBase CBaseProofs XmlEntity XmlModel SpecXml.

(** Checking a decidable statement on a finite interval. *)
Lemma range_check (f : Z -> bool) n :
  forallb (fun i => f (Z.of_nat i)) (seq 0 n) = true -> forall x, 0 <= x < Z.of_nat n -> f x = true.
Proof.
  intros H x Hx. rewrite forallb_forall in H. specialize (H (Z.to_nat x)).
  rewrite Z2Nat.id in H by lia. apply H. apply in_seq. lia.
Qed.
Ltac finite n f x :=
  let H := fresh in
  assert (H : f x = true) by (apply (range_check f n); [vm_compute; reflexivity|cbn; lia]); cbv beta in H.

Lemma lor_shift6 a b : 0 <= b < 64 -> Z.lor (Z.shiftl a 6) b = a * 64 + b.
Proof.
  intro Hb. rewrite Z.shiftl_mul_pow2 by lia. change (2^6) with 64. symmetry.
  rewrite <- Z.lxor_lor, <- Z.add_nocarry_lxor; [reflexivity| |];
  (apply Z.bits_inj'; intros n Hn; rewrite Z.land_spec, Z.bits_0;
   destruct (Z_lt_le_dec n 6);
   [ replace (a * 64) with (Z.shiftl a 6) by (rewrite Z.shiftl_mul_pow2 by lia; reflexivity);
     rewrite Z.shiftl_spec_low by lia; reflexivity
   | rewrite (Z.bits_above_log2 b n); [apply andb_false_r|lia|];
     destruct (Z.eq_dec b 0) as [->|]; [cbn; lia|];
     assert (Z.log2 b < 6) by (apply Z.log2_lt_pow2; cbn; lia); lia ]).
Qed.
Lemma shiftr_div c n : 0 <= n -> Z.shiftr c n = c / 2 ^ n.
Proof. apply Z.shiftr_div_pow2. Qed.
Lemma land63 c : Z.land c 63 = c mod 64.
Proof. change 63 with (Z.ones 6). rewrite Z.land_ones by lia. reflexivity. Qed.

(** The bytes written are those of RFC 3629. *)
Lemma lor128 x : 0 <= x < 64 -> Z.lor 128 x = 128 + x.
Proof. intro H. finite 64%nat (fun x => Z.lor 128 x =? 128 + x) x. lia. Qed.
Lemma lor192 x : 0 <= x < 32 -> Z.lor 192 x = 192 + x.
Proof. intro H. finite 32%nat (fun x => Z.lor 192 x =? 192 + x) x. lia. Qed.
Lemma lor224 x : 0 <= x < 16 -> Z.lor 224 x = 224 + x.
Proof. intro H. finite 16%nat (fun x => Z.lor 224 x =? 224 + x) x. lia. Qed.
Lemma lor240 x : 0 <= x < 8 -> Z.lor 240 x = 240 + x.
Proof. intro H. finite 8%nat (fun x => Z.lor 240 x =? 240 + x) x. lia. Qed.
Lemma utf8_rfc c : 0 <= c <= 1114111 -> utf8 c = rfc_utf8 c.
Proof.
  intro H. unfold utf8, rfc_utf8, u8.
  assert (M : forall z, 0 <= z mod 64 < 64) by (intro; apply Z.mod_pos_bound; lia).
  destruct (c <? 128) eqn:E1; [rewrite Z.mod_small by lia; reflexivity|].
  rewrite !land63, !shiftr_div by lia.
  change (2^6) with 64. change (2^12) with 4096. change (2^18) with 262144.
  destruct (c <? 2048) eqn:E2.
  { rewrite lor192, lor128; [reflexivity|apply M|]. split; [apply Z.div_pos; lia|apply Z.div_lt_upper_bound; lia]. }
  destruct (c <? 65536) eqn:E3.
  { rewrite lor224, !lor128; [reflexivity|apply M..|]. split; [apply Z.div_pos; lia|apply Z.div_lt_upper_bound; lia]. }
  assert (0 <= c / 262144 < 8) by (split; [apply Z.div_pos; lia|apply Z.div_lt_upper_bound; lia]).
  rewrite lor240, !lor128; [|apply M..|assumption]. rewrite Z.mod_small by lia. reflexivity.
Qed.

Lemma is_cont_128 x : 0 <= x < 64 -> is_cont (128 + x) = true /\ Z.land (128 + x) 63 = x.
Proof.
  intro H. finite 64%nat (fun x => is_cont (128 + x) && (Z.land (128 + x) 63 =? x)) x. apply andb_true_iff in H0. destruct H0 as (A & B). split; [exact A|now apply Z.eqb_eq].
Qed.
Lemma lead2 x : 0 <= x < 32 -> Z.land (192 + x) 224 = 192 /\ Z.land (192 + x) 31 = x.
Proof. intro H. finite 32%nat (fun x => (Z.land (192 + x) 224 =? 192) && (Z.land (192 + x) 31 =? x)) x. lia. Qed.
Lemma lead3 x : 0 <= x < 16 ->
  Z.land (224 + x) 224 <> 192 /\ Z.land (224 + x) 240 = 224 /\ Z.land (224 + x) 15 = x.
Proof.
  intro H. finite 16%nat (fun x => negb (Z.land (224 + x) 224 =? 192) && (Z.land (224 + x) 240 =? 224) && (Z.land (224 + x) 15 =? x)) x. lia.
Qed.
Lemma lead4 x : 0 <= x < 8 ->
  Z.land (240 + x) 224 <> 192 /\ Z.land (240 + x) 240 <> 224 /\ Z.land (240 + x) 248 = 240 /\ Z.land (240 + x) 7 = x.
Proof.
  intro H. finite 8%nat (fun x => negb (Z.land (240 + x) 224 =? 192) && negb (Z.land (240 + x) 240 =? 224) && (Z.land (240 + x) 248 =? 240) && (Z.land (240 + x) 7 =? x)) x. lia.
Qed.

Lemma good_not_bad c : good_cp c -> bad_char c = false.
Proof. unfold good_cp, bad_char. lia. Qed.

(** One call of the decoder. *)
Lemma tok8_cons c l1 : tok8 (c :: l1) =

      if c <? 128 then emit c :: tok8 l1
      else if c =? 254 then match l1 with d :: l2 => if d =? 255 then tok16be l2 else Bad :: tok8 l1 | [] => [Bad] end
      else if c =? 255 then match l1 with d :: l2 => if d =? 254 then tok16le l2 else Bad :: tok8 l1 | [] => [Bad] end
      else if Z.land c 224 =? 192 then
        match l1 with
        | d :: l2 =>
            if is_cont d then
              let ch := Z.lor (Z.shiftl (Z.land c 31) 6) (Z.land d 63) in
              (if ch <? 128 then Bad else Ch ch) :: tok8 l2
            else Bad :: tok8 l1
        | [] => [Bad]
        end
      else if Z.land c 240 =? 224 then
        match l1 with
        | d :: e :: l3 =>
            if is_cont d && is_cont e then
              let ch := Z.lor (Z.shiftl (Z.lor (Z.shiftl (Z.land c 15) 6) (Z.land d 63)) 6) (Z.land e 63) in
              if ch <? 2048 then Bad :: tok8 l3
              else if ch =? 65279 then tok8 l3
              else Ch ch :: tok8 l3
            else Bad :: tok8 l1
        | _ => Bad :: tok8 l1
        end
      else if Z.land c 248 =? 240 then
        match l1 with
        | d :: e :: f :: l4 =>
            if is_cont d && is_cont e && is_cont f then
              let ch := Z.lor (Z.shiftl (Z.lor (Z.shiftl (Z.lor (Z.shiftl (Z.land c 7) 6) (Z.land d 63)) 6) (Z.land e 63)) 6) (Z.land f 63) in
              (if ch <? 65536 then Bad else Ch ch) :: tok8 l4
            else Bad :: tok8 l1
        | _ => Bad :: tok8 l1
        end
      else Bad :: tok8 l1.
Proof. reflexivity. Qed.

Lemma tok8_rfc c r : good_cp c -> tok8 (rfc_utf8 c ++ r) = Ch c :: tok8 r.
Proof.
  intro G. assert (Hc : 0 <= c <= 1114111) by (unfold good_cp in G; lia).
  assert (M : forall z, 0 <= z mod 64 < 64) by (intro; apply Z.mod_pos_bound; lia).
  unfold rfc_utf8.
  destruct (c <? 128) eqn:E1.
  { cbn [app]. rewrite tok8_cons. rewrite E1. unfold emit. now rewrite good_not_bad. }
  assert (D : forall z, z = 64 * (z / 64) + z mod 64) by (intro; apply Z.div_mod; lia).
  destruct (c <? 2048) eqn:E2.
  { assert (Hx : 0 <= c / 64 < 32) by (split; [apply Z.div_pos; lia|apply Z.div_lt_upper_bound; lia]).
    cbn [app]. rewrite tok8_cons. replace (192 + c / 64 <? 128) with false by lia.
    replace (192 + c / 64 =? 254) with false by lia. replace (192 + c / 64 =? 255) with false by lia.
    destruct (lead2 _ Hx) as (-> & ->). destruct (is_cont_128 _ (M c)) as (-> & ->). cbn [andb Z.eqb Pos.eqb].
    rewrite lor_shift6 by apply M. replace (c / 64 * 64 + c mod 64) with c by (specialize (D c); lia).
    now rewrite E1. }
  destruct (c <? 65536) eqn:E3.
  { assert (E46 : c / 4096 = c / 64 / 64) by (rewrite Z.div_div by lia; reflexivity).
    assert (Hx : 0 <= c / 4096 < 16) by (split; [apply Z.div_pos; lia|apply Z.div_lt_upper_bound; lia]).
    cbn [app]. rewrite tok8_cons. replace (224 + c / 4096 <? 128) with false by lia.
    replace (224 + c / 4096 =? 254) with false by lia. replace (224 + c / 4096 =? 255) with false by lia.
    destruct (lead3 _ Hx) as (L1 & -> & ->). apply Z.eqb_neq in L1. rewrite L1.
    destruct (is_cont_128 _ (M c)) as (-> & ->). destruct (is_cont_128 _ (M (c / 64))) as (-> & ->). cbn [andb Z.eqb Pos.eqb].
    rewrite !lor_shift6 by apply M.
    replace ((c / 4096 * 64 + (c / 64) mod 64) * 64 + c mod 64) with c
      by (rewrite E46; pose proof (D c); pose proof (D (c / 64)); lia).
    rewrite E2. replace (c =? 65279) with false by (unfold good_cp in G; lia). reflexivity. }
  assert (E46 : c / 4096 = c / 64 / 64) by (rewrite Z.div_div by lia; reflexivity).
  assert (E26 : c / 262144 = c / 64 / 64 / 64) by (rewrite !Z.div_div by lia; reflexivity).
  assert (Hx : 0 <= c / 262144 < 8) by (split; [apply Z.div_pos; lia|apply Z.div_lt_upper_bound; lia]).
  cbn [app]. rewrite tok8_cons. replace (240 + c / 262144 <? 128) with false by lia.
  replace (240 + c / 262144 =? 254) with false by lia. replace (240 + c / 262144 =? 255) with false by lia.
  destruct (lead4 _ Hx) as (L1 & L2 & -> & ->). apply Z.eqb_neq in L1, L2. rewrite L1, L2.
  destruct (is_cont_128 _ (M c)) as (-> & ->). destruct (is_cont_128 _ (M (c / 64))) as (-> & ->).
  destruct (is_cont_128 _ (M (c / 4096))) as (-> & ->). cbn [andb Z.eqb Pos.eqb].
  rewrite !lor_shift6 by apply M.
  replace (((c / 262144 * 64 + (c / 4096) mod 64) * 64 + (c / 64) mod 64) * 64 + c mod 64) with c
    by (rewrite E26, E46; pose proof (D c); pose proof (D (c / 64)); pose proof (D (c / 64 / 64)); lia).
  rewrite E3. reflexivity.
Qed.
Lemma good_utf8 c : good_cp c -> utf8 c = rfc_utf8 c.
Proof. intro G. apply utf8_rfc. unfold good_cp in G. lia. Qed.

(** An ASCII character that is not a control character. *)
Lemma tok8_ascii c r : 32 <= c < 128 -> tok8 (c :: r) = Ch c :: tok8 r.
Proof. intro H. cbn [tok8]. replace (c <? 128) with true by lia. unfold emit, bad_char. now replace (c <? 32) with false by lia. Qed.
Lemma tok8_blank w r : blank w -> tok8 (w ++ r) = map Ch w ++ tok8 r.
Proof.
  induction 1 as [|c w Hc _ IH]; [reflexivity|]. cbn [app map].
  transitivity (Ch c :: tok8 (w ++ r)); [|now rewrite IH].
  destruct Hc as [->|[->| ->]]; reflexivity.
Qed.
Lemma tok8_name n r : Forall name_char n -> tok8 (n ++ r) = map Ch n ++ tok8 r.
Proof.
  induction 1 as [|c w Hc _ IH]; [reflexivity|]. cbn [app map]. unfold name_char in Hc.
  rewrite tok8_ascii by lia. now rewrite IH.
Qed.

(** Decoding of a text as a whole. *)
Lemma tok8_text cps r : Forall good_cp cps -> tok8 (flat_map rfc_utf8 cps ++ r) = map Ch cps ++ tok8 r.
Proof.
  induction 1 as [|c l G _ IH]; [reflexivity|]. cbn [flat_map map app].
  rewrite <- app_assoc, tok8_rfc by assumption. now rewrite IH.
Qed.
Lemma text_ind_cps (P : cstr -> Prop) :
  P [] -> (forall c s, good_cp c -> is_text s -> P s -> P (rfc_utf8 c ++ s)) -> forall s, is_text s -> P s.
Proof.
  intros H0 H1 s (cps & G & ->). induction G as [|c l Gc Gl IH]; [exact H0|].
  cbn [flat_map]. apply H1; [assumption|exists l; auto|exact IH].
Qed.
Lemma is_text_nil : is_text []. Proof. exists []. auto. Qed.
Lemma is_text_app a b : is_text a -> is_text b -> is_text (a ++ b).
Proof.
  intros (x & Gx & ->) (y & Gy & ->). exists (x ++ y). split; [now apply Forall_app|].
  now rewrite flat_map_app.
Qed.
Lemma is_text_ascii s : Forall (fun c => 32 <= c < 128 \/ c = 9 \/ c = 10 \/ c = 13) s -> is_text s.
Proof.
  intro F. exists s. split.
  - eapply Forall_impl; [|exact F]. cbv beta. intros c H. unfold good_cp. lia.
  - induction F as [|c l H _ IH]; [reflexivity|]. cbn [flat_map]. unfold rfc_utf8 at 1.
    replace (c <? 128) with true by lia. cbn. now rewrite <- IH.
Qed.
