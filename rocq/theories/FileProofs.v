(** The file reader: agreement with the string reader, UTF-16, and the save functions on a disk. *)
From Verif Require Import CBase CBaseProofs XmlEntity XmlModel SpecXml Utf8Proofs XmlMem XmlTermProofs TocModel TocXmlModel WsModel SpecWs FileModel SpecFile.
From Coq Require Import ZifyBool.

(** * Memory safety and termination *)
Lemma emit_over c : emit c <> Over. Proof. unfold emit. destruct (bad_char c); discriminate. Qed.
Lemma pair_over a b : pair_tok a b <> Over. Proof. unfold pair_tok. destruct (_ || _); discriminate. Qed.
Lemma length_ind (P : list Z -> Prop) : (forall l, (forall l', (List.length l' < List.length l)%nat -> P l') -> P l) -> forall l, P l.
Proof. intros H l. remember (List.length l) as n eqn:E. assert (L : (List.length l <= n)%nat) by lia. clear E. revert l L. induction n as [|n IH]; intros l L; apply H; intros l' L'; [lia|apply IH; lia]. Qed.
Lemma safe_cons x t : x <> Over -> safe t -> safe (x :: t). Proof. unfold safe. cbn. intuition. Qed.
Lemma safe_nil : safe []. Proof. intros []. Qed.
Ltac dsafe IH := repeat match goal with
  | |- safe [] => apply safe_nil
  | |- safe (_ :: _) => apply safe_cons
  | |- emit _ <> Over => apply emit_over
  | |- pair_tok _ _ <> Over => apply pair_over
  | |- Bad <> Over => discriminate
  | |- Ch _ <> Over => discriminate
  | |- (if ?b then _ else _) <> Over => destruct b
  | |- safe (ftok16be _) => first [apply IH; cbn; lia|idtac]
  | |- safe (if ?b then _ else _) => destruct b
  | |- safe (match ?l with [] => _ | _ => _ end) => destruct l
  end.
Lemma ftok16be_safe l : safe (ftok16be l).
Proof.
  induction l as [l IH] using length_ind. destruct l as [|c [|d l]]; cbn [ftok16be]; [apply safe_nil|apply safe_cons; [discriminate|apply safe_nil]|].
  dsafe IH.
Qed.
Lemma ftok16le_safe l : safe (ftok16le l).
Proof.
  induction l as [l IH] using length_ind. destruct l as [|c [|d l]]; cbn [ftok16le]; [apply safe_nil|apply safe_cons; [discriminate|apply safe_nil]|].
  dsafe IH; apply IH; cbn; lia.
Qed.
Lemma ftok8_safe l : safe (ftok8 l).
Proof.
  induction l as [l IH] using length_ind. destruct l as [|c l]; cbn [ftok8]; [apply safe_nil|].
  dsafe IH; try apply ftok16be_safe; try apply ftok16le_safe; apply IH; cbn; lia.
Qed.
Lemma load_bytes_total s : (exists d, load_bytes s = Ret d) \/ load_bytes s = Fail.
Proof.
  unfold load_bytes. destruct (run_parser _ _ _) eqn:E; [left; eauto|right; reflexivity| |].
  - exfalso. revert E. apply run_parser_safe, ftok8_safe.
  - exfalso. revert E. apply run_parser_fuel. unfold len. lia.
Qed.

(** * The two readers on UTF-8 *)
Lemma ftok8_cons c l1 : ftok8 (c :: l1) =
      if c <? 128 then emit c :: ftok8 l1
      else if c =? 254 then match l1 with d :: l2 => if d =? 255 then ftok16be l2 else Bad :: ftok8 l2 | [] => [Bad] end
      else if c =? 255 then match l1 with d :: l2 => if d =? 254 then ftok16le l2 else Bad :: ftok8 l2 | [] => [Bad] end
      else if Z.land c 224 =? 192 then
        match l1 with
        | d :: l2 =>
            if is_cont d then
              let ch := Z.lor (Z.shiftl (Z.land c 31) 6) (Z.land d 63) in
              (if ch <? 128 then Bad else Ch ch) :: ftok8 l2
            else Bad :: ftok8 l2
        | [] => [Bad]
        end
      else if Z.land c 240 =? 224 then
        match l1 with
        | [] => [Bad]
        | d :: l2 =>
            if is_cont d then
              match l2 with
              | [] => [Bad]
              | e :: l3 =>
                  if is_cont e then
                    let ch := Z.lor (Z.shiftl (Z.lor (Z.shiftl (Z.land c 15) 6) (Z.land d 63)) 6) (Z.land e 63) in
                    if ch <? 2048 then Bad :: ftok8 l3
                    else if ch =? 65279 then ftok8 l3
                    else Ch ch :: ftok8 l3
                  else Bad :: ftok8 l3
              end
            else Bad :: ftok8 l2
        end
      else if Z.land c 248 =? 240 then
        match l1 with
        | [] => [Bad]
        | d :: l2 =>
            if is_cont d then
              match l2 with
              | [] => [Bad]
              | e :: l3 =>
                  if is_cont e then
                    match l3 with
                    | [] => [Bad]
                    | f :: l4 =>
                        if is_cont f then
                          let ch := Z.lor (Z.shiftl (Z.lor (Z.shiftl (Z.lor (Z.shiftl (Z.land c 7) 6) (Z.land d 63)) 6) (Z.land e 63)) 6) (Z.land f 63) in
                          (if ch <? 65536 then Bad else Ch ch) :: ftok8 l4
                        else Bad :: ftok8 l4
                    end
                  else Bad :: ftok8 l3
              end
            else Bad :: ftok8 l2
        end
      else Bad :: ftok8 l1.
Proof. reflexivity. Qed.
Lemma both_rfc c : 0 <= c <= 1114111 -> exists t, forall r, tok8 (rfc_utf8 c ++ r) = t ++ tok8 r /\ ftok8 (rfc_utf8 c ++ r) = t ++ ftok8 r.
Proof.
  intro Hc.
  assert (M : forall z, 0 <= z mod 64 < 64) by (intro; apply Z.mod_pos_bound; lia).
  unfold rfc_utf8.
  destruct (c <? 128) eqn:E1.
  { exists [emit c]. intro r. cbn [app]. rewrite tok8_cons, ftok8_cons. rewrite E1. auto. }
  assert (D : forall z, z = 64 * (z / 64) + z mod 64) by (intro; apply Z.div_mod; lia).
  destruct (c <? 2048) eqn:E2.
  { assert (Hx : 0 <= c / 64 < 32) by (split; [apply Z.div_pos; lia|apply Z.div_lt_upper_bound; lia]).
    eexists [_]. intro r. cbn [app]. rewrite tok8_cons, ftok8_cons. replace (192 + c / 64 <? 128) with false by lia.
    replace (192 + c / 64 =? 254) with false by lia. replace (192 + c / 64 =? 255) with false by lia.
    destruct (lead2 _ Hx) as (-> & ->). destruct (is_cont_128 _ (M c)) as (-> & ->). cbn [andb Z.eqb Pos.eqb]. split; reflexivity. }
  destruct (c <? 65536) eqn:E3.
  { assert (E46 : c / 4096 = c / 64 / 64) by (rewrite Z.div_div by lia; reflexivity).
    assert (Hx : 0 <= c / 4096 < 16) by (split; [apply Z.div_pos; lia|apply Z.div_lt_upper_bound; lia]).
    exists (if c =? 65279 then [] else [Ch c]). intro r.
    cbn [app]. rewrite tok8_cons, ftok8_cons. replace (224 + c / 4096 <? 128) with false by lia.
    replace (224 + c / 4096 =? 254) with false by lia. replace (224 + c / 4096 =? 255) with false by lia.
    destruct (lead3 _ Hx) as (L1 & -> & ->). apply Z.eqb_neq in L1. rewrite L1.
    destruct (is_cont_128 _ (M c)) as (-> & ->). destruct (is_cont_128 _ (M (c / 64))) as (-> & ->). cbn [andb Z.eqb Pos.eqb].
    rewrite !lor_shift6 by apply M.
    replace ((c / 4096 * 64 + (c / 64) mod 64) * 64 + c mod 64) with c
      by (rewrite E46; pose proof (D c); pose proof (D (c / 64)); lia).
    rewrite E2. destruct (c =? 65279); auto. }
  assert (E46 : c / 4096 = c / 64 / 64) by (rewrite Z.div_div by lia; reflexivity).
  assert (E26 : c / 262144 = c / 64 / 64 / 64) by (rewrite !Z.div_div by lia; reflexivity).
  assert (Hx : 0 <= c / 262144 < 8) by (split; [apply Z.div_pos; lia|apply Z.div_lt_upper_bound; lia]).
  eexists [_]. intro r.
  cbn [app]. rewrite tok8_cons, ftok8_cons. replace (240 + c / 262144 <? 128) with false by lia.
  replace (240 + c / 262144 =? 254) with false by lia. replace (240 + c / 262144 =? 255) with false by lia.
  destruct (lead4 _ Hx) as (L1 & L2 & -> & ->). apply Z.eqb_neq in L1, L2. rewrite L1, L2.
  destruct (is_cont_128 _ (M c)) as (-> & ->). destruct (is_cont_128 _ (M (c / 64))) as (-> & ->).
  destruct (is_cont_128 _ (M (c / 4096))) as (-> & ->). cbn [andb Z.eqb Pos.eqb]. split; reflexivity.
Qed.
Lemma readers_agree cps : Forall (fun c => 0 <= c <= 1114111) cps -> ftok8 (flat_map rfc_utf8 cps) = tok8 (flat_map rfc_utf8 cps).
Proof.
  induction 1 as [|c l H _ IH]; [reflexivity|]. cbn [flat_map]. destruct (both_rfc c H) as (t & E). destruct (E (flat_map rfc_utf8 l)) as (-> & ->). now rewrite IH.
Qed.
Lemma load_agree cps : Forall (fun c => 0 <= c <= 1114111) cps -> load_bytes (flat_map rfc_utf8 cps) = load_string (flat_map rfc_utf8 cps).
Proof. intro H. unfold load_bytes, load_string. now rewrite readers_agree. Qed.
Lemma load_text s : is_text s -> load_bytes s = load_string s.
Proof. intros (cps & G & ->). apply load_agree. eapply Forall_impl; [|exact G]. unfold good_cp. intros. lia. Qed.
Lemma ftok8_text cps : Forall good_cp cps -> ftok8 (flat_map rfc_utf8 cps) = map Ch cps.
Proof.
  intro G. rewrite readers_agree by (eapply Forall_impl; [|exact G]; unfold good_cp; intros; lia).
  rewrite <- (app_nil_r (flat_map _ _)), tok8_text by assumption. apply app_nil_r.
Qed.

(** * UTF-16 *)
Lemma word_be w : w = w / 256 * 256 + w mod 256. Proof. rewrite Z.mul_comm. apply Z.div_mod. lia. Qed.
Lemma word_le w : w = w mod 256 + w / 256 * 256. Proof. rewrite Z.add_comm. apply word_be. Qed.
Lemma land_high x : 0 <= x < 1024 -> Z.land (55296 + x) 1023 = x.
Proof. intro H. change 1023 with (Z.ones 10). rewrite Z.land_ones by lia. change (2^10) with 1024. rewrite Z.add_mod by lia. change (55296 mod 1024) with 0. cbn [Z.add]. rewrite Z.mod_mod by lia. apply Z.mod_small. lia. Qed.
Lemma land_low x : 0 <= x < 1024 -> Z.land (56320 + x) 1023 = x.
Proof. intro H. change 1023 with (Z.ones 10). rewrite Z.land_ones by lia. change (2^10) with 1024. rewrite Z.add_mod by lia. change (56320 mod 1024) with 0. cbn [Z.add]. rewrite Z.mod_mod by lia. apply Z.mod_small. lia. Qed.
Lemma lor_shift10 a b : 0 <= b < 1024 -> Z.lor (Z.shiftl a 10) b = a * 1024 + b.
Proof.
  intro Hb. rewrite Z.shiftl_mul_pow2 by lia. change (2^10) with 1024. symmetry.
  rewrite <- Z.lxor_lor, <- Z.add_nocarry_lxor; [reflexivity| |];
  (apply Z.bits_inj'; intros n Hn; rewrite Z.land_spec, Z.bits_0;
   destruct (Z_lt_le_dec n 10);
   [ replace (a * 1024) with (Z.shiftl a 10) by (rewrite Z.shiftl_mul_pow2 by lia; reflexivity);
     rewrite Z.shiftl_spec_low by lia; reflexivity
   | rewrite (Z.bits_above_log2 b n); [apply andb_false_r|lia|];
     destruct (Z.eq_dec b 0) as [->|]; [cbn; lia|];
     assert (Z.log2 b < 10) by (apply Z.log2_lt_pow2; cbn; lia); lia ]).
Qed.
Lemma pair_good c : 65536 <= c <= 1114111 -> c mod 1024 <> 1023 -> pair_tok (55296 + (c - 65536) / 1024) (56320 + (c - 65536) mod 1024) = Ch c.
Proof.
  intros H N. assert (M : 0 <= (c - 65536) mod 1024 < 1024) by (apply Z.mod_pos_bound; lia).
  assert (X : 0 <= (c - 65536) / 1024 < 1024) by (split; [apply Z.div_pos; lia|apply Z.div_lt_upper_bound; lia]).
  assert (E : (c - 65536) mod 1024 = c mod 1024) by (rewrite Zminus_mod; change (65536 mod 1024) with 0; rewrite Z.sub_0_r; apply Z.mod_mod; lia).
  unfold pair_tok. replace (_ || _) with false by lia. f_equal. rewrite land_high, land_low, lor_shift10 by assumption.
  pose proof (Z.div_mod (c - 65536) 1024). lia.
Qed.
Lemma ftok16be_cons c d l1 : ftok16be (c :: d :: l1) =
      let w := c * 256 + d in
      if bad_char w then Bad :: ftok16be l1
      else if is_high w then
        match l1 with
        | e :: f :: l2 => pair_tok w (e * 256 + f) :: ftok16be l2
        | _ => [Bad]
        end
      else Ch w :: ftok16be l1.
Proof. reflexivity. Qed.
Lemma ftok16le_cons c d l1 : ftok16le (c :: d :: l1) =
      let w := c + d * 256 in
      if bad_char w then Bad :: ftok16le l1
      else if is_high w then
        match l1 with
        | e :: f :: l2 => pair_tok w (e + f * 256) :: ftok16le l2
        | _ => [Bad]
        end
      else Ch w :: ftok16le l1.
Proof. reflexivity. Qed.
Lemma unit_low c : good_cp c -> scalar c -> c < 65536 -> bad_char c = false /\ is_high c = false.
Proof. intros G N L. split; [now apply good_not_bad|]. unfold is_high. unfold scalar in N. lia. Qed.
Lemma unit_high c : good_cp c -> 65536 <= c -> let w := 55296 + (c - 65536) / 1024 in bad_char w = false /\ is_high w = true.
Proof.
  intros G L. assert (X : 0 <= (c - 65536) / 1024 < 1024) by (split; [apply Z.div_pos; lia|apply Z.div_lt_upper_bound; [lia|]; unfold good_cp in G; lia]).
  unfold bad_char, is_high. lia.
Qed.
Lemma be_text cps : Forall (fun c => good_cp c /\ scalar c /\ readable16 c) cps -> ftok16be (flat_map (fun w => [w / 256; w mod 256]) (flat_map rfc_utf16 cps)) = map Ch cps.
Proof.
  induction 1 as [|c l (G & N & R) _ IH]; [reflexivity|]. cbn [flat_map map]. rewrite flat_map_app. unfold rfc_utf16 at 1. destruct (c <? 65536) eqn:L.
  - cbn [flat_map app]. rewrite ftok16be_cons, <- word_be. destruct (unit_low c G N) as (B & H); [lia|]. cbv zeta. rewrite B, H. now rewrite IH.
  - cbn [flat_map app]. rewrite ftok16be_cons, <- !word_be. destruct (unit_high c G) as (B & H); [lia|]. cbv zeta in *. rewrite B, H.
    rewrite pair_good by (unfold good_cp, readable16 in *; lia). now rewrite IH.
Qed.
Lemma le_text cps : Forall (fun c => good_cp c /\ scalar c /\ readable16 c) cps -> ftok16le (flat_map (fun w => [w mod 256; w / 256]) (flat_map rfc_utf16 cps)) = map Ch cps.
Proof.
  induction 1 as [|c l (G & N & R) _ IH]; [reflexivity|]. cbn [flat_map map]. rewrite flat_map_app. unfold rfc_utf16 at 1. destruct (c <? 65536) eqn:L.
  - cbn [flat_map app]. rewrite ftok16le_cons, <- word_le. destruct (unit_low c G N) as (B & H); [lia|]. cbv zeta. rewrite B, H. now rewrite IH.
  - cbn [flat_map app]. rewrite ftok16le_cons, <- !word_le. destruct (unit_high c G) as (B & H); [lia|]. cbv zeta in *. rewrite B, H.
    rewrite pair_good by (unfold good_cp, readable16 in *; lia). now rewrite IH.
Qed.
Lemma utf16_loads cps : Forall (fun c => good_cp c /\ scalar c /\ readable16 c) cps ->
  load_bytes (utf16be cps) = load_bytes (flat_map rfc_utf8 cps) /\ load_bytes (utf16le cps) = load_bytes (flat_map rfc_utf8 cps).
Proof.
  intro F. assert (G : Forall good_cp cps) by (eapply Forall_impl; [|exact F]; intros c (X & _); exact X).
  unfold load_bytes. rewrite (ftok8_text cps G).
  replace (ftok8 (utf16be cps)) with (map Ch cps) by (rewrite <- (be_text cps F); reflexivity).
  replace (ftok8 (utf16le cps)) with (map Ch cps) by (rewrite <- (le_text cps F); reflexivity). auto.
Qed.

(** * The save functions *)
Lemma write_file_at d name s : write_file d name s name = Some s.
Proof. unfold write_file. now rewrite (proj2 (str_eqb_eq name name) eq_refl). Qed.
Lemma write_file_other d name s n : n <> name -> write_file d name s n = d n.
Proof. intro N. unfold write_file. destruct (str_eqb n name) eqn:E; [apply str_eqb_eq in E; congruence|reflexivity]. Qed.
Lemma fetch_loaded {A} (load : node -> option A) d name s x : d name = Some s -> load_object load s = Ok (Some x) -> is_text s -> fetch load true d name = Ok (Some x).
Proof.
  intros E L T. unfold fetch. rewrite E, load_text by assumption. unfold load_object in L. destruct s; [discriminate|]. exact L.
Qed.
Lemma indented_saved decl saved cb nl s : save_indented decl saved cb nl = Ok (Some s) -> snd saved = true.
Proof. unfold save_indented. destruct (snd saved); [reflexivity|discriminate]. Qed.
Lemma store_round {A} o saved cb (load : node -> option A) x (compact : bool) :
  indented_round_trips true saved (if compact then guarded no_ws else cb) load x ->
  forall nl d name, exists d', store o true saved cb compact nl true d name = Ok (d', true) /\ (forall n, n <> name -> d' n = d n) /\ fetch load true d' name = Ok (Some x).
Proof.
  intros R nl d name. destruct (R nl) as (s & W & L & T). exists (write_file (write_file d name []) name s).
  split; [|split].
  - unfold store. cbn [negb]. rewrite W. rewrite (indented_saved _ _ _ _ _ W). cbn [negb obind]. destruct o; reflexivity.
  - intros n N. now rewrite !write_file_other.
  - eapply fetch_loaded; [apply write_file_at|exact L|exact T].
Qed.
Lemma store_needs_file o guard saved cb compact nl d name : store o guard saved cb compact nl false d name = Ok (d, false).
Proof. unfold store. destruct guard; cbn [negb]; [|reflexivity]. destruct o; cbn [negb]; [reflexivity|]. destruct (snd saved); reflexivity. Qed.
Lemma store_touches o guard saved cb compact nl can_open d name d' b : store o guard saved cb compact nl can_open d name = Ok (d', b) -> forall n, n <> name -> d' n = d n.
Proof.
  intros E n N. unfold store in E. destruct guard; cbn [negb] in E; [|now injection E as <- <-].
  destruct o.
  - destruct can_open; cbn [negb] in E; [|now injection E as <- <-]. destruct (snd saved); [|injection E as <- <-; now apply write_file_other].
    destruct (save_indented _ _ _ _) as [[s|]|]; cbn [obind] in E; try discriminate; injection E as <- <-; now rewrite !write_file_other.
  - destruct (snd saved); cbn [negb] in E; [|now injection E as <- <-]. destruct can_open; cbn [negb] in E; [|now injection E as <- <-].
    destruct (save_indented _ _ _ _) as [[s|]|]; cbn [obind] in E; try discriminate; injection E as <- <-; now rewrite !write_file_other.
Qed.
(** With the declaration, a built document is always written. *)
Lemma store_harmless o guard saved cb compact nl can_open d name d' :
  (o = OpenFirst -> guard = true -> snd saved = true) -> store o guard saved cb compact nl can_open d name = Ok (d', false) -> d' = d.
Proof.
  intros H E. unfold store in E. destruct guard; cbn [negb] in E; [|now injection E as <-].
  assert (X : snd saved = true -> forall c, save_indented true saved c nl <> Ok None).
  { intros S c. unfold save_indented. rewrite S. destruct (write_checked c [] _); discriminate. }
  destruct o.
  - destruct can_open; cbn [negb] in E; [|now injection E as <-]. rewrite H in E by reflexivity. specialize (X (H eq_refl eq_refl) (if compact then guarded no_ws else cb)).
    destruct (save_indented _ _ _ _) as [[s|]|]; cbn [obind] in E; try discriminate. congruence.
  - destruct (snd saved) eqn:S; cbn [negb] in E; [|now injection E as <-]. destruct can_open; cbn [negb] in E; [|now injection E as <-].
    specialize (X eq_refl (if compact then guarded no_ws else cb)).
    destruct (save_indented _ _ _ _) as [[s|]|]; cbn [obind] in E; try discriminate. congruence.
Qed.
