(** Streaming: any sequence of process calls followed by done hashes the concatenation. *)
From Verif Require Import CBase ShaModel SpecSha ShaProofs ShaProofs2.
Notation length := List.length.
Notation concat := List.concat.

(* ---------------------------------------------------------------- buffers *)

Lemma put_app l1 x l2 v : put (l1 ++ x :: l2) (length l1) v = l1 ++ v :: l2.
Proof. induction l1 as [|y l1 IH]; cbn; [reflexivity|]. f_equal. apply IH. Qed.

Lemma put_length l : forall i v, length (put l i v) = length l.
Proof. induction l as [|x l IH]; intros [|i] v; cbn; auto. Qed.

Lemma copy_at_split src : forall dst at_,
  (at_ + length src <= length dst)%nat ->
  copy_at dst at_ src = firstn at_ dst ++ src ++ skipn (at_ + length src) dst.
Proof.
  induction src as [|x src IH]; intros dst at_ H; cbn [copy_at length app] in *.
  - rewrite Nat.add_0_r. symmetry. apply firstn_skipn.
  - rewrite IH by (rewrite put_length; lia).
    assert (Hd : exists l1 y l2, dst = l1 ++ y :: l2 /\ length l1 = at_).
    { exists (firstn at_ dst). destruct (skipn at_ dst) as [|y l2] eqn:E.
      - exfalso. pose proof (skipn_length at_ dst) as HL. rewrite E in HL. cbn in HL. lia.
      - exists y, l2. rewrite <- E, firstn_skipn. split; [reflexivity|]. apply firstn_length_le. lia. }
    destruct Hd as (l1 & y & l2 & -> & <-).
    rewrite put_app.
    rewrite (firstn_app (S (length l1))), (firstn_all2 l1) by lia.
    replace (S (length l1) - length l1)%nat with 1%nat by lia. cbn [firstn].
    rewrite firstn_app, Nat.sub_diag, firstn_all, app_nil_r. cbn [firstn].
    rewrite <- app_assoc. cbn [app]. f_equal. f_equal. f_equal.
    rewrite !skipn_app, !(skipn_all2 l1) by lia. cbn [app].
    replace (S (length l1) + length src - length l1)%nat with (S (length src)) by lia.
    replace (length l1 + S (length src) - length l1)%nat with (S (length src)) by lia. reflexivity.
Qed.

Lemma zero_fill_copy n : forall buf at_, zero_fill n buf at_ = copy_at buf at_ (repeat 0 n).
Proof. induction n as [|n IH]; intros; cbn; auto. Qed.

Lemma copy_at_length src : forall dst at_, length (copy_at dst at_ src) = length dst.
Proof. induction src as [|x src IH]; intros; cbn; [reflexivity|]. rewrite IH. apply put_length. Qed.

Lemma put_copy buf i v : put buf i v = copy_at buf i [v].
Proof. reflexivity. Qed.

(** Overwriting right after a known prefix extends the prefix. *)
Lemma prefix_copy buf at_ src pre :
  firstn at_ buf = pre -> length pre = at_ -> (at_ + length src <= length buf)%nat ->
  firstn (at_ + length src) (copy_at buf at_ src) = pre ++ src.
Proof.
  intros Hp Hl H. rewrite copy_at_split by assumption. rewrite Hp, app_assoc.
  rewrite firstn_app. rewrite app_length, Hl. rewrite firstn_all2 by (rewrite app_length; lia).
  rewrite Nat.sub_diag. cbn [firstn]. apply app_nil_r.
Qed.

(* ----------------------------------------------------------------- blocks *)

Lemma blocks_concat bs : Forall (fun b => length b = 64%nat) bs ->
  blocks (length bs) (concat bs) = bs.
Proof.
  induction 1 as [|b bs Hb Hbs IH]; [reflexivity|]. cbn [length concat blocks].
  rewrite firstn_app, Hb, Nat.sub_diag, firstn_all2 by lia. cbn [firstn]. rewrite app_nil_r.
  rewrite skipn_app, Hb, Nat.sub_diag, skipn_all2 by lia. cbn [skipn app]. rewrite IH. reflexivity.
Qed.

Lemma concat_length64 bs : Forall (fun b : list Z => length b = 64%nat) bs ->
  length (concat bs) = (64 * length bs)%nat.
Proof.
  induction 1 as [|b bs Hb Hbs IH]; [reflexivity|]. cbn [concat length]. rewrite app_length. lia.
Qed.

Section Stream.
Variable lw : Z.
Hypothesis Hlw : 32 <= lw.
Variable compress : list Z -> list Z -> list Z.
Variable next : list Z -> list Z -> list Z.
Variable nwords : nat.
Hypothesis Hcompress : forall st b, length st = nwords -> message b ->
  map u32 (compress st b) = next (map u32 st) b /\ length (compress st b) = nwords.
Variable H0 : list Z.

(** The context has absorbed the message [m]. *)
Definition absorbed (md : hash_state) (m : list Z) : Prop :=
  exists bs tail,
    m = concat bs ++ tail /\ Forall (fun b => length b = 64%nat) bs /\ (length tail < 64)%nat /\
    h_length md = u64 (512 * Z.of_nat (length bs)) /\
    length (h_state md) = nwords /\ map u32 (h_state md) = fold_left next bs H0 /\
    h_curlen md = Z.of_nat (length tail) /\ length (h_buf md) = 64%nat /\
    firstn (length tail) (h_buf md) = tail.

Lemma ul_small z : 0 <= z < 2 ^ 32 -> ul lw z = z.
Proof.
  intros H. unfold ul. apply Z.mod_small. split; [lia|].
  apply Z.lt_le_trans with (2 ^ 32); [lia|]. apply Z.pow_le_mono_r; lia.
Qed.

Lemma u64_step n : u64 (u64 (512 * Z.of_nat n) + 512) = u64 (512 * Z.of_nat (S n)).
Proof. unfold u64. rewrite Zplus_mod_idemp_l. f_equal. lia. Qed.

Lemma message_app a b : message (a ++ b) <-> message a /\ message b.
Proof. unfold message. apply Forall_app. Qed.

Lemma message_concat bs t : message (concat bs ++ t) -> Forall message bs /\ message t.
Proof.
  intros H. apply message_app in H. destruct H as [H Ht]. split; [|exact Ht].
  unfold message in *. apply Forall_concat in H. exact H.
Qed.

Lemma process_loop_absorbs fuel : forall md m input,
  absorbed md m -> message m -> message input -> (length input <= fuel)%nat ->
  absorbed (process_loop lw compress fuel md input) (m ++ input).
Proof.
  induction fuel as [|fuel IH]; intros md m input Hm Mm Mi Hf.
  { destruct input; cbn in Hf; [|lia]. rewrite app_nil_r. exact Hm. }
  cbn [process_loop].
  destruct (Z.gtb_spec (Z.of_nat (length input)) 0) as [Hpos|Hpos].
  2: { destruct input; cbn in Hpos; [|lia]. rewrite app_nil_r. exact Hm. }
  destruct Hm as (bs & tail & -> & Hbs & Ht & Hlen & Hsl & Hst & Hcur & Hbl & Hbuf).
  apply message_concat in Mm as Mbt. destruct Mbt as [Mb Mt].
  destruct ((h_curlen md =? 0) && (Z.of_nat (length input) >=? 64)) eqn:E.
  - apply andb_true_iff in E. destruct E as [E1 E2]. apply Z.eqb_eq in E1. rewrite Z.geb_leb in E2.
    apply Z.leb_le in E2.
    assert (tail = []) by (destruct tail; [reflexivity|cbn in Hcur; lia]). subst tail.
    replace ((concat bs ++ []) ++ input) with (((concat bs ++ []) ++ firstn 64 input) ++ skipn 64 input)
      by (rewrite <- app_assoc, firstn_skipn; reflexivity).
    rewrite <- (firstn_skipn 64 input) in Mi. apply message_app in Mi. destruct Mi as [Mi1 Mi2].
    apply IH.
    + assert (L : length (firstn 64 input) = 64%nat) by (rewrite firstn_length; lia).
      destruct (Hcompress (h_state md) (firstn 64 input) Hsl Mi1) as [C1 C2].
      exists (bs ++ [firstn 64 input]), []. cbn [h_length h_state h_curlen h_buf].
      rewrite concat_app. cbn [concat]. rewrite !app_nil_r.
      split; [reflexivity|]. split; [apply Forall_app; split; [exact Hbs|constructor; [exact L|constructor]]|].
      split; [cbn; lia|].
      split; [rewrite app_length; cbn [length]; rewrite Nat.add_1_r, <- u64_step, Hlen; reflexivity|].
      split; [exact C2|]. split; [rewrite C1, fold_left_app, Hst; reflexivity|].
      split; [exact E1|]. split; [exact Hbl|]. reflexivity.
    + rewrite app_nil_r in *. apply message_app. split; assumption.
    + exact Mi2.
    + rewrite skipn_length. lia.
  - set (room := (64 - length tail)%nat).
    assert (Hroom : ul lw (64 - h_curlen md) = Z.of_nat room).
    { rewrite Hcur. rewrite ul_small by lia. unfold room. lia. }
    rewrite Hroom.
    set (n := Nat.min (length input) room).
    replace (if Z.of_nat (length input) <? Z.of_nat room then Z.of_nat (length input) else Z.of_nat room)
      with (Z.of_nat n).
    2: { unfold n. destruct (Z.ltb_spec (Z.of_nat (length input)) (Z.of_nat room)); lia. }
    rewrite Nat2Z.id. rewrite Hcur. rewrite Nat2Z.id.
    assert (Hn : (1 <= n)%nat) by (unfold n, room; lia).
    assert (L : length (firstn n input) = n) by (rewrite firstn_length; unfold n; lia).
    set (piece := firstn n input) in *.
    set (buf := copy_at (h_buf md) (length tail) piece).
    assert (Hbuf' : firstn (length tail + length piece) buf = tail ++ piece).
    { apply prefix_copy; [exact Hbuf|reflexivity|]. unfold n, room in *. lia. }
    assert (Lbuf : length buf = 64%nat) by (unfold buf; rewrite copy_at_length; exact Hbl).
    replace (ul lw (Z.of_nat (length tail) + Z.of_nat n)) with (Z.of_nat (length tail + n)).
    2: { rewrite ul_small by (unfold n, room in *; lia). lia. }
    rewrite <- (firstn_skipn n input) in Mi. fold piece in Mi. apply message_app in Mi.
    destruct Mi as [Mi1 Mi2].
    replace ((concat bs ++ tail) ++ input) with (((concat bs ++ tail) ++ piece) ++ skipn n input).
    2: { unfold piece. rewrite <- app_assoc. f_equal. apply firstn_skipn. }
    destruct (Z.eqb_spec (Z.of_nat (length tail + n)) 64) as [Efull|Epart].
    + apply IH.
      * rewrite L in Hbuf'. replace (length tail + n)%nat with 64%nat in Hbuf' by lia.
        rewrite firstn_all2 in Hbuf' by lia.
        assert (Mbuf : message buf) by (rewrite Hbuf'; apply message_app; split; assumption).
        destruct (Hcompress (h_state md) buf Hsl Mbuf) as [C1 C2].
        exists (bs ++ [buf]), []. cbn [h_length h_state h_curlen h_buf].
        rewrite concat_app. cbn [concat]. rewrite !app_nil_r.
        split; [rewrite Hbuf', <- app_assoc; reflexivity|].
        split; [apply Forall_app; split; [exact Hbs|constructor; [exact Lbuf|constructor]]|].
        split; [cbn; lia|].
        split; [rewrite app_length; cbn [length]; rewrite Nat.add_1_r, <- u64_step, Hlen; reflexivity|].
        split; [exact C2|]. split; [rewrite C1, fold_left_app, Hst; reflexivity|].
        split; [reflexivity|]. split; [exact Lbuf|]. reflexivity.
      * apply message_app. split; assumption.
      * exact Mi2.
      * rewrite skipn_length. lia.
    + apply IH.
      * exists bs, (tail ++ piece). cbn [h_length h_state h_curlen h_buf].
        split; [rewrite <- app_assoc; reflexivity|]. split; [exact Hbs|].
        split; [rewrite app_length, L; unfold n, room in *; lia|].
        split; [exact Hlen|]. split; [exact Hsl|]. split; [exact Hst|].
        split; [rewrite app_length, L; reflexivity|]. split; [exact Lbuf|].
        rewrite app_length. exact Hbuf'.
      * apply message_app. split; assumption.
      * exact Mi2.
      * rewrite skipn_length. lia.
Qed.

(* ---------------------------------------------------------------- padding *)

Lemma pad_split bs tail :
  Forall (fun b : list Z => length b = 64%nat) bs -> (length tail < 64)%nat ->
  let m := concat bs ++ tail in
  let len := big_endian 8 (8 * Z.of_nat (length m)) in
  padded m =
  concat bs ++ (if (length tail <? 56)%nat then concat [tail ++ [0x80] ++ repeat 0 (55 - length tail) ++ len]
                else concat [tail ++ [0x80] ++ repeat 0 (63 - length tail); repeat 0 56 ++ len]).
Proof.
  intros Hbs Ht m len. unfold padded. fold len.
  assert (Lm : length m = (64 * length bs + length tail)%nat).
  { unfold m. rewrite app_length, concat_length64 by assumption. reflexivity. }
  unfold m at 1. rewrite <- app_assoc. f_equal.
  rewrite Lm.
  destruct (Nat.ltb_spec (length tail) 56) as [Hs|Hl].
  - cbn [concat]. rewrite app_nil_r. f_equal. f_equal. f_equal. f_equal.
    replace (55 - Z.of_nat (64 * length bs + length tail))
      with ((55 - Z.of_nat (length tail)) + (- Z.of_nat (length bs)) * 64) by lia.
    rewrite Z.mod_add, Z.mod_small by lia. lia.
  - cbn [concat]. rewrite app_nil_r. rewrite <- !app_assoc. f_equal. f_equal.
    rewrite (app_assoc (repeat 0 _)). f_equal.
    rewrite <- repeat_app. f_equal.
    replace (55 - Z.of_nat (64 * length bs + length tail))
      with ((119 - Z.of_nat (length tail)) + (- Z.of_nat (length bs) - 1) * 64) by lia.
    rewrite Z.mod_add, Z.mod_small by lia. lia.
Qed.

Lemma message_zeros n : message (repeat 0 n).
Proof. unfold message. apply Forall_forall. intros x Hx. apply repeat_spec in Hx. lia. Qed.

Lemma message_be n x : message (big_endian n x).
Proof.
  unfold message, big_endian. apply Forall_forall. intros c Hc. apply in_map_iff in Hc.
  destruct Hc as (i & <- & _). apply Z.mod_pos_bound. lia.
Qed.

Lemma be8_length x : length (big_endian 8 x) = 8%nat.
Proof. reflexivity. Qed.

Lemma finish_spec md m :
  absorbed md m -> message m -> 8 * Z.of_nat (length m) < 2 ^ 64 ->
  let p := padded m in
  map u32 (finish lw compress md) = fold_left next (blocks (length p / 64) p) H0
  /\ length (finish lw compress md) = nwords.
Proof.
  intros (bs & tail & -> & Hbs & Ht & Hlen & Hsl & Hst & Hcur & Hbl & Hbuf) Mm Hsmall p.
  apply message_concat in Mm as Mbt. destruct Mbt as [Mb Mt].
  assert (Lm : length (concat bs ++ tail) = (64 * length bs + length tail)%nat).
  { rewrite app_length, concat_length64 by assumption. reflexivity. }
  unfold finish. rewrite Hcur, Nat2Z.id.
  assert (Hbits : u64 (h_length md + ul lw (Z.of_nat (length tail) * 8))
                  = 8 * Z.of_nat (length (concat bs ++ tail))).
  { rewrite ul_small by lia. rewrite Hlen. unfold u64. rewrite Zplus_mod_idemp_l.
    rewrite Lm in *. rewrite Z.mod_small; lia. }
  rewrite Hbits. set (bits := 8 * Z.of_nat (length (concat bs ++ tail))) in *.
  rewrite put_copy.
  set (buf1 := copy_at (h_buf md) (length tail) [128]).
  assert (F1 : firstn (length tail + 1) buf1 = tail ++ [128]).
  { apply (prefix_copy _ _ [128]); [exact Hbuf|reflexivity|cbn; lia]. }
  assert (L1 : length buf1 = 64%nat) by (unfold buf1; rewrite copy_at_length; exact Hbl).
  assert (Z1 : Z.to_nat (Z.of_nat (length tail) + 1) = (length tail + 1)%nat) by lia.
  destruct (Nat.ltb_spec (length tail) 56) as [Hs|Hl].
  - replace (Z.of_nat (length tail) + 1 >? 56) with false by (symmetry; rewrite Z.gtb_ltb; apply Z.ltb_ge; lia).
    rewrite zero_fill_copy, Z1.
    replace (Z.to_nat (56 - (Z.of_nat (length tail) + 1))) with (55 - length tail)%nat by lia.
    set (buf2 := copy_at buf1 (length tail + 1) (repeat 0 (55 - length tail))).
    assert (F2 : firstn 56 buf2 = (tail ++ [128]) ++ repeat 0 (55 - length tail)).
    { replace 56%nat with ((length tail + 1) + length (repeat 0%Z (55 - length tail)))%nat
        by (rewrite repeat_length; lia).
      apply prefix_copy; [exact F1 | rewrite app_length; reflexivity | rewrite repeat_length; lia]. }
    assert (L2 : length buf2 = 64%nat) by (unfold buf2; rewrite copy_at_length; exact L1).
    set (buf3 := copy_at buf2 56 (store64h bits)).
    assert (F3 : buf3 = tail ++ [128] ++ repeat 0 (55 - length tail) ++ big_endian 8 bits).
    { unfold buf3; rewrite store64h_spec; clear buf3; set (buf3 := copy_at _ 56 (big_endian 8 bits)). 
      assert (F : firstn (56 + length (big_endian 8 bits)) buf3
                  = ((tail ++ [128]) ++ repeat 0 (55 - length tail)) ++ big_endian 8 bits).
      { apply prefix_copy; [exact F2 | | rewrite be8_length; lia].
        rewrite !app_length, repeat_length. cbn [length]. lia. }
      rewrite firstn_all2 in F; [rewrite F, <- !app_assoc; reflexivity|].
      unfold buf3. rewrite copy_at_length, be8_length. lia. }
    assert (L3 : length buf3 = 64%nat) by (unfold buf3; rewrite copy_at_length; exact L2).
    assert (M3 : message buf3).
    { rewrite F3. repeat rewrite message_app. repeat split; auto using message_zeros, message_be.
      unfold message. constructor; [lia|constructor]. }
    destruct (Hcompress (h_state md) buf3 Hsl M3) as [C1 C2]. split; [|exact C2].
    rewrite C1, Hst.
    assert (P : p = concat (bs ++ [buf3])).
    { unfold p. rewrite pad_split by assumption.
      replace (length tail <? 56)%nat with true by (symmetry; apply Nat.ltb_lt; lia).
      fold bits. rewrite <- F3, <- concat_app. reflexivity. }
    assert (Hall : Forall (fun b => length b = 64%nat) (bs ++ [buf3])).
    { apply Forall_app. split; [exact Hbs|]. constructor; [exact L3|constructor]. }
    rewrite P. rewrite concat_length64 by exact Hall. rewrite Nat.mul_comm, Nat.div_mul by lia.
    rewrite blocks_concat by exact Hall. rewrite fold_left_app. reflexivity.
  - replace (Z.of_nat (length tail) + 1 >? 56) with true by (symmetry; rewrite Z.gtb_ltb; apply Z.ltb_lt; lia).
    rewrite !zero_fill_copy, Z1.
    replace (Z.to_nat (64 - (Z.of_nat (length tail) + 1))) with (63 - length tail)%nat by lia.
    set (buf2 := copy_at buf1 (length tail + 1) (repeat 0 (63 - length tail))).
    assert (L2 : length buf2 = 64%nat) by (unfold buf2; rewrite copy_at_length; exact L1).
    assert (F2 : buf2 = tail ++ [128] ++ repeat 0 (63 - length tail)).
    { assert (F : firstn 64 buf2 = (tail ++ [128]) ++ repeat 0 (63 - length tail)).
      { replace 64%nat with ((length tail + 1) + length (repeat 0%Z (63 - length tail)))%nat
          by (rewrite repeat_length; lia).
        apply prefix_copy; [exact F1 | rewrite app_length; reflexivity | rewrite repeat_length; lia]. }
      rewrite firstn_all2 in F by lia. rewrite F, <- app_assoc. reflexivity. }
    assert (M2 : message buf2).
    { rewrite F2. repeat rewrite message_app. repeat split; auto using message_zeros.
      unfold message. constructor; [lia|constructor]. }
    change (Z.to_nat (56 - 0)) with 56%nat. change (Z.to_nat 0) with 0%nat.
    set (buf3 := copy_at buf2 0 (repeat 0 56)).
    assert (L3 : length buf3 = 64%nat) by (unfold buf3; rewrite copy_at_length; exact L2).
    assert (F3 : firstn 56 buf3 = repeat 0 56).
    { change 56%nat with (0 + length (repeat 0%Z 56))%nat at 1.
      apply (prefix_copy buf2 0 (repeat 0 56) []); [reflexivity|reflexivity|rewrite repeat_length; lia]. }
    set (buf4 := copy_at buf3 56 (store64h bits)).
    assert (F4 : buf4 = repeat 0 56 ++ big_endian 8 bits).
    { unfold buf4; rewrite store64h_spec; clear buf4; set (buf4 := copy_at _ 56 (big_endian 8 bits)).
      assert (F : firstn (56 + length (big_endian 8 bits)) buf4 = repeat 0 56 ++ big_endian 8 bits).
      { apply prefix_copy; [exact F3 | apply repeat_length | rewrite be8_length; lia]. }
      rewrite firstn_all2 in F; [exact F|]. unfold buf4. rewrite copy_at_length, be8_length. lia. }
    assert (L4 : length buf4 = 64%nat) by (unfold buf4; rewrite copy_at_length; exact L3).
    assert (M4 : message buf4).
    { rewrite F4. apply message_app. split; auto using message_zeros, message_be. }
    destruct (Hcompress (h_state md) buf2 Hsl M2) as [C1 C2].
    destruct (Hcompress _ buf4 C2 M4) as [C3 C4]. split; [|exact C4].
    rewrite C3, C1, Hst.
    assert (P : p = concat (bs ++ [buf2; buf4])).
    { unfold p. rewrite pad_split by assumption.
      replace (length tail <? 56)%nat with false by (symmetry; apply Nat.ltb_ge; lia).
      fold bits. rewrite <- F2, <- F4, <- concat_app. reflexivity. }
    assert (Hall : Forall (fun b => length b = 64%nat) (bs ++ [buf2; buf4])).
    { apply Forall_app. split; [exact Hbs|]. constructor; [exact L2|constructor; [exact L4|constructor]]. }
    rewrite P. rewrite concat_length64 by exact Hall. rewrite Nat.mul_comm, Nat.div_mul by lia.
    rewrite blocks_concat by exact Hall. rewrite fold_left_app. reflexivity.
Qed.
End Stream.
