(** Reading frames. *)
From Verif Require Import CBase CBaseProofs TocModel FileModel ImageModel ToolModel SpecTool ToolProofs ToolProofs2.
Notation length := List.length.
Local Open Scope Z_scope.

Definition depth_ok (b : Z) : Prop := b = 1 \/ b = 2 \/ b = 4 \/ b = 8.
Lemma u32_id x : 0 <= x < 2 ^ 32 -> u32 x = x. Proof. intro. unfold u32. now apply Z.mod_small. Qed.
Lemma check_depths_spec l w h s : 0 <= w -> 0 <= h -> w * h < 2 ^ 29 -> Forall depth_ok l ->
  check_depths l s w h =
  match find (fun b => (w * h * b / 8 =? s) || (w * h * b / 8 + 64 =? s)) l with
  | Some b => Some (b, negb (w * h * b / 8 =? s))
  | None => None
  end.
Proof.
  intros W H B F. induction l as [|b l IH]; [reflexivity|]. inversion F as [|? ? Db F']; subst. cbn [check_depths find].
  assert (0 <= w * h) by nia. set (n := w * h) in *. assert (0 <= n * b < 2 ^ 32) by (destruct Db as [-> |[-> |[-> | ->]]]; lia).
  assert (0 <= n * b / 8 < 2 ^ 29 + 1) by (split; [apply Z.div_pos; lia|apply Z.div_lt_upper_bound; lia]).
  rewrite (u32_id n) by lia. rewrite (u32_id (n * b)) by lia. rewrite (u32_id (n * b / 8 + 64)) by lia. rewrite IH by exact F'.
  destruct (n * b / 8 =? s) eqn:E1; cbn [orb negb]; [now rewrite E1|]. destruct (n * b / 8 + 64 =? s) eqn:E2; [now rewrite E1|reflexivity].
Qed.
Lemma all_depths : Forall depth_ok [1; 2; 4; 8].
Proof. unfold depth_ok. repeat (constructor; [tauto|]). constructor. Qed.
(** The size tells the depth and whether there are 64 bytes more, except for 128, 256 and 512 pixels. *)
Lemma frame_size_spec w h b : 0 < w -> 0 < h -> w * h < 2 ^ 29 -> w * h mod 8 = 0 -> depth_ok b ->
  w * h <> 128 -> w * h <> 256 -> w * h <> 512 ->
  check_frame_size (w * h * b / 8) w h = Some (b, false) /\ check_frame_size (w * h * b / 8 + 64) w h = Some (b, true).
Proof.
  intros W H B M D N1 N2 N3. unfold check_frame_size. rewrite !check_depths_spec by (try lia; apply all_depths). assert (0 < w * h) by nia. set (n := w * h) in *.
  assert (E : exists q, n = 8 * q) by (exists (n / 8); pose proof (Z_div_mod_eq_full n 8); lia). destruct E as (q & E).
  assert (Q : forall c, n * c / 8 = q * c) by (intro c; rewrite E; replace (8 * q * c) with (q * c * 8) by lia; apply Z.div_mul; lia).
  cbn [find]. rewrite !Q. destruct D as [-> |[-> |[-> | ->]]]; split;
  repeat match goal with |- context [?a =? ?b] => let X := fresh in destruct (Z.eqb_spec a b) as [X|X]; try (exfalso; lia); cbn [orb negb] end; reflexivity.
Qed.
Lemma bytes_all (P : Z -> bool) : forallb P (map Z.of_nat (seq 0 256)) = true -> forall x, 0 <= x < 256 -> P x = true.
Proof. intros H x B. rewrite forallb_forall in H. apply H. apply in_map_iff. exists (Z.to_nat x). split; [lia|]. apply in_seq. lia. Qed.
Lemma normalize_byte_spec b x j : b = 1 \/ b = 2 \/ b = 4 -> 0 <= x < 256 -> (j < Z.to_nat (8 / b))%nat ->
  nth j (normalize_byte b x) 0 = brightness b ((x / 2 ^ (b * Z.of_nat j)) mod 2 ^ b).
Proof.
  intros D X J.
  assert (G : forallb (fun x => forallb (fun j => nth j (normalize_byte b x) 0 =? brightness b ((x / 2 ^ (b * Z.of_nat j)) mod 2 ^ b)) (seq 0 (Z.to_nat (8 / b)))) (map Z.of_nat (seq 0 256)) = true)
    by (destruct D as [-> |[-> | ->]]; vm_compute; reflexivity).
  pose proof (bytes_all _ G x X) as G1. cbv beta in G1. rewrite forallb_forall in G1. specialize (G1 j). apply Z.eqb_eq. apply G1. apply in_seq. lia.
Qed.
Lemma normalize_byte_length b x : length (normalize_byte b x) = Z.to_nat (8 / b).
Proof. unfold normalize_byte. now rewrite map_length, seq_length. Qed.
Lemma flat_nth (g : Z -> list Z) m l k : (forall x, length (g x) = m) -> (0 < m)%nat -> (k < m * length l)%nat ->
  nth k (flat_map g l) 0 = nth (k mod m) (g (nth (k / m) l 0)) 0.
Proof.
  intros G M. revert k. induction l as [|x l IH]; intros k K; [cbn [List.length] in K; lia|]. cbn [flat_map].
  destruct (Nat.lt_ge_cases k m) as [L|L].
  - rewrite app_nth1 by (rewrite G; exact L). rewrite Nat.div_small, Nat.mod_small by exact L. reflexivity.
  - rewrite app_nth2 by (rewrite G; exact L). rewrite G. cbn [List.length] in K. rewrite IH by lia.
    replace k with (k - m + 1 * m)%nat at 3 4 by lia. rewrite Nat.mod_add, Nat.div_add by lia. replace ((k - m) / m + 1)%nat with (S ((k - m) / m)) by lia. reflexivity.
Qed.
Definition is_byte (x : Z) : Prop := 0 <= x < 256.
Lemma payload_length bytes size (header : bool) : 0 <= size -> Z.of_nat (length bytes) = size + (if header then 64 else 0) -> Z.of_nat (length (payload bytes size header)) = size.
Proof. intros H L. unfold payload. rewrite firstn_length, skipn_length. destruct header; lia. Qed.
Lemma nth_byte l k : Forall is_byte l -> is_byte (nth k l 0).
Proof. intro F. destruct (Nat.lt_ge_cases k (length l)) as [L|L]; [rewrite Forall_forall in F; apply F; now apply nth_In|]. rewrite nth_overflow by exact L. unfold is_byte. lia. Qed.
Lemma payload_bytes bytes size (header : bool) : Forall is_byte bytes -> Forall is_byte (payload bytes size header).
Proof.
  intro F. rewrite Forall_forall in *. intros x I. apply F. unfold payload in I.
  rewrite <- (firstn_skipn (if header then 32%nat else 0%nat) bytes). apply in_or_app. right. set (y := skipn _ bytes) in *. rewrite <- (firstn_skipn (Z.to_nat size) y). apply in_or_app. now left.
Qed.
Lemma read_frame fresh d name bytes w h b (header : bool) : d name = Some bytes -> Forall is_byte bytes -> 0 < w -> 0 < h -> w * h < 2 ^ 29 -> w * h mod 8 = 0 -> depth_ok b ->
  check_frame_size (Z.of_nat (length bytes)) w h = Some (b, header) -> Z.of_nat (length bytes) = w * h * b / 8 + (if header then 64 else 0) ->
  exists im, read_input_file fresh d name w h = Ok (Some im) /\ im_width im = w /\ im_height im = h /\
  (forall k, 0 <= k < w * h -> nth (Z.to_nat k) (im_data im) 0 = if b =? 8 then nth (Z.to_nat k) (payload bytes (w * h) header) 0 else brightness b (sample (payload bytes (w * h * b / 8) header) b k)) /\
  w * h <= Z.of_nat (length (im_data im)).
Proof.
  intros E F W H B M D C L. unfold read_input_file. rewrite E, C. assert (P0 : 0 < w * h) by nia. set (n := w * h) in *.
  assert (Q : exists q, n = 8 * q) by (exists (n / 8); pose proof (Z_div_mod_eq_full n 8); lia). destruct Q as (q & Q).
  assert (QD : forall c, n * c / 8 = q * c) by (intro c; rewrite Q; replace (8 * q * c) with (q * c * 8) by lia; apply Z.div_mul; lia). rewrite QD in L |- *.
  assert (BB : b <= 8 /\ 1 <= b) by (destruct D as [-> |[-> |[-> | ->]]]; lia).
  assert (U : u64 (u64 n * b) / 8 = q * b).
  { unfold u64. rewrite (Z.mod_small n) by lia. rewrite Z.mod_small by nia. apply QD. }
  rewrite U. assert (QB : 0 < q * b <= n) by nia.
  change (firstn (Z.to_nat (q * b)) (skipn (if header then 32%nat else 0%nat) bytes)) with (payload bytes (q * b) header).
  pose proof (payload_length bytes (q * b) header ltac:(lia) L) as PL. set (got := payload bytes (q * b) header) in *.
  replace ((Z.to_nat (q * b) =? 0)%nat) with false by lia. replace ((length got <? Z.to_nat (q * b))%nat) with false by lia. cbn [orb].
  replace ((Z.to_nat n <? Z.to_nat (q * b))%nat) with false by lia.
  set (rest := map fresh (seq (Z.to_nat (q * b)) (Z.to_nat n - Z.to_nat (q * b)))).
  assert (DL : length (got ++ rest) = Z.to_nat n) by (unfold rest; rewrite app_length, map_length, seq_length; lia).
  destruct (Z.eqb_spec b 8) as [-> |N8].
  - change (8 <? 8) with false. cbv iota. eexists. split; [reflexivity|]. cbn [im_width im_height im_data]. split; [reflexivity|]. split; [reflexivity|]. split; [|rewrite DL; lia].
    intros k K. assert (rest = []) by (unfold rest; replace (Z.to_nat n - Z.to_nat (q * 8))%nat with O by lia; reflexivity). rewrite H0, app_nil_r. unfold got. now replace (q * 8) with n by lia.
  - assert (D' : b = 1 \/ b = 2 \/ b = 4) by (unfold depth_ok in D; tauto).
    replace (b <? 8) with true by lia. unfold normalize_image_data. cbn [im_width im_height im_data]. fold n. rewrite (u32_id n) by lia. rewrite (u32_id (n * 8)) by lia.
    assert (ED : n * 8 / b = 8 / b * n) by (destruct D' as [-> |[-> | ->]]; [change (8 / 1) with 8|change (8 / 2) with 4|change (8 / 4) with 2]; rewrite Q; [rewrite Z.div_1_r; lia|replace (8 * q * 8) with (32 * q * 2) by lia; rewrite Z.div_mul; lia|replace (8 * q * 8) with (16 * q * 4) by lia; rewrite Z.div_mul; lia]).
    rewrite ED, Z.ltb_irrefl. cbn [obind]. rewrite (firstn_all2 (got ++ rest)) by lia.
    eexists. split; [reflexivity|]. cbn [im_width im_height im_data]. split; [reflexivity|]. split; [reflexivity|].
    set (m := Z.to_nat (8 / b)). assert (MB : (0 < m)%nat /\ Z.of_nat m * b = 8) by (unfold m; destruct D' as [-> |[-> | ->]]; cbn; lia). destruct MB as (M0 & MB).
    assert (FL : length (flat_map (normalize_byte b) (got ++ rest)) = (m * Z.to_nat n)%nat).
    { rewrite <- DL. clear. induction (got ++ rest) as [|x l IH]; cbn [flat_map List.length]; [lia|]. rewrite app_length, IH, normalize_byte_length. fold m. lia. }
    split; [|rewrite FL; nia].
    intros k K. rewrite (flat_nth (normalize_byte b) m); [|intro; apply normalize_byte_length|exact M0|rewrite DL; nia].
    assert (KD : (Z.to_nat k / m < length got)%nat) by (apply Nat.div_lt_upper_bound; [lia|]; nia).
    rewrite app_nth1 by exact KD. rewrite normalize_byte_spec; [|exact D'| |apply Nat.mod_upper_bound; lia].
    + unfold sample. assert (M8 : 8 / b = Z.of_nat m) by (unfold m; destruct D' as [-> |[-> | ->]]; reflexivity). rewrite M8.
      rewrite Nat2Z.inj_mod, Z2Nat.id by lia. f_equal. f_equal. f_equal. f_equal. rewrite Z2Nat.inj_div by lia. now rewrite Nat2Z.id.
    + apply nth_byte. now apply payload_bytes.
Qed.
