(** C44, continued: what a checksum request gives for every start and size. *)
From Verif Require Import CBase SpecSha ShaModel ShaProofs ShaProofs2 ShaProofs3 ShaProofs4 PropSha.

(** The reads deliver all the bytes asked for, as far as the file has them (as the C library does for
    files on disk), without an error. [errno_eof] is what errno happens to hold at the end of the file. *)
Definition plain_reads (rd : reader) : Prop := forall k, error_at rd k = false /\ short rd k = O.
(** The answer to a request for the digest [H] of the bytes from [start] on, on a file of [n] bytes:
    UB stands for undefined behaviour (overrun buffer or unwritten memory). *)
Definition answer (H : list Z -> list Z) (errno : Z) (content : list Z) (start size : Z) : outcome (option (list Z)) :=
  let n := Z.of_nat (length content) in
  if start + size >? n then Ok None
  else if start <? 0 then Ok None
  else if (0 <=? size) then Ok (Some (hexadecimal (H (byte_range content start size))))
  else if (size =? -1) && (start <=? n) then Ok (Some (hexadecimal (H (byte_range content start (n - start)))))
  else if n - start >? 512 then UB
  else if errno =? 0 then Ok (Some (hexadecimal (H (byte_range content start (n - start)))))
  else UB.

Lemma loop_at_end process done fuel rd k md size : plain_reads rd -> size <> 0 ->
  hash_loop process done (S fuel) rd k md [] size = if errno_eof rd =? 0 then Ok (done md true) else Ok (CRYPT_OK, None).
Proof.
  intros P N. cbn [hash_loop]. replace (size =? 0) with false by (symmetry; now apply Z.eqb_neq).
  destruct (P k) as [E1 E2]. unfold fread. rewrite E1, E2, firstn_nil. cbn. destruct (errno_eof rd =? 0); reflexivity.
Qed.
Lemma loop_negative init process done hashsize (holds : hash_state -> list Z -> Prop) (H : list Z -> list Z) junk rd rest size :
  (forall junk, length (h_buf junk) = 64%nat -> exists md, init (Some junk) = (CRYPT_OK, Some md) /\ holds md []) ->
  (forall md m bytes, holds md m -> message m -> message bytes -> 8 * Z.of_nat (length (m ++ bytes)) < 2 ^ 64 ->
     exists md', process (Some md) (Some bytes) = (CRYPT_OK, Some md') /\ holds md' (m ++ bytes)) ->
  (forall md m, holds md m -> message m -> 8 * Z.of_nat (length m) < 2 ^ 64 -> done (Some md) true = (CRYPT_OK, Some (H m))) ->
  (forall m, length (H m) = hashsize /\ message (H m)) ->
  length junk = 64%nat -> plain_reads rd -> message rest -> Z.of_nat (length rest) < 2 ^ 61 -> - 2 ^ 63 <= size < 0 ->
  match hash_filehandle init process done junk rd rest size with
  | UB => UB
  | Ok (_, None) => UB
  | Ok (_, Some digest) => Ok (Some (flat_map (fun i => hex2 (get digest i)) (seq 0 hashsize)))
  end = if (512 <? length rest)%nat then UB else if errno_eof rd =? 0 then Ok (Some (hexadecimal (H rest))) else UB.
Proof.
  intros Hinit Hprocess Hdone Hsize Hj P Mr Hl Hs.
  assert (Hex : forall m, flat_map (fun i => hex2 (get (H m) i)) (seq 0 hashsize) = hexadecimal (H m)).
  { intro m. destruct (Hsize m) as [HL HM]. rewrite <- HL, (flat_map_seq_get hex2). apply hex_bytes, HM. }
  unfold hash_filehandle. destruct (Hinit (HashState 0 [] 0 junk)) as (md & -> & Hmd); [exact Hj|].
  change (negb (CRYPT_OK =? CRYPT_OK)) with false. cbv iota.
  destruct rest as [|b rest'] eqn:E.
  - rewrite loop_at_end by (auto; lia). cbn [length Nat.ltb Nat.leb]. destruct (errno_eof rd =? 0); [|reflexivity].
    rewrite (Hdone md []) by (auto; try constructor; cbn; lia). now rewrite Hex.
  - rewrite <- E in *. assert (NE : (0 < length rest)%nat) by (rewrite E; cbn; lia). clear E.
    destruct (length rest) as [|len] eqn:L; [lia|]. rewrite <- L in *. cbn [hash_loop].
    replace (size =? 0) with false by (symmetry; apply Z.eqb_neq; lia).
    replace (size >? 512) with false by (symmetry; rewrite Z.gtb_ltb; apply Z.ltb_ge; lia).
    assert (U : u64 size = 2 ^ 64 + size) by (unfold u64; rewrite <- (Z.mod_add _ 1) by lia; rewrite Z.mod_small; lia).
    rewrite U. destruct (P O) as [E1 E2]. unfold fread. rewrite E1, E2.
    replace (Z.to_nat (Z.min (2 ^ 64 + size) (Z.of_nat (length rest)))) with (length rest) by lia. rewrite firstn_all.
    destruct (512 <? length rest)%nat eqn:B; [reflexivity|]. apply Nat.ltb_ge in B.
    replace (length rest =? 0)%nat with false by (symmetry; apply Nat.eqb_neq; lia).
    destruct (Hprocess md [] rest) as (md' & -> & Hm'); auto; [constructor|cbn [app]; lia|].
    change (negb (CRYPT_OK =? CRYPT_OK)) with false. cbv iota.
    rewrite skipn_all, L, loop_at_end.
    + destruct (errno_eof rd =? 0); [|reflexivity]. rewrite (Hdone md' rest); auto; [now rewrite Hex|lia].
    + exact P.
    + unfold i64. rewrite <- L. intro Z0. 
      assert (Q : (size - Z.of_nat (length rest) + 2 ^ 63) mod 2 ^ 64 = 2 ^ 63) by lia.
      pose proof (Z.div_mod (size - Z.of_nat (length rest) + 2 ^ 63) (2 ^ 64) ltac:(lia)) as DM. rewrite Q in DM.
      set (q := (size - Z.of_nat (length rest) + 2 ^ 63) / 2 ^ 64) in *. lia.
Qed.

(** C44, every start and size (the sums the code forms being representable). *)
Theorem C44_exact lw junk rd name content start size :
  long_width lw -> length junk = 64%nat -> plain_reads rd -> message content -> Z.of_nat (length content) < 2 ^ 61 ->
  is_i64 (start + size) -> is_i64 size -> Z.of_nat (length content) - start < 2 ^ 63 ->
  afs_sha1_sum2 lw junk rd (Some name) (Some content) start size = answer SHA1 (errno_eof rd) content start size /\
  afs_sha256_sum2 lw junk rd (Some name) (Some content) start size = answer SHA256 (errno_eof rd) content start size.
Proof.
  intros Hl Hj P Mc Hlen I1 I2 I3. unfold answer. rewrite Z.gtb_ltb.
  destruct (Z.ltb_spec (Z.of_nat (length content)) (start + size)) as [O|O]; [apply (C44_outside_partial lw junk rd name content start size); auto; lia|].
  destruct (Z.ltb_spec start 0) as [N|N]; [apply (C44_outside_partial lw junk rd name content start size); auto; lia|].
  assert (R : no_read_error rd) by (intro k; apply P).
  destruct (Z.leb_spec 0 size) as [Sz|Sz]; [apply C03_range; auto|].
  destruct ((size =? -1) && (start <=? Z.of_nat (length content))) eqn:B.
  - apply andb_true_iff in B. destruct B as [B1 B2]. apply Z.eqb_eq in B1. apply Z.leb_le in B2. subst size.
    pose proof (C03_to_end lw junk rd name content start Hl Hj R Mc Hlen (conj N B2)) as T.
    unfold byte_range. rewrite firstn_all2 by (rewrite skipn_length; lia). exact T.
  - assert (Hlw : 32 <= lw) by (destruct Hl; lia).
    set (rest := skipn (Z.to_nat start) content). assert (Lr : length rest = (length content - Z.to_nat start)%nat) by apply skipn_length.
    assert (Br : byte_range content start (Z.of_nat (length content) - start) = rest).
    { unfold byte_range. fold rest. apply firstn_all2. lia. }
    rewrite Br.
    assert (G : forall init process done hashsize (holds : hash_state -> list Z -> Prop) (H : list Z -> list Z),
      (forall junk, length (h_buf junk) = 64%nat -> exists md, init (Some junk) = (CRYPT_OK, Some md) /\ holds md []) ->
      (forall md m bytes, holds md m -> message m -> message bytes -> 8 * Z.of_nat (length (m ++ bytes)) < 2 ^ 64 ->
         exists md', process (Some md) (Some bytes) = (CRYPT_OK, Some md') /\ holds md' (m ++ bytes)) ->
      (forall md m, holds md m -> message m -> 8 * Z.of_nat (length m) < 2 ^ 64 -> done (Some md) true = (CRYPT_OK, Some (H m))) ->
      (forall m, length (H m) = hashsize /\ message (H m)) ->
      sum2 init process done hashsize junk rd (Some name) (Some content) start size =
      (if Z.of_nat (length content) - start >? 512 then UB else if errno_eof rd =? 0 then Ok (Some (hexadecimal (H rest))) else UB)).
    { intros init process done hashsize holds H H1 H2 H3 H4. unfold sum2, sum2_private, is_i64 in *.
      replace ((- 2 ^ 63 <=? start + size) && (start + size <? 2 ^ 63)) with true by (symmetry; apply andb_true_iff; rewrite Z.leb_le, Z.ltb_lt; lia).
      replace (start + size >? Z.of_nat (length content)) with false by (symmetry; rewrite Z.gtb_ltb; apply Z.ltb_ge; lia).
      cbn [negb]. set (sz := if size =? -1 then Z.of_nat (length content) - start else size).
      assert (Hsz : - 2 ^ 63 <= sz < 0).
      { unfold sz. apply andb_false_iff in B. destruct (Z.eqb_spec size (-1)); [|lia]. destruct B as [B|B]; [discriminate|]. apply Z.leb_gt in B. lia. }
      replace ((- 2 ^ 63 <=? sz) && (sz <? 2 ^ 63)) with true by (symmetry; apply andb_true_iff; rewrite Z.leb_le, Z.ltb_lt; lia).
      replace (start <? 0) with false by (symmetry; apply Z.ltb_ge; lia). cbn [negb]. fold rest.
      rewrite (loop_negative init process done hashsize holds H junk rd rest sz); auto; try lia; [|apply message_skipn; exact Mc].
      rewrite Z.gtb_ltb. replace (512 <? Z.of_nat (length content) - start) with (512 <? length rest)%nat; [reflexivity|].
      apply eq_true_iff_eq. rewrite Nat.ltb_lt, Z.ltb_lt. lia. }
    split.
    + apply (G _ _ _ _ absorbed1).
      * exact init1_absorbed. * intros; apply process1_absorbed; assumption. * intros; apply done1_absorbed; assumption.
      * intros. split; [apply SHA1_length | apply digest_bytes].
    + apply (G _ _ _ _ absorbed256).
      * exact init256_absorbed. * intros; apply process256_absorbed; assumption. * intros; apply done256_absorbed; assumption.
      * intros. split; [apply SHA256_length | apply digest_bytes].
Qed.
Print Assumptions C44_exact.
(** So a range inside the file gives its digest; of the others, a string is returned exactly for negative
    sizes that the code takes as "up to the end" when at most 512 bytes are left. *)
Example C44_exact_witness :
  plain_reads plain_reader /\ message (s2z "xxabc") /\
  answer SHA1 0 (s2z "xxabc") 2 (-7) = Ok (Some (hexadecimal (SHA1 (s2z "abc")))) /\
  afs_sha1_sum2 64 (repeat 7 64) plain_reader (Some (s2z "f")) (Some (s2z "xxabc")) 2 (-7) = Ok (Some (hexadecimal (SHA1 (s2z "abc")))).
Proof.
  split; [intro; split; reflexivity|]. split; [repeat (constructor; [cbn; lia|]); constructor|]. split; [reflexivity|vm_compute; reflexivity].
Qed.
