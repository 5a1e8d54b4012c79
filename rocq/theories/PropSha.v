(** C01-C04: the hash functions and file checksums against FIPS 180-4. *)
From Verif Require Import CBase ShaModel SpecSha ShaProofs ShaProofs3 ShaProofs4.
Notation length := List.length.
Notation concat := List.concat.

(** The context [md'] results from feeding the pieces in order to [md], every call succeeding. *)
Inductive fed (process : option hash_state -> option (list Z) -> Z * option hash_state)
  : option hash_state -> list (list Z) -> option hash_state -> Prop :=
| fed_nil md : fed process md [] md
| fed_cons md c md' cs md'' :
    process md (Some c) = (CRYPT_OK, md') -> fed process md' cs md'' -> fed process md (c :: cs) md''.

(** Width of unsigned long: 64 bits (LP64) or 32 bits (LLP64). *)
Definition long_width (lw : Z) : Prop := lw = 32 \/ lw = 64.

Lemma pieces_message cs : Forall message cs -> message (concat cs).
Proof. induction 1; cbn [List.concat]; [constructor|]. apply message_app. auto. Qed.

Lemma fed1 lw cs : 32 <= lw -> forall md m, absorbed1 md m -> message m -> Forall message cs ->
  exists md', fed (afs_sha1_process lw) (Some md) cs (Some md') /\ absorbed1 md' (m ++ concat cs).
Proof.
  intros Hlw. induction cs as [|c cs IH]; intros md m Hm Mm Mc.
  - exists md. cbn [List.concat]. rewrite app_nil_r. split; [constructor|exact Hm].
  - inversion Mc as [|? ? Mc1 Mc2]; subst.
    destruct (process1_absorbed lw Hlw md m c Hm Mm Mc1) as (md1 & E & H1).
    destruct (IH md1 (m ++ c) H1) as (md2 & F & H2); [apply message_app; auto|exact Mc2|].
    exists md2. split; [econstructor; eassumption|]. cbn [List.concat]. rewrite app_assoc. exact H2.
Qed.

Lemma fed256 lw cs : 32 <= lw -> forall md m, absorbed256 md m -> message m -> Forall message cs ->
  8 * Z.of_nat (length (m ++ concat cs)) < 2 ^ 64 ->
  exists md', fed (afs_sha256_process lw) (Some md) cs (Some md') /\ absorbed256 md' (m ++ concat cs).
Proof.
  intros Hlw. induction cs as [|c cs IH]; intros md m Hm Mm Mc Hs.
  - exists md. cbn [List.concat]. rewrite app_nil_r. split; [constructor|exact Hm].
  - inversion Mc as [|? ? Mc1 Mc2]; subst. cbn [List.concat] in Hs.
    destruct (process256_absorbed lw Hlw md m c Hm Mm Mc1) as (md1 & E & H1).
    { rewrite !app_length in *. lia. }
    destruct (IH md1 (m ++ c) H1) as (md2 & F & H2);
      [apply message_app; auto|exact Mc2|rewrite <- app_assoc; exact Hs|].
    exists md2. split; [econstructor; eassumption|]. cbn [List.concat]. rewrite app_assoc. exact H2.
Qed.

(** C01: whatever was in the context, initialising it, feeding it any pieces and finishing
    gives the FIPS 180-4 digest of their concatenation. *)
Theorem C01_sha1_is_fips lw junk pieces :
  long_width lw -> length (h_buf junk) = 64%nat ->
  Forall message pieces -> Z.of_nat (length (concat pieces)) < 2 ^ 61 ->
  exists md0 md,
    afs_sha1_init (Some junk) = (CRYPT_OK, md0) /\ fed (afs_sha1_process lw) md0 pieces md /\
    afs_sha1_done lw md true = (CRYPT_OK, Some (SHA1 (concat pieces))).
Proof.
  intros Hl Hj Mp Hs. assert (Hlw : 32 <= lw) by (destruct Hl; lia).
  destruct (init1_absorbed junk Hj) as (md0 & E0 & H0).
  destruct (fed1 lw pieces Hlw md0 [] H0) as (md & F & H1); [constructor|exact Mp|].
  exists (Some md0), (Some md). split; [exact E0|]. split; [exact F|].
  apply done1_absorbed; auto; [apply pieces_message, Mp|]. cbn [app]. lia.
Qed.

(** The premises hold and the digest is the published one ("abc", fed as "a", "" and "bc"). *)
Example C01_witness :
  let pieces := [s2z "a"; []; s2z "bc"] in
  Forall message pieces /\ Z.of_nat (length (concat pieces)) < 2 ^ 61 /\
  hexadecimal (SHA1 (concat pieces)) = s2z "a9993e364706816aba3e25717850c26c9cd0d89d".
Proof.
  split; [|split; [cbn; lia | vm_compute; reflexivity]].
  repeat (constructor; [repeat (constructor; [cbn; lia|]); constructor|]). constructor.
Qed.
Example C01_vector_two_blocks :
  hexadecimal (SHA1 (s2z "abcdbcdecdefdefgefghfghighijhijkijkljklmklmnlmnomnopnopq"))
  = s2z "84983e441c3bd26ebaae4aa1f95129e5e54670f1".
Proof. vm_compute. reflexivity. Qed.

(** Calls without a context, input or output are refused and change nothing. *)
Theorem C01_null_arguments lw md bytes out :
  afs_sha1_init None = (CRYPT_NOP, None) /\ afs_sha1_process lw None bytes = (CRYPT_NOP, None) /\
  afs_sha1_process lw md None = (CRYPT_NOP, md) /\ afs_sha1_done lw None out = (CRYPT_NOP, None) /\
  afs_sha1_done lw md false = (CRYPT_NOP, None).
Proof.
  repeat split; try reflexivity; destruct md; reflexivity.
Qed.

(** C02. *)
Theorem C02_sha256_is_fips lw junk pieces :
  long_width lw -> length (h_buf junk) = 64%nat ->
  Forall message pieces -> Z.of_nat (length (concat pieces)) < 2 ^ 61 ->
  exists md0 md,
    afs_sha256_init (Some junk) = (CRYPT_OK, md0) /\ fed (afs_sha256_process lw) md0 pieces md /\
    afs_sha256_done lw md true = (CRYPT_OK, Some (SHA256 (concat pieces))).
Proof.
  intros Hl Hj Mp Hs. assert (Hlw : 32 <= lw) by (destruct Hl; lia).
  destruct (init256_absorbed junk Hj) as (md0 & E0 & H0).
  destruct (fed256 lw pieces Hlw md0 [] H0) as (md & F & H1); [constructor|exact Mp|cbn [app]; lia|].
  exists (Some md0), (Some md). split; [exact E0|]. split; [exact F|].
  apply done256_absorbed; auto; [apply pieces_message, Mp|]. cbn [app]. lia.
Qed.

Example C02_witness :
  let pieces := [s2z "ab"; s2z "c"] in
  Forall message pieces /\ Z.of_nat (length (concat pieces)) < 2 ^ 61 /\
  hexadecimal (SHA256 (concat pieces))
  = s2z "ba7816bf8f01cfea414140de5dae2223b00361a396177a9cb410ff61f20015ad".
Proof.
  split; [|split; [cbn; lia | vm_compute; reflexivity]].
  repeat (constructor; [repeat (constructor; [cbn; lia|]); constructor|]). constructor.
Qed.
Example C02_vector_two_blocks :
  hexadecimal (SHA256 (s2z "abcdbcdecdefdefgefghfghighijhijkijkljklmklmnlmnomnopnopq"))
  = s2z "248d6a61d20638b8e5c026930c3e6039a33ce45964ff2167f6ecedd419db06c1".
Proof. vm_compute. reflexivity. Qed.

Theorem C02_null_arguments lw md bytes out :
  afs_sha256_init None = (CRYPT_NOP, None) /\ afs_sha256_process lw None bytes = (CRYPT_ERROR, None) /\
  afs_sha256_process lw md None = (CRYPT_ERROR, md) /\ afs_sha256_done lw None out = (CRYPT_ERROR, None) /\
  afs_sha256_done lw md false = (CRYPT_ERROR, None).
Proof.
  repeat split; try reflexivity; destruct md; reflexivity.
Qed.

(** Bytes [start, start + size) of a file. *)
Definition byte_range (content : list Z) (start size : Z) : list Z :=
  firstn (Z.to_nat size) (skipn (Z.to_nat start) content).

Definition no_read_error (rd : reader) : Prop := forall k, error_at rd k = false.

(** C03: the checksum of a range inside the file is the hexadecimal digest of exactly that range,
    however the reads are split. *)
Theorem C03_range lw junk rd name content start size :
  long_width lw -> length junk = 64%nat -> no_read_error rd ->
  message content -> Z.of_nat (length content) < 2 ^ 61 ->
  0 <= start -> 0 <= size -> start + size <= Z.of_nat (length content) ->
  afs_sha1_sum2 lw junk rd (Some name) (Some content) start size
  = Ok (Some (hexadecimal (SHA1 (byte_range content start size)))) /\
  afs_sha256_sum2 lw junk rd (Some name) (Some content) start size
  = Ok (Some (hexadecimal (SHA256 (byte_range content start size)))).
Proof.
  intros Hl Hj Hr Mc Hlen H1 H2 H3. assert (Hlw : 32 <= lw) by (destruct Hl; lia).
  unfold byte_range.
  replace (Z.to_nat size) with (Z.to_nat (if size =? -1 then Z.of_nat (length content) - start else size))
    by (destruct (Z.eqb_spec size (-1)); lia).
  split.
  - apply (sum2_range _ _ _ _ absorbed1); auto; try lia.
    + exact init1_absorbed.
    + intros. apply process1_absorbed; assumption.
    + intros. apply done1_absorbed; assumption.
    + intros. split; [apply SHA1_length | apply digest_bytes].
  - apply (sum2_range _ _ _ _ absorbed256); auto; try lia.
    + exact init256_absorbed.
    + intros. apply process256_absorbed; assumption.
    + intros. apply done256_absorbed; assumption.
    + intros. split; [apply SHA256_length | apply digest_bytes].
Qed.

(** Size -1: from [start] to the end; the one-argument functions: the whole file. *)
Theorem C03_to_end lw junk rd name content start :
  long_width lw -> length junk = 64%nat -> no_read_error rd ->
  message content -> Z.of_nat (length content) < 2 ^ 61 ->
  0 <= start <= Z.of_nat (length content) ->
  afs_sha1_sum2 lw junk rd (Some name) (Some content) start (-1)
  = Ok (Some (hexadecimal (SHA1 (skipn (Z.to_nat start) content)))) /\
  afs_sha256_sum2 lw junk rd (Some name) (Some content) start (-1)
  = Ok (Some (hexadecimal (SHA256 (skipn (Z.to_nat start) content)))).
Proof.
  intros Hl Hj Hr Mc Hlen H1. assert (Hlw : 32 <= lw) by (destruct Hl; lia).
  replace (skipn (Z.to_nat start) content) with
    (firstn (Z.to_nat (if -1 =? -1 then Z.of_nat (length content) - start else -1))
            (skipn (Z.to_nat start) content)).
  2: { cbn [Z.eqb Pos.eqb]. apply firstn_all2. rewrite skipn_length. lia. }
  split.
  - apply (sum2_range _ _ _ _ absorbed1); auto.
    + exact init1_absorbed.
    + intros. apply process1_absorbed; assumption.
    + intros. apply done1_absorbed; assumption.
    + intros. split; [apply SHA1_length | apply digest_bytes].
  - apply (sum2_range _ _ _ _ absorbed256); auto.
    + exact init256_absorbed.
    + intros. apply process256_absorbed; assumption.
    + intros. apply done256_absorbed; assumption.
    + intros. split; [apply SHA256_length | apply digest_bytes].
Qed.

Theorem C03_whole_file lw junk rd name content :
  long_width lw -> length junk = 64%nat -> no_read_error rd ->
  message content -> Z.of_nat (length content) < 2 ^ 61 ->
  afs_sha1_sum1 lw junk rd (Some name) (Some content) = Ok (Some (hexadecimal (SHA1 content))) /\
  afs_sha256_sum1 lw junk rd (Some name) (Some content) = Ok (Some (hexadecimal (SHA256 content))).
Proof.
  intros. unfold afs_sha1_sum1, afs_sha256_sum1.
  apply (C03_to_end lw junk rd name content 0); auto. lia.
Qed.

(** No name or no such file: no string. *)
Theorem C03_no_string lw junk rd name content start size :
  afs_sha1_sum2 lw junk rd None content start size = Ok None /\
  afs_sha256_sum2 lw junk rd None content start size = Ok None /\
  afs_sha1_sum2 lw junk rd name None start size = Ok None /\
  afs_sha256_sum2 lw junk rd name None start size = Ok None.
Proof. destruct name; repeat split; reflexivity. Qed.

(** C44: a range that runs past the end, or a negative start, gives no string (the sums the code
    forms being representable).  Missing: see the three refutations below. *)
Theorem C44_outside_partial lw junk rd name content start size :
  is_i64 (start + size) -> is_i64 size -> Z.of_nat (length content) - start < 2 ^ 63 ->
  start < 0 \/ start + size > Z.of_nat (length content) ->
  afs_sha1_sum2 lw junk rd (Some name) (Some content) start size = Ok None /\
  afs_sha256_sum2 lw junk rd (Some name) (Some content) start size = Ok None.
Proof.
  intros H1 H2 H3 [H4|H4]; split.
  - apply sum2_negative; assumption.
  - apply sum2_negative; assumption.
  - apply sum2_outside; assumption.
  - apply sum2_outside; assumption.
Qed.

Definition plain_reader : reader := Reader (fun _ => O) (fun _ => false) 0.
Definition three_at_a_time : reader := Reader (fun _ => 3%nat) (fun _ => false) 5.

Example C03_witness :
  no_read_error three_at_a_time /\ message (s2z "xxabcyy") /\
  byte_range (s2z "xxabcyy") 2 3 = s2z "abc" /\
  afs_sha1_sum2 64 (repeat 7 64) three_at_a_time (Some (s2z "f")) (Some (s2z "xxabcyy")) 2 3
  = Ok (Some (s2z "a9993e364706816aba3e25717850c26c9cd0d89d")) /\
  afs_sha1_sum2 64 (repeat 7 64) plain_reader (Some (s2z "f")) (Some (s2z "xxabcyy")) 2 6 = Ok None.
Proof.
  split; [intro; reflexivity|]. split; [repeat (constructor; [cbn; lia|]); constructor|].
  split; [reflexivity|]. split; vm_compute; reflexivity.
Qed.

(** C44 is not true as stated: with size -1 a start one past the end is accepted and gives
    the digest of no bytes; a size below -1 is not refused, and overruns the read buffer. *)
Theorem C44_start_after_end_refuted :
  afs_sha1_sum2 64 (repeat 0 64) plain_reader (Some (s2z "f")) (Some (s2z "abc")) 4 (-1)
  = Ok (Some (hexadecimal (SHA1 []))).
Proof. vm_compute. reflexivity. Qed.

Theorem C44_negative_size_refuted content size :
  (512 < length content)%nat -> - 2 ^ 63 <= size < -1 -> Z.of_nat (length content) < 2 ^ 61 ->
  Z.of_nat (length content) < 2 ^ 64 + size ->
  afs_sha1_sum2 64 (repeat 0 64) plain_reader (Some (s2z "f")) (Some content) 0 size = UB /\
  afs_sha256_sum2 64 (repeat 0 64) plain_reader (Some (s2z "f")) (Some content) 0 size = UB.
Proof.
  intros Hc Hs Hl Hb. unfold afs_sha1_sum2, afs_sha256_sum2, sum2, sum2_private.
  replace ((- 2 ^ 63 <=? 0 + size) && (0 + size <? 2 ^ 63)) with true
    by (symmetry; apply andb_true_iff; rewrite Z.leb_le, Z.ltb_lt; lia).
  cbn [negb].
  replace (0 + size >? Z.of_nat (length content)) with false
    by (symmetry; rewrite Z.gtb_ltb; apply Z.ltb_ge; lia).
  replace (size =? -1) with false by (symmetry; apply Z.eqb_neq; lia).
  replace ((- 2 ^ 63 <=? size) && (size <? 2 ^ 63)) with true
    by (symmetry; apply andb_true_iff; rewrite Z.leb_le, Z.ltb_lt; lia).
  cbn [negb Z.ltb Z.compare Z.to_nat skipn].
  assert (U : u64 (if size >? 512 then 512 else size) = 2 ^ 64 + size).
  { replace (size >? 512) with false by (symmetry; rewrite Z.gtb_ltb; apply Z.ltb_ge; lia).
    unfold u64. rewrite <- (Z.mod_add _ 1) by lia. rewrite Z.mod_small; lia. }
  assert (G : forall process done k md, hash_loop process done (S (length content)) plain_reader k md content size = UB).
  { intros process done k md. cbn [hash_loop].
    replace (size =? 0) with false by (symmetry; apply Z.eqb_neq; lia). rewrite U.
    unfold fread. cbn [error_at plain_reader short].
    replace (Z.to_nat (Z.min (2 ^ 64 + size) (Z.of_nat (length content)))) with (length content) by lia.
    rewrite firstn_all. replace (512 <? length content)%nat with true by (symmetry; apply Nat.ltb_lt; lia).
    reflexivity. }
  unfold hash_filehandle. cbn [afs_sha1_init afs_sha256_init negb Z.eqb CRYPT_OK].
  rewrite !G. split; reflexivity.
Qed.

(** A read error is not reported: the string is made from memory that was never written. *)
Theorem C44_read_error_refuted :
  afs_sha1_sum2 64 (repeat 0 64) (Reader (fun _ => O) (fun _ => true) 0) (Some (s2z "f")) (Some (s2z "abc")) 0 3
  = UB.
Proof. vm_compute. reflexivity. Qed.

(** C04: two lower-case hexadecimal digits per byte, and different digests give different strings. *)
Theorem C04_hex_string digest :
  length digest = 20%nat -> message digest ->
  afs_sha1_hash_to_hex_string (Some digest) true = Ok (CRYPT_OK, Some (hexadecimal digest)) /\
  length (hexadecimal digest) = 40%nat /\ Forall (fun c => In c hex_digits) (hexadecimal digest).
Proof.
  intros HL HM. split; [|split].
  - unfold afs_sha1_hash_to_hex_string. rewrite HL. cbn [Nat.ltb Nat.leb].
    rewrite <- (hex_bytes _ HM), <- (flat_map_seq_get hex2), HL. reflexivity.
  - assert (G : forall l, length (hexadecimal l) = (2 * length l)%nat).
    { induction l as [|x l IH]; [reflexivity|].
      unfold hexadecimal in *. cbn [flat_map app length]. rewrite IH. lia. }
    rewrite G, HL. reflexivity.
  - clear HL. induction HM as [|c l Hc Hl IH]; [constructor|].
    unfold hexadecimal in *. cbn [flat_map app].
    assert (B : forall n, 0 <= n < 16 -> In (nth (Z.to_nat n) hex_digits 0) hex_digits).
    { intros n Hn. apply nth_In. change (length hex_digits) with 16%nat. lia. }
    constructor; [apply B; split; [apply Z.div_pos; lia | apply Z.div_lt_upper_bound; lia]|].
    constructor; [apply B, Z.mod_pos_bound; lia|]. exact IH.
Qed.

Theorem C04_injective a b :
  message a -> message b -> hexadecimal a = hexadecimal b -> a = b.
Proof.
  assert (D : NoDup hex_digits).
  { repeat (constructor; [cbn [In]; lia|]). constructor. }
  assert (B : forall n m, 0 <= n < 16 -> 0 <= m < 16 ->
    nth (Z.to_nat n) hex_digits 0 = nth (Z.to_nat m) hex_digits 0 -> n = m).
  { intros n m Hn Hm E. rewrite NoDup_nth in D. apply D in E; change (length hex_digits) with 16%nat; lia. }
  intros Ha. revert b. induction Ha as [|x a Hx Ha IH]; intros b Hb E.
  - destruct b; [reflexivity|discriminate E].
  - destruct b as [|y b]; [discriminate E|]. inversion Hb as [|? ? Hy Hb']; subst.
    unfold hexadecimal in E. cbn [flat_map app] in E. injection E as E1 E2 E3.
    apply B in E1; [|split; [apply Z.div_pos; lia|apply Z.div_lt_upper_bound; lia]
                    |split; [apply Z.div_pos; lia|apply Z.div_lt_upper_bound; lia]].
    apply B in E2; [|apply Z.mod_pos_bound; lia|apply Z.mod_pos_bound; lia].
    f_equal; [|apply IH; assumption].
    rewrite (Z.div_mod x 16), (Z.div_mod y 16), E1, E2 by lia. reflexivity.
Qed.

Example C04_witness : hexadecimal [0; 255; 10; 171] = s2z "00ff0aab".
Proof. reflexivity. Qed.

Print Assumptions C01_sha1_is_fips.
Print Assumptions C01_null_arguments.
Print Assumptions C02_sha256_is_fips.
Print Assumptions C02_null_arguments.
Print Assumptions C03_range.
Print Assumptions C03_to_end.
Print Assumptions C03_whole_file.
Print Assumptions C03_no_string.
Print Assumptions C44_outside_partial.
Print Assumptions C44_start_after_end_refuted.
Print Assumptions C44_negative_size_refuted.
Print Assumptions C44_read_error_refuted.
Print Assumptions C04_hex_string.
Print Assumptions C04_injective.
