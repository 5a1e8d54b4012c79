(** The public SHA functions and the checksums of files. *)
From Verif Require Import CBase ShaModel SpecSha ShaProofs ShaProofs2 ShaProofs3.
Notation length := List.length.
Notation concat := List.concat.

Lemma flat_map_seq_get {B} (f : Z -> list B) l :
  flat_map (fun i => f (get l i)) (seq 0 (length l)) = flat_map f l.
Proof.
  assert (G : forall pre l, flat_map (fun i => f (get (pre ++ l) i)) (seq (length pre) (length l)) = flat_map f l).
  { intros pre l0. revert pre. induction l0 as [|x l0 IH]; intros pre; [reflexivity|].
    cbn [length seq flat_map]. unfold get at 1. rewrite app_nth2, Nat.sub_diag by lia. cbn [nth]. f_equal.
    specialize (IH (pre ++ [x])). rewrite app_length in IH. cbn [length] in IH.
    rewrite Nat.add_1_r in IH. rewrite <- app_assoc in IH. exact IH. }
  exact (G [] l).
Qed.

Lemma store_words l : flat_map store32h l = flat_map (big_endian 4) (map u32 l).
Proof. induction l as [|x l IH]; [reflexivity|]. cbn [map flat_map]. rewrite store32h_spec, IH. reflexivity. Qed.

Section Public.
Variable lw : Z.
Hypothesis Hlw : 32 <= lw.

Definition absorbed1 := absorbed next_hash1 5 H1_0.
Definition absorbed256 := absorbed next_hash256 8 H256_0.

Lemma init1_absorbed junk : length (h_buf junk) = 64%nat ->
  exists md, afs_sha1_init (Some junk) = (CRYPT_OK, Some md) /\ absorbed1 md [].
Proof.
  intros H. eexists. split; [reflexivity|]. exists [], []. cbn [h_length h_state h_curlen h_buf].
  repeat (split; [first [reflexivity | exact H | cbn [length]; lia | constructor]|]). reflexivity.
Qed.

Lemma init256_absorbed junk : length (h_buf junk) = 64%nat ->
  exists md, afs_sha256_init (Some junk) = (CRYPT_OK, Some md) /\ absorbed256 md [].
Proof.
  intros H. eexists. split; [reflexivity|]. exists [], []. cbn [h_length h_state h_curlen h_buf].
  repeat (split; [first [reflexivity | exact H | cbn [length]; lia | constructor]|]). reflexivity.
Qed.

Lemma curlen_small next n H0 md m : absorbed next n H0 md m -> 0 <= h_curlen md < 64.
Proof. intros (bs & tail & _ & _ & Ht & _ & _ & _ & Hc & _). lia. Qed.

Lemma process1_absorbed md m bytes :
  absorbed1 md m -> message m -> message bytes ->
  exists md', afs_sha1_process lw (Some md) (Some bytes) = (CRYPT_OK, Some md') /\ absorbed1 md' (m ++ bytes).
Proof.
  intros Hm Mm Mb. eexists. unfold afs_sha1_process.
  pose proof (curlen_small _ _ _ _ _ Hm).
  replace (h_curlen md >? 64) with false by (symmetry; rewrite Z.gtb_ltb; apply Z.ltb_ge; lia).
  split; [reflexivity|].
  apply process_loop_absorbs; auto. intros st b Hs Hb. apply compress1_spec; assumption.
Qed.

Lemma process256_absorbed md m bytes :
  absorbed256 md m -> message m -> message bytes -> 8 * Z.of_nat (length (m ++ bytes)) < 2 ^ 64 ->
  exists md', afs_sha256_process lw (Some md) (Some bytes) = (CRYPT_OK, Some md') /\ absorbed256 md' (m ++ bytes).
Proof.
  intros Hm Mm Mb Hsmall. eexists. unfold afs_sha256_process.
  pose proof (curlen_small _ _ _ _ _ Hm).
  replace (h_curlen md >? 64) with false by (symmetry; rewrite Z.gtb_ltb; apply Z.ltb_ge; lia).
  assert (Hl : exists k, h_length md = 512 * k /\ 0 <= 64 * k <= Z.of_nat (length m)).
  { destruct Hm as (bs & tail & -> & Hbs & Ht & Hlen & _). exists (Z.of_nat (length bs)).
    rewrite !app_length in *. rewrite concat_length64 in * by assumption.
    rewrite Hlen. unfold u64. rewrite Z.mod_small; lia. }
  destruct Hl as (k & Hl & Hk). rewrite app_length in Hsmall.
  replace (u64 (h_length md + Z.of_nat (length bytes)) <? h_length md) with false.
  2: { symmetry. apply Z.ltb_ge. unfold u64. rewrite Z.mod_small; lia. }
  split; [reflexivity|].
  apply process_loop_absorbs; auto. intros st b Hs Hb. apply compress256_spec; assumption.
Qed.

Lemma done1_absorbed md m :
  absorbed1 md m -> message m -> 8 * Z.of_nat (length m) < 2 ^ 64 ->
  afs_sha1_done lw (Some md) true = (CRYPT_OK, Some (SHA1 m)).
Proof.
  intros Hm Mm Hs. unfold afs_sha1_done. cbn [negb].
  pose proof (curlen_small _ _ _ _ _ Hm).
  replace (h_curlen md >=? 64) with false by (symmetry; rewrite Z.geb_leb; apply Z.leb_gt; lia).
  destruct (finish_spec lw Hlw (compress1 lw) next_hash1 5
              (fun st b Hs Hb => compress1_spec lw Hlw st b Hs Hb) H1_0 md m Hm Mm Hs) as [F L].
  do 2 f_equal. rewrite <- L. rewrite (flat_map_seq_get store32h), store_words, F. reflexivity.
Qed.

Lemma done256_absorbed md m :
  absorbed256 md m -> message m -> 8 * Z.of_nat (length m) < 2 ^ 64 ->
  afs_sha256_done lw (Some md) true = (CRYPT_OK, Some (SHA256 m)).
Proof.
  intros Hm Mm Hs. unfold afs_sha256_done. cbn [negb].
  pose proof (curlen_small _ _ _ _ _ Hm).
  replace (h_curlen md >=? 64) with false by (symmetry; rewrite Z.geb_leb; apply Z.leb_gt; lia).
  destruct (finish_spec lw Hlw (compress256 lw) next_hash256 8
              (fun st b Hs Hb => compress256_spec lw Hlw st b Hs Hb) H256_0 md m Hm Mm Hs) as [F L].
  do 2 f_equal. rewrite <- L. rewrite (flat_map_seq_get store32h), store_words, F. reflexivity.
Qed.

Lemma be4_length l : length (flat_map (big_endian 4) l) = (4 * length l)%nat.
Proof. induction l as [|x l IH]; [reflexivity|]. cbn [flat_map]. rewrite app_length, IH. cbn [length]. 
  change (length (big_endian 4 x)) with 4%nat. lia. Qed.

Lemma be4_message l : message (flat_map (big_endian 4) l).
Proof.
  induction l as [|x l IH]; [constructor|]. cbn [flat_map]. apply message_app. split; [apply message_be|exact IH].
Qed.

Lemma digest_bytes m : message (SHA1 m) /\ message (SHA256 m).
Proof. split; apply be4_message. Qed.

(* ------------------------------------------------------------- digest sizes *)
Lemma step1_length W s t : length (step1 W s t) = length s.
Proof. unfold step1. destruct s as [|a [|b [|c [|d [|e [|]]]]]]; reflexivity. Qed.
Lemma step256_length W s t : length (step256 W s t) = length s.
Proof. unfold step256. destruct s as [|a [|b [|c [|d [|e [|f [|g [|h [|]]]]]]]]]; reflexivity. Qed.
Lemma fold_length {A} (f : list Z -> A -> list Z) (Hf : forall s a, length (f s a) = length s) l : forall s,
  length (fold_left f l s) = length s.
Proof. induction l as [|x l IH]; intros s; [reflexivity|]. cbn [fold_left]. rewrite IH. apply Hf. Qed.
Lemma add_words_length a b : length b = length a -> length (add_words a b) = length a.
Proof. intros H. unfold add_words. rewrite map_length, combine_length. lia. Qed.
Lemma next1_length h b : length (next_hash1 h b) = length h.
Proof. unfold next_hash1. apply add_words_length, fold_length. intros. apply step1_length. Qed.
Lemma next256_length h b : length (next_hash256 h b) = length h.
Proof. unfold next_hash256. apply add_words_length, fold_length. intros. apply step256_length. Qed.
Lemma SHA1_length m : length (SHA1 m) = 20%nat.
Proof. unfold SHA1. rewrite be4_length, fold_length by (intros; apply next1_length). reflexivity. Qed.
Lemma SHA256_length m : length (SHA256 m) = 32%nat.
Proof. unfold SHA256. rewrite be4_length, fold_length by (intros; apply next256_length). reflexivity. Qed.

(* -------------------------------------------------------------------- hex *)
Lemma hex_digit_spec n : 0 <= n < 16 -> hex_digit n = nth (Z.to_nat n) hex_digits 0.
Proof.
  intros H.
  assert (G : forall k, (k < 16)%nat -> hex_digit (Z.of_nat k) = nth k hex_digits 0).
  { intros k Hk. do 16 (destruct k as [|k]; [reflexivity|]). lia. }
  rewrite <- (Z2Nat.id n) at 1 by lia. apply G. lia.
Qed.

Lemma hex2_spec c : 0 <= c < 256 -> hex2 c = hexadecimal [c].
Proof.
  intros H. unfold hex2, hexadecimal. cbn [flat_map app].
  rewrite !hex_digit_spec; [reflexivity| |].
  - apply Z.mod_pos_bound. lia.
  - split; [apply Z.div_pos; lia | apply Z.div_lt_upper_bound; lia].
Qed.

Lemma hex_bytes l : message l -> flat_map hex2 l = hexadecimal l.
Proof.
  induction 1 as [|c l Hc Hl IH]; [reflexivity|]. cbn [flat_map]. rewrite IH, hex2_spec by assumption.
  unfold hexadecimal. cbn [flat_map app]. reflexivity.
Qed.

(* ------------------------------------------------------------------ files *)
Section File.
Variable init : option hash_state -> Z * option hash_state.
Variable process : option hash_state -> option (list Z) -> Z * option hash_state.
Variable done : option hash_state -> bool -> Z * option (list Z).
Variable hashsize : nat.
Variable holds : hash_state -> list Z -> Prop.
Variable H : list Z -> list Z.
Hypothesis Hinit : forall junk, length (h_buf junk) = 64%nat ->
  exists md, init (Some junk) = (CRYPT_OK, Some md) /\ holds md [].
Hypothesis Hprocess : forall md m bytes, holds md m -> message m -> message bytes ->
  8 * Z.of_nat (length (m ++ bytes)) < 2 ^ 64 ->
  exists md', process (Some md) (Some bytes) = (CRYPT_OK, Some md') /\ holds md' (m ++ bytes).
Hypothesis Hdone : forall md m, holds md m -> message m -> 8 * Z.of_nat (length m) < 2 ^ 64 ->
  done (Some md) true = (CRYPT_OK, Some (H m)).
Hypothesis Hsize : forall m, length (H m) = hashsize /\ message (H m).

Lemma message_firstn n m : message m -> message (firstn n m).
Proof. unfold message. intros Hm. apply Forall_forall. intros x Hx. rewrite Forall_forall in Hm. apply Hm.
  rewrite <- (firstn_skipn n m). apply in_or_app. auto. Qed.
Lemma message_skipn n m : message m -> message (skipn n m).
Proof. unfold message. intros Hm. apply Forall_forall. intros x Hx. rewrite Forall_forall in Hm. apply Hm.
  rewrite <- (firstn_skipn n m). apply in_or_app. auto. Qed.

Lemma i64_small z : - 2 ^ 63 <= z < 2 ^ 63 -> i64 z = z.
Proof. intros Hz. unfold i64. rewrite Z.mod_small; lia. Qed.

Lemma firstn_split {A} n k (l : list A) : (n <= k)%nat -> firstn k l = firstn n l ++ firstn (k - n) (skipn n l).
Proof.
  revert k l. induction n as [|n IH]; intros k l Hk; cbn [firstn skipn app].
  - rewrite Nat.sub_0_r. reflexivity.
  - destruct k as [|k]; [lia|]. destruct l as [|x l]; cbn [firstn skipn app]; [rewrite firstn_nil; reflexivity|].
    cbn [Nat.sub]. f_equal. apply IH. lia.
Qed.

Lemma hash_loop_range rd (Hrd : forall k, error_at rd k = false) fuel : forall k md m rest size,
  holds md m -> message m -> message rest -> 8 * Z.of_nat (length (m ++ rest)) < 2 ^ 64 ->
  (length rest < fuel)%nat -> (size <= length rest)%nat ->
  hash_loop process done fuel rd k (Some md) rest (Z.of_nat size)
  = Ok (CRYPT_OK, Some (H (m ++ firstn size rest))).
Proof.
  induction fuel as [|fuel IH]; intros k md m rest size Hm Mm Mr Hsmall Hf Hs; [lia|].
  cbn [hash_loop].
  destruct (Z.eqb_spec (Z.of_nat size) 0) as [E|E].
  { assert (size = 0%nat) by lia. subst size. cbn [firstn]. rewrite app_nil_r.
    rewrite app_length in Hsmall. rewrite (Hdone md m) by (auto; lia). reflexivity. }
  rewrite app_length in Hsmall.
  set (mx := Nat.min size 512).
  replace (u64 (if Z.of_nat size >? 512 then 512 else Z.of_nat size)) with (Z.of_nat mx).
  2: { unfold mx. rewrite Z.gtb_ltb. unfold u64.
       destruct (Z.ltb_spec 512 (Z.of_nat size)); rewrite Z.mod_small; lia. }
  unfold fread. rewrite Hrd.
  replace (Z.to_nat (Z.min (Z.of_nat mx) (Z.of_nat (length rest)))) with mx by (unfold mx; lia).
  set (n := match short rd k with O => mx | S s => Nat.min (S s) mx end).
  assert (Hn : (1 <= n <= mx)%nat) by (unfold n, mx; destruct (short rd k); lia).
  assert (L : length (firstn n rest) = n) by (rewrite firstn_length; unfold mx in *; lia).
  rewrite L.
  replace (512 <? n)%nat with false by (symmetry; apply Nat.ltb_ge; unfold mx in *; lia).
  replace (n =? 0)%nat with false by (symmetry; apply Nat.eqb_neq; lia).
  assert (L2 : length (skipn n rest) = (length rest - n)%nat) by apply skipn_length.
  destruct (Hprocess md m (firstn n rest)) as (md' & -> & Hm').
  { exact Hm. } { exact Mm. } { apply message_firstn, Mr. } { rewrite app_length, L. unfold mx in *. lia. }
  cbn [negb Z.eqb CRYPT_OK].
  rewrite i64_small by lia.
  replace (Z.of_nat size - Z.of_nat n) with (Z.of_nat (size - n)) by (unfold mx in *; lia).
  rewrite IH with (m := m ++ firstn n rest).
  - rewrite <- app_assoc, <- firstn_split by (unfold mx in *; lia). reflexivity.
  - exact Hm'.
  - apply message_app. split; [exact Mm | apply message_firstn, Mr].
  - apply message_skipn, Mr.
  - rewrite !app_length, L, L2. unfold mx in *. lia.
  - rewrite L2. lia.
  - rewrite L2. lia.
Qed.

Lemma sum2_range junk rd name content start size :
  length junk = 64%nat -> (forall k, error_at rd k = false) ->
  message content -> Z.of_nat (length content) < 2 ^ 61 ->
  0 <= start <= Z.of_nat (length content) ->
  (0 <= size /\ start + size <= Z.of_nat (length content)) \/ size = -1 ->
  sum2 init process done hashsize junk rd (Some name) (Some content) start size
  = Ok (Some (hexadecimal (H (firstn (Z.to_nat (if size =? -1 then Z.of_nat (length content) - start else size))
                                      (skipn (Z.to_nat start) content))))).
Proof.
  intros Hj Hrd Mc Hlen Hstart Hsz. unfold sum2, sum2_private.
  replace ((- 2 ^ 63 <=? start + size) && (start + size <? 2 ^ 63)) with true.
  2: { symmetry. apply andb_true_iff. rewrite Z.leb_le, Z.ltb_lt. destruct Hsz; lia. }
  cbn [negb].
  replace (start + size >? Z.of_nat (length content)) with false
    by (symmetry; rewrite Z.gtb_ltb; apply Z.ltb_ge; destruct Hsz; lia).
  set (sz := if size =? -1 then Z.of_nat (length content) - start else size).
  assert (Hs : 0 <= sz /\ start + sz <= Z.of_nat (length content)).
  { unfold sz. destruct (Z.eqb_spec size (-1)); destruct Hsz; lia. }
  clearbody sz.
  replace ((- 2 ^ 63 <=? sz) && (sz <? 2 ^ 63)) with true.
  2: { symmetry. apply andb_true_iff. rewrite Z.leb_le, Z.ltb_lt. lia. }
  cbn [negb].
  replace (start <? 0) with false by (symmetry; apply Z.ltb_ge; lia).
  unfold hash_filehandle.
  destruct (Hinit (HashState 0 [] 0 junk)) as (md & -> & Hmd); [exact Hj|].
  cbn [negb Z.eqb CRYPT_OK].
  rewrite <- (Z2Nat.id sz) by lia.
  rewrite (hash_loop_range rd Hrd) with (m := []).
  - cbn [app]. rewrite Nat2Z.id. destruct (Hsize (firstn (Z.to_nat sz) (skipn (Z.to_nat start) content))) as [HL HM].
    do 2 f_equal. rewrite <- HL. rewrite (flat_map_seq_get hex2). apply hex_bytes, HM.
  - exact Hmd.
  - constructor.
  - apply message_skipn, Mc.
  - cbn [app]. rewrite skipn_length. lia.
  - lia.
  - rewrite skipn_length. lia.
Qed.

Lemma sum2_outside junk rd name content start size :
  is_i64 (start + size) -> start + size > Z.of_nat (length content) ->
  sum2 init process done hashsize junk rd (Some name) (Some content) start size = Ok None.
Proof.
  intros Hi Ho. unfold sum2, sum2_private, is_i64 in *.
  replace ((- 2 ^ 63 <=? start + size) && (start + size <? 2 ^ 63)) with true.
  2: { symmetry. apply andb_true_iff. rewrite Z.leb_le, Z.ltb_lt. lia. }
  cbn [negb].
  replace (start + size >? Z.of_nat (length content)) with true
    by (symmetry; rewrite Z.gtb_ltb; apply Z.ltb_lt; lia). reflexivity.
Qed.

Lemma sum2_negative junk rd name content start size :
  is_i64 (start + size) -> is_i64 size -> Z.of_nat (length content) - start < 2 ^ 63 -> start < 0 ->
  sum2 init process done hashsize junk rd (Some name) (Some content) start size = Ok None.
Proof.
  intros Hi Hs Hl Ho. unfold sum2, sum2_private, is_i64 in *.
  replace ((- 2 ^ 63 <=? start + size) && (start + size <? 2 ^ 63)) with true.
  2: { symmetry. apply andb_true_iff. rewrite Z.leb_le, Z.ltb_lt. lia. }
  cbn [negb]. destruct (start + size >? Z.of_nat (length content)); [reflexivity|].
  replace (start <? 0) with true by (symmetry; apply Z.ltb_lt; lia).
  set (sz := if size =? -1 then Z.of_nat (length content) - start else size).
  replace ((- 2 ^ 63 <=? sz) && (sz <? 2 ^ 63)) with true; [reflexivity|].
  symmetry. apply andb_true_iff. rewrite Z.leb_le, Z.ltb_lt. unfold sz. destruct (size =? -1); lia.
Qed.
End File.
End Public.
