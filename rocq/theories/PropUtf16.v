(** C53: what a UTF-16 file with an unreadable character is read as. *)
From Verif Require Import CBase CBaseProofs XmlEntity XmlModel SpecXml Utf8Proofs FileModel SpecFile FileProofs PropFile.
Definition unreadable16 (c : Z) : Prop := 65536 <= c <= 1114111 /\ c mod 1024 = 1023.
Lemma unread_pair c : unreadable16 c -> pair_tok (55296 + (c - 65536) / 1024) (56320 + (c - 65536) mod 1024) = Bad.
Proof.
  intros (R & M). replace ((c - 65536) mod 1024) with 1023; [reflexivity|]. replace (c - 65536) with (c + (-64) * 1024) by lia. now rewrite Z.mod_add.
Qed.
Lemma unread_good c : unreadable16 c -> good_cp c. Proof. intros (R & M). unfold good_cp. lia. Qed.
Lemma be_cut pre c post : Forall (fun c => good_cp c /\ scalar c /\ readable16 c) pre -> unreadable16 c ->
  exists rest, ftok16be (flat_map (fun w => [w / 256; w mod 256]) (flat_map rfc_utf16 (pre ++ c :: post))) = map Ch pre ++ Bad :: rest.
Proof.
  intros F U. induction F as [|x l (G & N & R) _ (rest & IH)].
  - eexists. cbn [flat_map app map]. unfold rfc_utf16 at 1. destruct (c <? 65536) eqn:L; [unfold unreadable16 in U; lia|]. cbn [flat_map app]. rewrite ftok16be_cons, <- !word_be.
    destruct (unit_high c (unread_good c U)) as (B & H); [lia|]. cbv zeta in *. rewrite B, H, unread_pair by assumption. reflexivity.
  - exists rest. cbn [flat_map map app]. rewrite flat_map_app. unfold rfc_utf16 at 1. destruct (x <? 65536) eqn:L.
    + cbn [flat_map app]. rewrite ftok16be_cons, <- word_be. destruct (unit_low x G N) as (B & H); [lia|]. cbv zeta. rewrite B, H. now rewrite IH.
    + cbn [flat_map app]. rewrite ftok16be_cons, <- !word_be. destruct (unit_high x G) as (B & H); [lia|]. cbv zeta in *. rewrite B, H.
      rewrite pair_good by (unfold good_cp, readable16 in *; lia). now rewrite IH.
Qed.
Lemma le_cut pre c post : Forall (fun c => good_cp c /\ scalar c /\ readable16 c) pre -> unreadable16 c ->
  exists rest, ftok16le (flat_map (fun w => [w mod 256; w / 256]) (flat_map rfc_utf16 (pre ++ c :: post))) = map Ch pre ++ Bad :: rest.
Proof.
  intros F U. induction F as [|x l (G & N & R) _ (rest & IH)].
  - eexists. cbn [flat_map app map]. unfold rfc_utf16 at 1. destruct (c <? 65536) eqn:L; [unfold unreadable16 in U; lia|]. cbn [flat_map app]. rewrite ftok16le_cons, <- !word_le.
    destruct (unit_high c (unread_good c U)) as (B & H); [lia|]. cbv zeta in *. rewrite B, H, unread_pair by assumption. reflexivity.
  - exists rest. cbn [flat_map map app]. rewrite flat_map_app. unfold rfc_utf16 at 1. destruct (x <? 65536) eqn:L.
    + cbn [flat_map app]. rewrite ftok16le_cons, <- word_le. destruct (unit_low x G N) as (B & H); [lia|]. cbv zeta. rewrite B, H. now rewrite IH.
    + cbn [flat_map app]. rewrite ftok16le_cons, <- !word_le. destruct (unit_high x G) as (B & H); [lia|]. cbv zeta in *. rewrite B, H.
      rewrite pair_good by (unfold good_cp, readable16 in *; lia). now rewrite IH.
Qed.
(** Every such character: a document with it in a text is read without that text. *)
Theorem C53_every_low_surrogate_refuted c : unreadable16 c -> let cps := s2z "<a>" ++ [c] ++ s2z "</a>" in
  load_bytes (flat_map rfc_utf8 cps) = Ret (Some (Elem (s2z "a") [] [Opaque (rfc_utf8 c)])) /\
  load_bytes (utf16be cps) = Ret (Some (Elem (s2z "a") [] [])) /\ load_bytes (utf16le cps) = Ret (Some (Elem (s2z "a") [] [])).
Proof.
  intros U cps. pose proof U as (R & M). assert (A : forall s, forallb (fun c => (32 <=? c) && (c <? 128)) s = true -> Forall (fun c => good_cp c /\ scalar c /\ readable16 c) s).
  { intros s H. apply Forall_forall. intros x I. rewrite forallb_forall in H. specialize (H x I). unfold good_cp, scalar, readable16. lia. }
  assert (X1 : c =? 60 = false) by lia. assert (X2 : c =? 38 = false) by lia. assert (X3 : mxml_isspace c = false) by (unfold mxml_isspace; lia).
  split; [|split].
  - unfold load_bytes. rewrite ftok8_text.
    + set (rest := map Ch (s2z "</a>")). set (st0 := mkP [] None [] false). set (st1 := mkP [mkFrame (s2z "a") [] []] None [] true).
      change (run_parser 9 st0 (map Ch (s2z "<a>") ++ Ch c :: rest) = Ret (Some (Elem (s2z "a") [] [Opaque (rfc_utf8 c)]))).
      assert (S1 : step st0 (map Ch (s2z "<a>") ++ Ch c :: rest) = Ret (Go st1 (Ch c :: rest))) by reflexivity.
      assert (S2 : step st1 (Ch c :: rest) = Ret (Go (mkP (stack st1) None (rfc_utf8 c) true) rest)).
      { unfold step. rewrite X1, X2, X3. cbn. rewrite (utf8_rfc c) by lia. reflexivity. }
      assert (NE : rfc_utf8 c <> []) by (unfold rfc_utf8; destruct (c <? 128), (c <? 2048), (c <? 65536); discriminate).
      cbn [run_parser]. rewrite S1. cbn [rbind]. rewrite S2. cbn [rbind]. generalize dependent (rfc_utf8 c). intros [|x l] _ NE; [now elim NE|]. reflexivity.
    + assert (G : forall s, Forall (fun c => good_cp c /\ scalar c /\ readable16 c) s -> Forall good_cp s) by (intros s H; eapply Forall_impl; [|exact H]; tauto).
      unfold cps. apply Forall_app; split; [now apply G, A|]. apply Forall_app; split; [constructor; [now apply unread_good|constructor]|now apply G, A].
  - unfold load_bytes, cps, utf16be. destruct (be_cut (s2z "<a>") c (s2z "</a>") (A (s2z "<a>") eq_refl) U) as (rest & E).
    change (s2z "<a>" ++ [c] ++ s2z "</a>") with (s2z "<a>" ++ c :: s2z "</a>") in *. 
    change (ftok8 (254 :: 255 :: ?x)) with (ftok16be x). rewrite E. reflexivity.
  - unfold load_bytes, cps, utf16le. destruct (le_cut (s2z "<a>") c (s2z "</a>") (A (s2z "<a>") eq_refl) U) as (rest & E).
    change (s2z "<a>" ++ [c] ++ s2z "</a>") with (s2z "<a>" ++ c :: s2z "</a>") in *. 
    change (ftok8 (255 :: 254 :: ?x)) with (ftok16le x). rewrite E. reflexivity.
Qed.
Example C53_unreadable : unreadable16 66559 /\ unreadable16 1114111.
Proof. unfold unreadable16. split; (split; [lia|reflexivity]). Qed.
Print Assumptions C53_every_low_surrogate_refuted.
