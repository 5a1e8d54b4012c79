(** The tag string of a table-of-contents metadata source at the level of its buffer:
    afs_toc_metadata_source_get_tags, src/tocmetadatasource.c 617-655. *)
From Verif Require Import CBase CBaseProofs TocModel TocXmlModel SpecTocXml.

(** A zero-filled buffer: its capacity in bytes and the string it holds. *)
Record buffer := mkBuffer { buf_size : Z; buf_text : cstr }.
(** strcat: writes the string and its terminator behind the present text; UB beyond the capacity. *)
Definition strcat (b : buffer) (s : cstr) : outcome buffer :=
  let t := buf_text b ++ s in
  if Z.of_nat (List.length t) + 1 <=? buf_size b then Ok (mkBuffer (buf_size b) t) else UB.
(** 631-640: size_t arithmetic; the last tag has no separator. *)
Fixpoint tags_size (acc : Z) (l : list cstr) : Z :=
  match l with
  | [] => acc
  | x :: l' => let acc := u64 (acc + Z.of_nat (List.length x)) in
               tags_size (match l' with [] => acc | _ => u64 (acc + 1) end) l'
  end.
(** 645-652 *)
Fixpoint tags_fill (b : buffer) (l : list cstr) : outcome buffer :=
  match l with
  | [] => Ok b
  | x :: l' => obind (strcat b x) (fun b => match l' with [] => Ok b | _ => obind (strcat b (s2z ";")) (fun b => tags_fill b l') end)
  end.
(** 617-655; the result of malloc is assumed to be non-NULL. *)
Definition get_tags_buffer (tags : vec cstr) : outcome (option cstr) :=
  match tags with
  | None => Ok None
  | Some l => obind (tags_fill (mkBuffer (u64 (tags_size 0 l + 1)) []) l) (fun b => Ok (Some (buf_text b)))
  end.

(** * Proofs *)
Definition tags_length (l : list cstr) : Z := Z.of_nat (List.length (tags_string l)).
Lemma tags_length_cons x y l : tags_length (x :: y :: l) = Z.of_nat (List.length x) + 1 + tags_length (y :: l).
Proof. unfold tags_length. cbn [tags_string]. rewrite !app_length. change (List.length (s2z ";")) with 1%nat. lia. Qed.
Lemma tags_size_ok l : forall acc, 0 <= acc -> acc + tags_length l < 2^64 -> tags_size acc l = acc + tags_length l.
Proof.
  induction l as [|x l IH]; intros acc P H; [unfold tags_length; cbn; lia|]. destruct l as [|y l].
  - cbn [tags_size]. unfold tags_length in *. cbn [tags_string] in *. unfold u64. rewrite Z.mod_small; lia.
  - rewrite tags_length_cons in *. assert (0 <= tags_length (y :: l)) by (unfold tags_length; lia).
    cbn [tags_size]. cbn [tags_size] in IH. rewrite IH; unfold u64; rewrite ?(Z.mod_small (acc + _)) by lia; rewrite ?Z.mod_small by lia; lia.
Qed.
(** The check is exact: a buffer one byte too short is undefined behaviour. *)
Lemma strcat_iff n t s b : strcat (mkBuffer n t) s = Ok b <-> b = mkBuffer n (t ++ s) /\ Z.of_nat (List.length t) + Z.of_nat (List.length s) + 1 <= n.
Proof.
  unfold strcat. cbn [buf_text buf_size]. rewrite app_length. destruct (_ <=? n) eqn:E; split; intro H; try discriminate.
  - split; [congruence|lia].
  - now destruct H as (-> & _).
  - destruct H. lia.
Qed.
Lemma strcat_ok n t s : Z.of_nat (List.length t) + Z.of_nat (List.length s) + 1 <= n -> strcat (mkBuffer n t) s = Ok (mkBuffer n (t ++ s)).
Proof. intro H. unfold strcat. cbn [buf_text buf_size]. rewrite app_length. destruct (_ <=? n) eqn:E; [reflexivity|lia]. Qed.
Lemma tags_fill_ok l : forall n t, Z.of_nat (List.length t) + tags_length l + 1 <= n -> tags_fill (mkBuffer n t) l = Ok (mkBuffer n (t ++ tags_string l)).
Proof.
  induction l as [|x l IH]; intros n t H; [cbn; now rewrite app_nil_r|]. destruct l as [|y l].
  - cbn [tags_fill]. unfold tags_length in H. cbn [tags_string] in *. rewrite strcat_ok by lia. reflexivity.
  - rewrite tags_length_cons in H. assert (0 <= tags_length (y :: l)) by (unfold tags_length; lia).
    change (tags_fill (mkBuffer n t) (x :: y :: l)) with
      (obind (strcat (mkBuffer n t) x) (fun b => obind (strcat b (s2z ";")) (fun b => tags_fill b (y :: l)))).
    rewrite strcat_ok by lia. cbn [obind]. rewrite strcat_ok by (rewrite app_length; change (List.length (s2z ";")) with 1%nat; lia). cbn [obind].
    rewrite IH by (rewrite !app_length; change (List.length (s2z ";")) with 1%nat; lia).
    change (tags_string (x :: y :: l)) with (x ++ s2z ";" ++ tags_string (y :: l)). now rewrite !app_assoc.
Qed.
Lemma get_tags_buffer_ok l : tags_length l + 1 < 2^64 -> get_tags_buffer (Some l) = Ok (Some (tags_string l)).
Proof.
  intro H. unfold get_tags_buffer. assert (0 <= tags_length l) by (unfold tags_length; lia).
  rewrite tags_size_ok by lia. unfold u64. rewrite Z.mod_small by lia. rewrite tags_fill_ok by (cbn [List.length]; lia). reflexivity.
Qed.

(** * A function that meets the contract of boxing_string_split: the non-empty parts. *)
Fixpoint parts (cur : cstr) (s : cstr) : list cstr :=
  match s with
  | [] => match cur with [] => [] | _ => [cur] end
  | c :: s' => if c =? 59 then match cur with [] => parts [] s' | _ => cur :: parts [] s' end else parts (cur ++ [c]) s'
  end.
Definition split_parts (s : cstr) : list cstr := parts [] s.
Lemma parts_word x : forall cur r, ~ In 59 x -> parts cur (x ++ r) = parts (cur ++ x) r.
Proof.
  induction x as [|c x IH]; intros cur r H; [now rewrite app_nil_r|]. cbn [app parts]. destruct (c =? 59) eqn:E; [exfalso; apply H; left; lia|].
  rewrite IH by (intro K; apply H; now right). now rewrite <- app_assoc.
Qed.
Lemma split_parts_ok : splits split_parts.
Proof.
  intros l _ F. unfold split_parts. induction l as [|x l IH]; [reflexivity|]. inversion F as [|? ? (N & S) F']; subst. destruct l as [|y l].
  - cbn [tags_string]. rewrite <- (app_nil_r x) at 1. rewrite parts_word by exact S. cbn [app parts]. destruct x; [congruence|reflexivity].
  - change (tags_string (x :: y :: l)) with (x ++ s2z ";" ++ tags_string (y :: l)). rewrite parts_word by exact S. cbn [app].
    change (s2z ";" ++ tags_string (y :: l)) with (59 :: tags_string (y :: l)). cbn [parts]. change (59 =? 59) with true. cbv iota.
    rewrite (IH F'). destruct x; [congruence|reflexivity].
Qed.
