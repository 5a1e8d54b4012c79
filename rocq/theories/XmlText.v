(** What the writer produces is text in UTF-8. *)
From Verif Require Import CBase CBaseProofs XmlEntity XmlModel SpecXml EntityProofs Utf8Proofs XmlTermProofs TrimProofs XmlProofs.

Lemma ascii_text_by s : forallb (fun c => (32 <=? c) && (c <? 128)) s = true -> is_text s.
Proof. intro H. apply is_text_ascii. rewrite forallb_forall in H. apply Forall_forall. intros c I. specialize (H c I). lia. Qed.
Lemma is_text_cons c s : 32 <= c < 128 -> is_text s -> is_text (c :: s).
Proof. intros H T. change (c :: s) with ([c] ++ s). apply is_text_app; [|exact T]. apply is_text_ascii. constructor; [lia|constructor]. Qed.
Lemma blank_text s : blank s -> is_text s.
Proof. intro B. apply is_text_ascii. eapply Forall_impl; [|exact B]. cbv beta. intros. lia. Qed.
Lemma name_chars_text n : Forall name_char n -> is_text n.
Proof. intro F. apply is_text_ascii. eapply Forall_impl; [|exact F]. unfold name_char. intros. lia. Qed.
Lemma escape_text s : is_text s -> is_text (escape s).
Proof.
  revert s. apply text_ind_cps; [exact is_text_nil|]. intros c s G T IH. rewrite escape_app. apply is_text_app; [|exact IH].
  destruct (escape_cp c G) as [(_ & ->)|(E & P)].
  - exists [c]. split; [auto|]. cbn. now rewrite app_nil_r.
  - rewrite E. destruct P as [->|[->|[->| ->]]]; apply ascii_text_by; reflexivity.
Qed.
Lemma name_plain n : Forall name_char n -> Forall plain n.
Proof. apply Forall_impl. unfold name_char, plain. intros. lia. Qed.
Lemma write_name_text n : Forall name_char n -> is_text (write_name n).
Proof.
  intro F. unfold write_name. destruct n as [|q l]; [exact is_text_nil|]. destruct (is_quote q) eqn:Q; [|now apply name_chars_text].
  exfalso. inversion F as [|? ? H _]; subst. unfold is_quote in Q. unfold name_char in H. lia.
Qed.
Lemma write_tag_name_text n : Forall name_char n -> is_text (write_tag_name n).
Proof.
  intro F. unfold write_tag_name. pose proof (write_name_text n F) as W. pose proof (name_chars_text n F) as N.
  destruct (has_prefix COMMENT n || has_prefix CDATA n); destruct n as [|q l]; auto;
  (destruct q as [|p|p]; auto; do 6 (destruct p as [p|p|]; auto)).
Qed.
Lemma write_attrs_text a : attrs_ok a -> is_text (flat_map write_attr a).
Proof.
  intros (_ & F). induction F as [|(n, v) a ((N0 & N) & x & E & T) _ IH]; [exact is_text_nil|]. cbn [flat_map fst snd] in *. apply is_text_app; [|exact IH].
  subst v. unfold write_attr. cbn [fst snd]. apply is_text_cons; [lia|]. apply is_text_app; [now apply write_name_text|].
  do 2 (apply is_text_cons; [lia|]). apply is_text_app; [now apply escape_text|]. apply ascii_text_by. reflexivity.
Qed.
Lemma if_text (b : bool) x y : is_text x -> is_text y -> is_text (if b then x else y).
Proof. destruct b; auto. Qed.
Lemma wf_node_text ws : indenting ws -> forall t, wf t -> forall path, is_text (write_node ws path t).
Proof.
  intro I. fix IH 2. intros t W path. destruct W as [n a N A|n a s N A Z T|n a k ks N A F|p C].
  - cbn [write_node]. apply is_text_app; [apply blank_text, I|]. apply is_text_cons; [lia|]. apply is_text_app; [apply write_tag_name_text, N|].
    apply is_text_app; [now apply write_attrs_text|]. apply is_text_app; [|apply blank_text, I]. apply if_text; apply ascii_text_by; reflexivity.
  - cbn [write_node flat_map]. apply is_text_app; [apply blank_text, I|]. apply is_text_cons; [lia|]. apply is_text_app; [apply write_tag_name_text, N|].
    apply is_text_app; [now apply write_attrs_text|]. apply is_text_cons; [lia|]. apply is_text_app; [apply blank_text, I|].
    rewrite app_nil_r. apply is_text_app; [now apply escape_text|]. apply if_text; [exact is_text_nil|].
    apply is_text_app; [apply blank_text, I|]. do 2 (apply is_text_cons; [lia|]). apply is_text_app; [apply escape_text, name_chars_text, N|].
    apply is_text_cons; [lia|]. apply blank_text, I.
  - assert (K : is_text (flat_map (write_node ws (n :: path)) (k :: ks))).
    { revert F. generalize (k :: ks) as l. clear -IH. fix IHl 2. intros l F. destruct F as [|x l Wx F]; [exact is_text_nil|].
      cbn [flat_map]. apply is_text_app; [apply IH; exact Wx|apply IHl; exact F]. }
    cbn [write_node]. apply is_text_app; [apply blank_text, I|]. apply is_text_cons; [lia|]. apply is_text_app; [apply write_tag_name_text, N|].
    apply is_text_app; [now apply write_attrs_text|]. apply is_text_cons; [lia|]. apply is_text_app; [apply blank_text, I|].
    apply is_text_app; [exact K|]. apply if_text; [exact is_text_nil|].
    apply is_text_app; [apply blank_text, I|]. do 2 (apply is_text_cons; [lia|]). apply is_text_app; [apply escape_text, name_chars_text, N|].
    apply is_text_cons; [lia|]. apply blank_text, I.
  - destruct C as (T & _). unfold cdata_node. cbn [write_node flat_map app].
    apply is_text_app; [apply blank_text, I|]. apply is_text_cons; [lia|].
    change (write_tag_name (s2z "![CDATA[" ++ p ++ s2z "]]")) with (s2z "![CDATA[" ++ p ++ s2z "]]").
    apply is_text_app.
    + apply is_text_app; [apply ascii_text_by; reflexivity|]. apply is_text_app; [exact T|apply ascii_text_by; reflexivity].
    + apply is_text_app; [apply if_text; apply ascii_text_by; reflexivity|apply blank_text, I].
Qed.
Lemma nl_text (nl : bool) : is_text (if nl then [10] else []).
Proof. apply blank_text. destruct nl; repeat constructor. Qed.
Lemma saved_text ws nl t : indenting ws -> wf t -> is_text (save_text ws nl t).
Proof. intros I W. unfold save_text. apply is_text_app; [now apply wf_node_text|apply nl_text]. Qed.
Lemma saved_document_text ws nl ks : indenting ws -> Forall wf ks -> is_text (save_text ws nl (new_xml ks)).
Proof.
  intros I F. unfold save_text. apply is_text_app; [|apply nl_text]. unfold new_xml. cbn [write_node].
  change (is_special XML_DECL) with true. change (write_tag_name XML_DECL) with XML_DECL. cbv iota. cbn [flat_map app].
  apply is_text_app; [apply blank_text, I|]. apply is_text_cons; [lia|]. apply is_text_app; [apply ascii_text_by; reflexivity|].
  destruct ks as [|k ks].
  - apply is_text_cons; [lia|]. apply blank_text, I.
  - apply is_text_cons; [lia|]. apply is_text_app; [apply blank_text, I|]. rewrite app_nil_r.
    induction F as [|x l Wx F IH]; [exact is_text_nil|]. cbn [flat_map]. apply is_text_app; [now apply wf_node_text|exact IH].
Qed.
