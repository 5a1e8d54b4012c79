(** The text of a tree holds no NUL, so a save returns all of it. *)
From Verif Require Import CBase CBaseProofs XmlEntity XmlModel SpecXml Utf8Proofs XmlTermProofs TrimProofs XmlProofs XmlRound XmlMem.

Definition nz (s : cstr) : Prop := Forall (fun c => c <> 0) s.
Lemma nz_app a b : nz (a ++ b) <-> nz a /\ nz b. Proof. apply Forall_app. Qed.
Lemma nz_text s : is_text s -> nz s.
Proof.
  apply (text_ind_cps nz); [constructor|]. intros c s' G _ IH. apply nz_app. split; [|exact IH].
  unfold rfc_utf8. assert (R : 0 <= c <= 1114111) by (unfold good_cp in G; lia).
  assert (M : forall z, 0 <> 128 + z mod 64) by (intro z; pose proof (Z.mod_pos_bound z 64); lia).
  destruct (c <? 128); [repeat constructor; unfold good_cp in G; lia|].
  pose proof (Z.div_pos c 64). pose proof (Z.div_pos c 4096). pose proof (Z.div_pos c 262144).
  destruct (c <? 2048); [repeat (constructor; [pose proof (M c); lia|]); constructor|].
  destruct (c <? 65536); repeat (constructor; [pose proof (M c); pose proof (M (c / 64)); pose proof (M (c / 4096)); lia|]); constructor.
Qed.
Lemma nz_escape s : nz s -> nz (escape s).
Proof.
  induction 1 as [|c s H _ IH]; [constructor|]. cbn [escape flat_map]. apply nz_app. split; [|exact IH].
  unfold escape_char, entity_name. repeat match goal with |- context [if ?b then _ else _] => destruct b end;
    repeat constructor; try discriminate; try assumption.
Qed.
Lemma nz_blank w : blank w -> nz w.
Proof. intro B. eapply Forall_impl; [|exact B]. cbv beta. lia. Qed.
Lemma nz_name n : Forall name_char n -> nz n.
Proof. intro F. eapply Forall_impl; [|exact F]. unfold name_char. intro. lia. Qed.
Lemma nz_attrs a : attrs_ok a -> nz (flat_map write_attr a).
Proof.
  intros (_ & F). induction F as [|(n & v) a (Hn & w & Hw & T) F IH]; [constructor|]. cbn [flat_map fst snd] in *. subst v.
  apply nz_app. split; [|exact IH]. unfold write_attr. cbn [fst snd]. rewrite write_name_ok by assumption.
  constructor; [lia|]. apply nz_app. split; [apply nz_name, Hn|]. repeat (constructor; [lia|]). apply nz_app.
  split; [apply nz_escape, nz_text, T|repeat constructor; lia].
Qed.
Lemma nz_write ws t : indenting ws -> wf t -> forall path, nz (write_node ws path t).
Proof.
  intro I. revert t. apply (node_ind2 (fun t => wf t -> forall path, nz (write_node ws path t))); [|intros s H; inversion H].
  intros n a ks IH W path. cbn [write_node]. set (T := Elem n a ks).
  assert (B : forall p, nz (ws path T p)) by (intro; apply nz_blank, I).
  apply nz_app. split; [apply B|]. constructor; [lia|]. apply nz_app.
  assert (K : (name_ok n \/ exists p, n = s2z "![CDATA[" ++ p ++ s2z "]]" /\ is_text p) /\ attrs_ok a /\ (forall k, In k ks -> wf k \/ exists s, k = Opaque s /\ is_text s)).
  { inversion W as [n' a' Hn Ha|n' a' s Hn Ha Hs Ts|n' a' k ks' Hn Ha Hk|p Hp]; subst.
    - split; [left; exact Hn|]. split; [exact Ha|]. intros k [].
    - split; [left; exact Hn|]. split; [exact Ha|]. intros k [<-|[]]. right. eauto.
    - split; [left; exact Hn|]. split; [exact Ha|]. intros x Hx. rewrite Forall_forall in Hk. left. auto.
    - split; [right; exists p; split; [reflexivity|apply Hp]|]. split; [split; constructor|]. intros k []. }
  destruct K as (Kn & Ka & Kk).
  assert (Nn : nz n).
  { destruct Kn as [F|(p & -> & Tp)]; [apply nz_name; apply F|]. apply nz_app. split; [repeat constructor; discriminate|]. apply nz_app.
    split; [now apply nz_text|repeat constructor; discriminate]. }
  split.
  { destruct Kn as [F|(p & -> & Tp)]; [|exact Nn]. destruct n as [|x l] eqn:En; [cbn; constructor|].
    rewrite name_tag_write; [exact Nn|exact F]. }
  apply nz_app. split; [now apply nz_attrs|].
  destruct ks as [|k ks].
  - apply nz_app. split; [destruct (is_special n); repeat constructor; lia|apply B].
  - constructor; [lia|]. apply nz_app. split; [apply B|]. apply nz_app. split.
    + clear W. revert IH Kk. generalize (k :: ks) as l. clear. intros l IH Kk. induction IH as [|x l Hx _ IHl]; [constructor|].
      cbn [flat_map]. apply nz_app. split; [|apply IHl; intros; apply Kk; now right].
      destruct (Kk x (or_introl eq_refl)) as [Wx|(s & -> & Ts)]; [now apply Hx|]. cbn. now apply nz_escape, nz_text.
    + destruct (is_special n); [constructor|]. apply nz_app. split; [apply B|]. repeat (constructor; [lia|]).
      apply nz_app. split; [now apply nz_escape|]. constructor; [lia|apply B].
Qed.
Theorem saved_tree_complete ws nl t stack_buffer heap_block : indenting ws -> wf t ->
  Z.of_nat (List.length stack_buffer) = 8192 -> (forall n, 0 <= n -> List.length (heap_block n) = Z.to_nat n) ->
  Z.of_nat (List.length (save_text ws nl (new_xml [t]))) < 2^31 - 1 ->
  save_alloc_string (save_text ws nl (new_xml [t])) stack_buffer heap_block = Some (Some (save_text ws nl (new_xml [t]))).
Proof.
  intros I W L1 L2 B. apply save_alloc_complete; auto.
  - unfold save_text, new_xml. cbn [write_node]. intro E. apply app_eq_nil in E as (E & _). apply app_eq_nil in E as (_ & E). discriminate.
  - intro H0. assert (N : nz (save_text ws nl (new_xml [t]))).
    { unfold save_text. apply nz_app. split; [|destruct nl; repeat constructor; discriminate].
      unfold new_xml. cbn [write_node flat_map]. set (D := Elem XML_DECL [] [t]).
      apply nz_app. split; [apply nz_blank, I|]. constructor; [lia|]. apply nz_app. split; [change (write_tag_name XML_DECL) with XML_DECL; repeat constructor; discriminate|].
      cbn [app]. constructor; [lia|]. apply nz_app. split; [apply nz_blank, I|]. apply nz_app. split; [apply nz_app; split; [now apply nz_write|constructor]|].
      change (is_special XML_DECL) with true. constructor. }
    unfold nz in N. rewrite Forall_forall in N. exact (N 0 H0 eq_refl).
Qed.
