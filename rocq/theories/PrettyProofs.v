(** The indented form: the rules of the callbacks against the pretty printer of SpecPretty. *)
From Verif Require Import CBase CBaseProofs XmlModel SpecXml TrimProofs XmlProofs XmlRound WsModel SpecPretty.
Import SpecXml.

Lemma quoted_escape s : quoted s = escape s.
Proof. induction s as [|c s IH]; [reflexivity|]. unfold quoted, escape in *. cbn [flat_map]. rewrite IH. f_equal. unfold escape_char, XmlEntity.entity_name. destruct (c =? 38); [reflexivity|]. destruct (c =? 60); [reflexivity|]. destruct (c =? 62); [reflexivity|]. destruct (c =? 34); reflexivity. Qed.
Lemma shown_attrs a : attrs_ok a -> flat_map shown_attr a = flat_map write_attr a.
Proof.
  intros (_ & F). induction F as [|(n & v) a (Hn & w & Hw & _) F IH]; [reflexivity|]. cbn [flat_map]. rewrite IH. f_equal. cbn [fst snd] in *. subst v.
  unfold shown_attr, write_attr. cbn [fst snd]. rewrite write_name_ok by assumption. rewrite quoted_escape. reflexivity.
Qed.

(** * Shapes *)
(** The element names a saved tree may have, with the names inside. *)
Inductive shape := Of (n : cstr) (text : bool) (inside : list shape) | Raw.
Section Fits.
Variable P : node -> Prop.
Inductive shaped : shape -> node -> Prop :=
| shaped_of n (b : bool) ss a ks : P (Elem n a ks) -> Forall (fun k => (b = true /\ exists s, k = Opaque s) \/ Exists (fun s => shaped s k) ss) ks -> shaped (Of n b ss) (Elem n a ks)
| shaped_raw p : shaped Raw (cdata_node p).
End Fits.

(** * The rules of a callback on a shape *)
(** An element with a text, and an empty one: the rules do not look at anything else. *)
Definition sample (n : cstr) : node := Elem n [] [Opaque [65]].
Definition raw_name : cstr := s2z "![CDATA[]]".
Fixpoint agrees (ws : ws_cb) (sh : sheet) (inline : bool) (depth : nat) (path : list cstr) (parent : cstr) (s : shape) : bool :=
  match s with
  | Raw => str_eqb (ws path (sample raw_name) BeforeOpen) (if inline then [] else new_line depth) && str_eqb (ws path (sample raw_name) AfterOpen) []
  | Of n b ss =>
      let st := if inline then Run else style_of sh parent n in
      negb (is_special n) &&
      str_eqb (ws path (sample n) BeforeOpen) (match st with Run => [] | _ => new_line depth end) &&
      str_eqb (ws path (sample n) AfterOpen) (match st with Text => new_line (S depth) | _ => [] end) &&
      (match ss with [] => negb b | _ => false end ||
       str_eqb (ws path (sample n) BeforeClose) (match st with Block | Text => new_line depth | _ => [] end) && str_eqb (ws path (sample n) AfterClose) []) &&
      forallb (agrees ws sh (match st with Block => false | _ => true end) (S depth) (n :: path) n) ss
  end.
(** Whatever an element called [n] contains ([P] aside), the callback says the same; and the text of a CDATA section does not matter. *)
Definition by_names (P : node -> Prop) (ws : ws_cb) : Prop :=
  (forall path n a ks p, path <> [] -> P (Elem n a ks) -> ws path (Elem n a ks) p = ws path (sample n) p) /\
  (forall path x p, path <> [] -> ws path (cdata_node x) p = ws path (sample raw_name) p).
Lemma special_prefix n : is_special n = false -> has_prefix (s2z "![CDATA[") n = false.
Proof. destruct n as [|c l]; [reflexivity|]. cbn [is_special]. intro H. change (has_prefix (s2z "![CDATA[") (c :: l)) with ((33 =? c) && has_prefix (s2z "[CDATA[") l). replace (33 =? c) with false by lia. reflexivity. Qed.
Lemma write_cdata ws path p : write_node ws path (cdata_node p) =
  ws path (cdata_node p) BeforeOpen ++ (s2z "<" ++ (s2z "![CDATA[" ++ p ++ s2z "]]") ++ s2z ">") ++ ws path (cdata_node p) AfterOpen.
Proof.
  assert (G : forall n, write_node ws path (Elem n [] []) = ws path (Elem n [] []) BeforeOpen ++ 60 :: write_tag_name n ++ (if is_special n then [62] else [32; 47; 62]) ++ ws path (Elem n [] []) AfterOpen) by reflexivity.
  unfold cdata_node at 1. rewrite G, cdata_name_write. change (is_special (s2z "![CDATA[" ++ p ++ s2z "]]")) with true. cbv iota. fold (cdata_node p).
  f_equal. rewrite <- !app_assoc. reflexivity.
Qed.
Lemma pretty_cdata sh inline depth parent p : pretty sh inline depth parent (cdata_node p) = (if inline then [] else new_line depth) ++ s2z "<" ++ (s2z "![CDATA[" ++ p ++ s2z "]]") ++ s2z ">".
Proof. reflexivity. Qed.
Section Layout.
Variable P : node -> Prop.
Variable ws : ws_cb.
Variable sh : sheet.
Hypothesis B : by_names P ws.
Lemma laid_node : forall t, wf t -> forall s, shaped P s t -> forall inline depth path parent, path <> [] ->
  agrees ws sh inline depth path parent s = true -> write_node ws path t = pretty sh inline depth parent t.
Proof.
  destruct B as (B1 & B2).
  apply (node_ind2 (fun t => wf t -> forall s, shaped P s t -> forall inline depth path parent, path <> [] ->
    agrees ws sh inline depth path parent s = true -> write_node ws path t = pretty sh inline depth parent t)); [|intros x H; inversion H].
  intros n a ks IH W s F inline depth path parent Np A. inversion F as [n' b ss a' ks' Pt Fk Es En|p Es En]; subst s.
  - subst n' a' ks'. cbn [agrees] in A. set (st := if inline then Run else style_of sh parent n) in *.
    apply andb_prop in A as (A & Ak). apply andb_prop in A as (A & A3). apply andb_prop in A as (A & A2). apply andb_prop in A as (Sp & A1).
    apply str_eqb_eq in A1, A2. apply negb_true_iff in Sp.
    assert (Wn : name_ok n /\ attrs_ok a /\ Forall (fun k => wf k \/ exists x, k = Opaque x) ks).
    { inversion W as [n1 a1 Hn Ha E1|n1 a1 x Hn Ha Hx Tx E1|n1 a1 k l Hn Ha Hk E1|p Hp E1]; subst.
      - split; [exact Hn|]. split; [exact Ha|constructor].
      - split; [exact Hn|]. split; [exact Ha|]. constructor; [right; eauto|constructor].
      - split; [exact Hn|]. split; [exact Ha|]. eapply Forall_impl; [|exact Hk]. intros; now left.
      - discriminate Sp. }
    destruct Wn as (Hn & Ha & Wk). cbn [write_node pretty]. fold st. cbv zeta.
    rewrite !B1 by assumption. rewrite A1, A2, Sp, special_prefix by assumption.
    rewrite name_tag_write, shown_attrs by assumption. assert (En : escape n = n) by (apply escape_plain; destruct Hn as (_ & Hn & _); now apply name_char_plain). rewrite En.
    assert (K : flat_map (write_node ws (n :: path)) ks = flat_map (pretty sh (match st with Block => false | _ => true end) (S depth) n) ks).
    { clear -IH Wk Fk Ak. revert IH Wk Fk. induction ks as [|k ks IHk]; intros; [reflexivity|]. inversion IH as [|? ? I1 I2]; inversion Wk as [|? ? W1 W2]; inversion Fk as [|? ? F1 F2]; subst.
      cbn [flat_map]. f_equal; [|now apply IHk]. destruct F1 as [(_ & x & ->)|F1]; [cbn; now rewrite quoted_escape|].
      apply Exists_exists in F1 as (s & Is & Fs). rewrite forallb_forall in Ak. destruct W1 as [W1|(x & ->)]; [|inversion Fs].
      apply (I1 W1 s Fs); [discriminate|]. now apply Ak. }
    destruct ks as [|k ks].
    + destruct st; cbn [app]; rewrite <- ?app_assoc; reflexivity.
    + assert (A4 : ws path (sample n) BeforeClose = (match st with Block | Text => new_line depth | _ => [] end) /\ ws path (sample n) AfterClose = []).
      { apply orb_prop in A3 as [A3|A3].
        - destruct ss; [|discriminate A3]. destruct b; [discriminate A3|]. inversion Fk as [|? ? [(Q & _)|Q] _]; [discriminate Q|inversion Q].
        - apply andb_prop in A3 as (A3 & A4). apply str_eqb_eq in A3, A4. now split. }
      destruct A4 as (A4 & A5). rewrite A4, A5. rewrite K. set (body := flat_map _ _). cbn [s2z list_ascii_of_string map Z.of_nat]. repeat (rewrite <- ?app_assoc; cbn [app]). rewrite ?app_nil_r. reflexivity.
  - subst. cbn [agrees] in A. apply andb_prop in A as (A1 & A2). apply str_eqb_eq in A1, A2. 
    change (Elem _ [] []) with (cdata_node p). rewrite write_cdata, pretty_cdata, !B2, A1, A2, !app_nil_r by assumption. reflexivity.
Qed.
End Layout.
