(** Specification vocabulary for the XML layer, independent of the reader and writer. *)
From Verif Require Import CBase XmlEntity XmlModel.

(** Code points the XML standard allows (and the surrogates it does not), less the byte order mark. *)
Definition good_cp (c : Z) : Prop :=
  c = 9 \/ c = 10 \/ c = 13 \/ (32 <= c <= 1114111 /\ c <> 65279).
(** UTF-8 as RFC 3629 defines it. *)
Definition rfc_utf8 (c : Z) : cstr :=
  if c <? 128 then [c]
  else if c <? 2048 then [192 + c / 64; 128 + c mod 64]
  else if c <? 65536 then [224 + c / 4096; 128 + (c / 64) mod 64; 128 + c mod 64]
  else [240 + c / 262144; 128 + (c / 4096) mod 64; 128 + (c / 64) mod 64; 128 + c mod 64].
(** A string that XML text can carry. *)
Definition is_text (s : cstr) : Prop := exists cps, Forall good_cp cps /\ s = flat_map rfc_utf8 cps.
(** Names of the library's elements and attributes: letters, digits, '-', '.', '_', and first a
    letter or '_'. *)
Definition name_char (c : Z) : Prop :=
  48 <= c <= 57 \/ 65 <= c <= 90 \/ 97 <= c <= 122 \/ c = 45 \/ c = 46 \/ c = 95.
Definition first_char (c : Z) : Prop := 65 <= c <= 90 \/ 97 <= c <= 122 \/ c = 95.
Definition name_ok (n : cstr) : Prop := n <> [] /\ Forall name_char n /\ match n with c :: _ => first_char c | [] => False end.
Definition attrs_ok (a : list (cstr * option cstr)) : Prop :=
  NoDup (map fst a) /\ Forall (fun p => name_ok (fst p) /\ exists v, snd p = Some v /\ is_text v) a.
(** CDATA payloads. *)
Definition cdata_ok (p : cstr) : Prop := is_text p /\ ~ exists a b, p = a ++ s2z "]]>" ++ b.
Definition cdata_node (p : cstr) : node := Elem (s2z "![CDATA[" ++ p ++ s2z "]]") [] [].
(** The trees the library saves: an element has no content, one text, or only elements. *)
Inductive wf : node -> Prop :=
| wf_leaf n a : name_ok n -> attrs_ok a -> wf (Elem n a [])
| wf_text n a s : name_ok n -> attrs_ok a -> s <> [] -> is_text s -> wf (Elem n a [Opaque s])
| wf_elems n a k ks : name_ok n -> attrs_ok a -> Forall wf (k :: ks) -> wf (Elem n a (k :: ks))
| wf_cdata p : cdata_ok p -> wf (cdata_node p).
(** Indentation: line feeds, carriage returns and spaces only. *)
Definition blank (s : cstr) : Prop := Forall (fun c => c = 10 \/ c = 13 \/ c = 32) s.
Definition indenting (ws : ws_cb) : Prop := forall path t p, blank (ws path t p).

(** What survives a save and a load: names, attributes, the element structure, and the trimmed
    text of the elements without element content. *)
Definition is_element (t : node) : bool := match t with Elem _ _ _ => true | Opaque _ => false end.
Definition elements (l : list node) : list node := filter is_element l.
Inductive esim : node -> node -> Prop :=
| esim_elem n a ks ks' :
    Forall2 esim (elements ks) (elements ks') ->
    (elements ks = [] -> node_text (Elem n a ks) = node_text (Elem n a ks')) ->
    esim (Elem n a ks) (Elem n a ks').

(** The same when comments do not count. *)
(** Comments, processing instructions and declarations: nodes whose name begins with '!' (other than a CDATA section) or with '?'. *)
Definition note_name (n : cstr) : bool :=
  match n with c :: _ => (c =? 63) || (c =? 33) && negb (str_eqb (firstn 8 n) (s2z "![CDATA[")) | [] => false end.
Definition is_elem (t : node) : bool :=
  match t with
  | Elem n [] [] => negb (note_name n)
  | Elem _ _ _ => true
  | Opaque _ => false
  end.
Definition elems (l : list node) : list node := filter is_elem l.
Fixpoint all_text (l : list node) : cstr :=
  match l with
  | [] => []
  | Opaque s :: l' => s ++ all_text l'
  | Elem _ _ _ :: l' => all_text l'
  end.
(** The order of the attributes does not count either. *)
Definition same_attrs (a b : list (cstr * option cstr)) : Prop := forall k, get_attr a k = get_attr b k.
Inductive sim : node -> node -> Prop :=
| sim_elem n a a' ks ks' :
    same_attrs a a' -> Forall2 sim (elems ks) (elems ks') ->
    (elems ks = [] -> node_text (Elem n a ks) = node_text (Elem n a' ks')) ->
    sim (Elem n a ks) (Elem n a' ks').
(** The string does not contain a UTF-16 byte order mark FE FF or FF FE. *)
Definition no_mark (s : cstr) : Prop := forall a b, s <> a ++ 254 :: 255 :: b /\ s <> a ++ 255 :: 254 :: b.
