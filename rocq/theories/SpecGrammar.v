(** XML documents as the XML 1.0 recommendation spells them, in UTF-8, with the tree each stands
    for. Independent of the library's reader and writer (only the type of trees is shared). Left
    out: document type declarations with an internal subset, entities beyond the five predefined
    ones, and the normalisation of line ends and of blanks in attribute values: here every
    character stands for itself. Characters are those of [good_cp]: besides XML's also the surrogates
    and U+FFFE, U+FFFF. *)
From Verif Require Import CBase XmlModel SpecXml.

Definition space (c : Z) : Prop := c = 9 \/ c = 10 \/ c = 13 \/ c = 32.
Definition spaces (w : cstr) : Prop := Forall space w.
(** Names: letters, '_', ':' and everything beyond ASCII; then also digits, '-' and '.'. *)
Definition letter (c : Z) : Prop := 65 <= c <= 90 \/ 97 <= c <= 122 \/ c = 95 \/ c = 58.
Definition name_start (c : Z) : Prop := letter c \/ (128 <= c /\ good_cp c).
Definition name_more (c : Z) : Prop := name_start c \/ 48 <= c <= 57 \/ c = 45 \/ c = 46.
Definition tag_name (n : cstr) : Prop :=
  exists c cs, name_start c /\ Forall name_more cs /\ n = flat_map rfc_utf8 (c :: cs).
(** An attribute name must here begin with an ASCII character (C71_attribute_name_refuted). *)
Definition attr_name (n : cstr) : Prop :=
  exists c cs, letter c /\ Forall name_more cs /\ n = flat_map rfc_utf8 (c :: cs).

(** Character references and the predefined entities. At most 62 digits, 61 hexadecimal ones: C71_long_reference_refuted. *)
Definition dec_digit (c : Z) : Prop := 48 <= c <= 57.
Definition dec_value (s : cstr) : Z := fold_left (fun a c => 10 * a + (c - 48)) s 0.
Inductive hex_digit_is : Z -> Z -> Prop :=
| hex_09 c : 48 <= c <= 57 -> hex_digit_is c (c - 48)
| hex_AF c : 65 <= c <= 70 -> hex_digit_is c (c - 55)
| hex_af c : 97 <= c <= 102 -> hex_digit_is c (c - 87).
Inductive hex_value : cstr -> Z -> Prop :=
| hex_nil : hex_value [] 0
| hex_snoc s v c d : hex_value s v -> hex_digit_is c d -> hex_value (s ++ [c]) (16 * v + d).
Inductive refers : cstr -> Z -> Prop :=
| ref_amp : refers (s2z "&amp;") 38
| ref_lt : refers (s2z "&lt;") 60
| ref_gt : refers (s2z "&gt;") 62
| ref_quot : refers (s2z "&quot;") 34
| ref_apos : refers (s2z "&apos;") 39
| ref_dec s : s <> [] -> Forall dec_digit s -> (List.length s <= 62)%nat -> good_cp (dec_value s) ->
    refers (s2z "&#" ++ s ++ s2z ";") (dec_value s)
| ref_hex s v : s <> [] -> hex_value s v -> (List.length s <= 61)%nat -> good_cp v ->
    refers (s2z "&#x" ++ s ++ s2z ";") v.

(** Text: characters that stand for themselves, and references. *)
Inductive spells (ok : Z -> Prop) : cstr -> cstr -> Prop :=
| spells_nil : spells ok [] []
| spells_char c s v : good_cp c -> ok c -> spells ok s v -> spells ok (rfc_utf8 c ++ s) (rfc_utf8 c ++ v)
| spells_ref r c s v : refers r c -> spells ok s v -> spells ok (r ++ s) (rfc_utf8 c ++ v).
Definition text_char (c : Z) : Prop := c <> 38 /\ c <> 60.
Definition value_char (q : Z) (c : Z) : Prop := c <> 38 /\ c <> 60 /\ c <> q.
Definition texts (v : cstr) : list node := match v with [] => [] | _ => [Opaque v] end.

Inductive attributes : cstr -> list (cstr * option cstr) -> Prop :=
| attributes_none : attributes [] []
| attributes_one w n w1 w2 q s v rest l :
    w <> [] -> spaces w -> attr_name n -> spaces w1 -> spaces w2 -> q = 34 \/ q = 39 ->
    spells (value_char q) s v -> attributes rest l -> ~ In n (map fst l) ->
    attributes (w ++ n ++ w1 ++ 61 :: w2 ++ q :: s ++ q :: rest) ((n, Some v) :: l).

(** Comments hold some text without "--"; an empty comment is C71_empty_comment_refuted. *)
Definition comment_ok (p : cstr) : Prop := is_text p /\ p <> [] /\ ~ exists a b, p ++ [45] = a ++ [45; 45] ++ b.
Definition instruction_ok (p : cstr) : Prop := is_text p /\ ~ exists a b, 63 :: p = a ++ [63; 62] ++ b.
(** <!NAME ...> *)
Definition declaration_ok (p : cstr) : Prop :=
  exists n w q, n <> [] /\ Forall letter n /\ spaces w /\ w <> [] /\ is_text q /\ ~ In 62 q /\ ~ In 38 q /\ p = n ++ w ++ q.

Inductive item : cstr -> node -> Prop :=
| item_empty n a l w : tag_name n -> attributes a l -> spaces w ->
    item (60 :: n ++ a ++ w ++ s2z "/>") (Elem n l [])
| item_element n a l w s ks w' : tag_name n -> attributes a l -> spaces w -> content s ks -> spaces w' ->
    item (60 :: n ++ a ++ w ++ 62 :: s ++ s2z "</" ++ n ++ w' ++ s2z ">") (Elem n l ks)
| item_comment p : comment_ok p -> item (s2z "<!--" ++ p ++ s2z "-->") (Elem (s2z "!--" ++ p ++ s2z "--") [] [])
| item_instruction p : instruction_ok p -> item (s2z "<?" ++ p ++ s2z "?>") (Elem (s2z "?" ++ p ++ s2z "?") [] [])
| item_declaration p : declaration_ok p -> item (s2z "<!" ++ p ++ s2z ">") (Elem (s2z "!" ++ p) [] [])
| item_cdata p : cdata_ok p -> item (s2z "<![CDATA[" ++ p ++ s2z "]]>") (cdata_node p)
(** Text and items in turn. *)
with content : cstr -> list node -> Prop :=
| content_end s v : spells text_char s v -> content s (texts v)
| content_item s v x n rest ks : spells text_char s v -> item x n -> content rest ks ->
    content (s ++ x ++ rest) (texts v ++ n :: ks).
Scheme item_mut := Minimality for item Sort Prop with content_mut := Minimality for content Sort Prop.
Combined Scheme item_content_ind from item_mut, content_mut.

(** What follows the declaration: items with blanks between them. The blanks before an item are
    kept as text, those at the end are not. *)
Inductive body : cstr -> list node -> Prop :=
| body_end w : spaces w -> body w []
| body_item w x n rest ks : spaces w -> item x n -> body rest ks -> body (w ++ x ++ rest) (texts w ++ n :: ks).
(** A document (or what the library saves for control data: several elements behind the declaration, which XML does not allow;
    [one_root] in SpecForeign.v singles out the XML documents): with an XML (or document type) declaration, what follows it is below it in the
    tree; without one, the element alone. A byte order mark and blanks may precede both. *)
Definition BOM : cstr := [239; 187; 191].
Inductive document : cstr -> node -> Prop :=
| document_declared m w p s ks : m = [] \/ m = BOM -> spaces w -> instruction_ok p -> body s ks ->
    document (m ++ w ++ s2z "<?" ++ p ++ s2z "?>" ++ s) (Elem (s2z "?" ++ p ++ s2z "?") [] ks)
| document_typed m w p s ks : m = [] \/ m = BOM -> spaces w -> declaration_ok p -> body s ks ->
    document (m ++ w ++ s2z "<!" ++ p ++ s2z ">" ++ s) (Elem (s2z "!" ++ p) [] ks)
| document_bare m w x n a ks w' : m = [] \/ m = BOM -> spaces w -> item x (Elem n a ks) -> tag_name n -> spaces w' ->
    document (m ++ w ++ x ++ w') (Elem n a ks).
