(** Documents as the library builds them: one call per node, children after their parent, in order.
    The calls of every save_xml function and of the reader (mxml-file.c) have this form. *)
From Verif Require Import CBase XmlEntity XmlModel NodeModel SpecNode.

(** inc/mxml.h 120-141: the two kinds of value the library uses. *)
Inductive payload := PElem (name : cstr) (attrs : list (cstr * option cstr)) | PText (text : cstr).

(** The calls that create document [n] below [parent] (NULL for the root): mxmlNewElement followed by
    the calls that set its attributes (here: one step with the final attributes), or mxmlNewOpaque;
    then the children. [supply] are the addresses calloc hands out; UB also when it is exhausted. *)
Fixpoint make (n : node) (parent : option nat) (supply : list nat) (h : nheap payload) : outcome (list nat * nheap payload) :=
  match supply with
  | [] => UB
  | a :: s =>
      match n with
      | Opaque x => obind (new_node h a parent (PText x)) (fun h1 => Ok (s, h1))
      | Elem nm at_ ks =>
          obind (new_node h a parent (PElem nm at_)) (fun h1 =>
          (fix go (ks : list node) (s : list nat) (h : nheap payload) : outcome (list nat * nheap payload) :=
             match ks with
             | [] => Ok (s, h)
             | k :: ks' => obind (make k (Some a) s h) (fun r => go ks' (fst r) (snd r))
             end) ks s h1)
      end
  end.
(** mxml-search.c 40-110 over pointers, with an element name and MXML_DESCEND *)
Definition is_named (name : cstr) (v : payload) : bool := match v with PElem nm _ => str_eqb nm name | PText _ => false end.
Fixpoint find_ptr (fuel up : nat) (h : nheap payload) (top : nat) (name : cstr) (a : nat) : option (outcome (option nat)) :=
  match fuel with
  | O => None
  | S f =>
      match walk_ptr up h top true a with
      | Some (Ok (Some b)) =>
          match h b with
          | None => Some UB
          | Some c => if is_named name (c_val c) then Some (Ok (Some b)) else find_ptr f up h top name b
          end
      | other => other
      end
  end.
(** x = find(top, top); while (x) { visit x; x = find(x, top); } *)
Fixpoint find_ptr_loop (fuel up : nat) (h : nheap payload) (top : nat) (name : cstr) (a : nat) : option (outcome (list nat)) :=
  match fuel with
  | O => None
  | S f =>
      match find_ptr fuel up h top name a with
      | None => None
      | Some UB => Some UB
      | Some (Ok None) => Some (Ok [])
      | Some (Ok (Some b)) =>
          match find_ptr_loop f up h top name b with
          | Some (Ok l) => Some (Ok (b :: l))
          | other => other
          end
      end
  end.

(** The XML tree a linked document shows. *)
Inductive shows : dtree payload -> node -> Prop :=
| shows_elem a nm at_ ts ks : Forall2 shows ts ks -> shows (D a (PElem nm at_) ts) (Elem nm at_ ks)
| shows_text a x : shows (D a (PText x) []) (Opaque x).
(** Number of nodes. *)
Fixpoint count (n : node) : nat := match n with Elem _ _ ks => S (list_sum (map count ks)) | Opaque _ => 1 end.
