(** Walking and searching a tree (thirdparty/minixml/src/mxml-search.c). A node pointer is modelled
    by its position in the document: the child indices from the node up to the root, innermost
    first ([] is the root); parent, next and child pointers are then determined by the position. *)
From Verif Require Import CBase XmlEntity XmlModel.

Definition position := list nat.
Fixpoint at_pos (doc : node) (pos : position) : option node :=
  match pos with
  | [] => Some doc
  | i :: p => match at_pos doc p with Some t => nth_error (node_kids t) i | None => None end
  end.
Definition exists_at (doc : node) (pos : position) : bool :=
  match at_pos doc pos with Some _ => true | None => false end.
Fixpoint pos_eqb (a b : position) : bool :=
  match a, b with
  | [], [] => true
  | x :: a', y :: b' => Nat.eqb x y && pos_eqb a' b'
  | _, _ => false
  end.
(** 225-231: the loop that climbs, started at a node that is not top. *)
Fixpoint climb (doc : node) (top pos : position) : option position :=
  match pos with
  | [] => None
  | i :: p =>
      if exists_at doc (S i :: p) then Some (S i :: p)
      else if pos_eqb p top then None
      else match p with [] => None | _ => climb doc top p end
  end.
(** 209-235. MXML_DESCEND is true, MXML_NO_DESCEND false. *)
Definition walk_next (doc : node) (top : position) (descend : bool) (pos : position) : option position :=
  if descend && exists_at doc (O :: pos) then Some (O :: pos)
  else if pos_eqb pos top then None
  else match pos with
       | [] => None
       | i :: p =>
           if exists_at doc (S i :: p) then Some (S i :: p)
           else if negb (pos_eqb p top) then (match p with [] => None | _ => climb doc top p end)
           else None
       end.
(** 40-110 with an element name and MXML_DESCEND: the answer, or [None] inside [Some] for NULL;
    the outer [None] is lack of fuel (never with fuel above the number of nodes, WalkProofs.v). *)
Fixpoint find_element (fuel : nat) (doc : node) (top : position) (name : cstr) (pos : position) : option (option position) :=
  match fuel with
  | O => None
  | S f =>
      match walk_next doc top true pos with
      | None => Some None
      | Some p =>
          match at_pos doc p with
          | Some t => if named name t then Some (Some p) else find_element f doc top name p
          | None => None
          end
      end
  end.
(** The library's loop: x = find(top, top); while (x) { visit x; x = find(x, top); } *)
Fixpoint find_loop (fuel : nat) (doc : node) (top : position) (name : cstr) (pos : position) : option (list position) :=
  match fuel with
  | O => None
  | S f =>
      match find_element fuel doc top name pos with
      | None => None
      | Some None => Some []
      | Some (Some p) => option_map (cons p) (find_loop f doc top name p)
      end
  end.
(** The loop over the children: x = mxmlGetFirstChild(top); while (x) { visit x; x = WalkNext(x, top, NO_DESCEND) } *)
Fixpoint child_loop (fuel : nat) (doc : node) (top : position) (pos : position) : option (list position) :=
  match fuel with
  | O => None
  | S f => match walk_next doc top false pos with
           | None => Some [pos]
           | Some p => option_map (cons pos) (child_loop f doc top p)
           end
  end.
