(** What a linked document is: a tree of addresses, and the links every node must have. *)
From Verif Require Import CBase NodeModel.

Inductive dtree (V : Type) := D (a : nat) (v : V) (kids : list (dtree V)).
Arguments D {V}.
Section Trees.
Context {V : Type}.
Definition addr (t : dtree V) : nat := match t with D a _ _ => a end.
Definition tkids (t : dtree V) : list (dtree V) := match t with D _ _ l => l end.
Definition tval (t : dtree V) : V := match t with D _ v _ => v end.
(** All addresses of a tree, in document order. *)
Fixpoint addrs (t : dtree V) : list nat := match t with D a _ l => a :: flat_map addrs l end.
(** All subtrees below the root of a tree, in document order. *)
Fixpoint ddesc (t : dtree V) : list (dtree V) := match t with D _ _ l => flat_map (fun k => k :: ddesc k) l end.
Definition faddrs (l : list (dtree V)) : list nat := flat_map addrs l.

Definition first_addr (l : list (dtree V)) : option nat := match l with t :: _ => Some (addr t) | [] => None end.
Fixpoint last_addr (l : list (dtree V)) : option nat :=
  match l with [] => None | [t] => Some (addr t) | _ :: l' => last_addr l' end.

(** Node [t] is linked with the given parent and siblings, and so are, in order, its children. *)
Fixpoint linked (h : nheap V) (parent prev next : option nat) (t : dtree V) : Prop :=
  match t with
  | D a v l =>
      h a = Some (mkCell parent prev next (first_addr l) (last_addr l) v) /\
      (fix row (prev : option nat) (l : list (dtree V)) : Prop :=
         match l with
         | [] => True
         | t :: l' => linked h (Some a) prev (first_addr l') t /\ row (Some (addr t)) l'
         end) None l
  end.
(** A document: a linked tree without parent and siblings whose nodes are all different. *)
Definition document (h : nheap V) (t : dtree V) : Prop := linked h None None None t /\ NoDup (addrs t).

(** A document with a hole among the children of some node. *)
Inductive ctx := Hole | In_ (c : ctx) (a : nat) (v : V) (l r : list (dtree V)).
Fixpoint plug (c : ctx) (t : dtree V) : dtree V :=
  match c with Hole => t | In_ c' a v l r => plug c' (D a v (l ++ t :: r)) end.
End Trees.
Arguments ctx : clear implicits.
