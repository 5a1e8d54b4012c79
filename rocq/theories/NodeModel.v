(** The linked nodes behind an XML document: thirdparty/minixml/src/mxml-node.c and the pointer
    version of mxmlWalkNext. A heap maps addresses to nodes; an address that maps to nothing is not
    allocated, and touching it is undefined behaviour. The type, name, attributes or text of a node
    are one value of type [V] (mxml_node_t's type and value fields). calloc is modelled by handing the
    functions an unused address; it never fails here. Reference counts are left out: the library never
    calls mxmlRetain or mxmlRelease. *)
From Verif Require Import CBase.

(** inc/mxml.h 143-154: struct mxml_node_s *)
Record cell (V : Type) := mkCell {
  c_parent : option nat; c_prev : option nat; c_next : option nat;
  c_child : option nat; c_last : option nat; c_val : V }.
Arguments mkCell {V}. Arguments c_parent {V}. Arguments c_prev {V}. Arguments c_next {V}.
Arguments c_child {V}. Arguments c_last {V}. Arguments c_val {V}.

Section Nodes.
Context {V : Type}.
Implicit Types (h : nat -> option (cell V)) (c : cell V).
Definition nheap : Type := nat -> option (cell V).

Definition upd h (a : nat) (x : option (cell V)) : nheap := fun b => if Nat.eqb b a then x else h b.
Definition get h (a : nat) : outcome (cell V) := match h a with Some c => Ok c | None => UB end.
Definition modify h (a : nat) (f : cell V -> cell V) : outcome nheap :=
  obind (get h a) (fun c => Ok (upd h a (Some (f c)))).
Definition set_parent x c := mkCell x (c_prev c) (c_next c) (c_child c) (c_last c) (c_val c).
Definition set_prev x c := mkCell (c_parent c) x (c_next c) (c_child c) (c_last c) (c_val c).
Definition set_next x c := mkCell (c_parent c) (c_prev c) x (c_child c) (c_last c) (c_val c).
Definition set_child x c := mkCell (c_parent c) (c_prev c) (c_next c) x (c_last c) (c_val c).
Definition set_last x c := mkCell (c_parent c) (c_prev c) (c_next c) (c_child c) x (c_val c).

(** 593-650: mxmlRemove of an allocated node; node->next and node->parent are read again after the
    first write. *)
Definition remove h (n : nat) : outcome nheap :=
  obind (get h n) (fun c =>
  match c_parent c with
  | None => Ok h
  | Some p =>
      obind (match c_prev c with
             | Some q => modify h q (set_next (c_next c))
             | None => modify h p (set_child (c_next c))
             end) (fun h1 =>
      obind (get h1 n) (fun c1 =>
      obind (match c_next c1, c_parent c1 with
             | Some q, _ => modify h1 q (set_prev (c_prev c1))
             | None, Some p => modify h1 p (set_last (c_prev c1))
             | None, None => UB
             end) (fun h2 =>
      modify h2 n (fun c => set_next None (set_prev None (set_parent None c))))))
  end).

(** 83-156: the linking part of mxmlAdd with non-NULL parent and node; [child] is NULL or an address. *)
Definition same (a b : option nat) : bool :=
  match a, b with Some x, Some y => Nat.eqb x y | None, None => true | _, _ => false end.
Definition link_before h (p : nat) (child : option nat) (n : nat) : outcome nheap :=
  obind (modify h n (set_parent (Some p))) (fun h0 =>
  obind (get h0 p) (fun cp =>
  obind (match child with
         | None => Ok None
         | Some k => if same (Some k) (c_child cp) then Ok None
                     else obind (get h0 k) (fun ck => if same (c_parent ck) (Some p) then Ok (Some (k, ck)) else Ok None)
         end) (fun place =>
  match place with
  | None =>
      obind (modify h0 n (set_next (c_child cp))) (fun h1 =>
      obind (match c_child cp with
             | Some f => modify h1 f (set_prev (Some n))
             | None => modify h1 p (set_last (Some n))
             end) (fun h2 =>
      modify h2 p (set_child (Some n))))
  | Some (k, ck) =>
      obind (modify h0 n (set_next (Some k))) (fun h1 =>
      obind (modify h1 n (set_prev (c_prev ck))) (fun h2 =>
      obind (match c_prev ck with
             | Some q => modify h2 q (set_next (Some n))
             | None => modify h2 p (set_child (Some n))
             end) (fun h3 =>
      modify h3 k (set_prev (Some n)))))
  end))).
Definition link_after h (p : nat) (child : option nat) (n : nat) : outcome nheap :=
  obind (modify h n (set_parent (Some p))) (fun h0 =>
  obind (get h0 p) (fun cp =>
  obind (match child with
         | None => Ok None
         | Some k => if same (Some k) (c_last cp) then Ok None
                     else obind (get h0 k) (fun ck => if same (c_parent ck) (Some p) then Ok (Some (k, ck)) else Ok None)
         end) (fun place =>
  match place with
  | None =>
      obind (modify h0 n (set_prev (c_last cp))) (fun h1 =>
      obind (match c_last cp with
             | Some f => modify h1 f (set_next (Some n))
             | None => modify h1 p (set_child (Some n))
             end) (fun h2 =>
      modify h2 p (set_last (Some n))))
  | Some (k, ck) =>
      obind (modify h0 n (set_prev (Some k))) (fun h1 =>
      obind (modify h1 n (set_next (c_next ck))) (fun h2 =>
      obind (match c_next ck with
             | Some q => modify h2 q (set_prev (Some n))
             | None => modify h2 p (set_last (Some n))
             end) (fun h3 =>
      modify h3 k (set_next (Some n)))))
  end))).
(** 44-168: where = MXML_ADD_AFTER is [true], MXML_ADD_BEFORE [false]. *)
Definition add_node h (p : nat) (after : bool) (child : option nat) (n : nat) : outcome nheap :=
  obind (get h n) (fun c =>
  obind (match c_parent c with Some _ => remove h n | None => Ok h end) (fun h1 =>
  if after then link_after h1 p child n else link_before h1 p child n)).

(** 784-831: mxml_new with the address calloc returned *)
Definition new_node h (a : nat) (parent : option nat) (v : V) : outcome nheap :=
  let h1 := upd h a (Some (mkCell None None None None None v)) in
  match parent with Some p => add_node h1 p true None a | None => Ok h1 end.

(** 724-777: mxml_free of an allocated node *)
Definition free_node h (a : nat) : outcome nheap := obind (get h a) (fun _ => Ok (upd h a None)).
(** 206-237: the loop of mxmlDelete; None = the fuel ran out. *)
Fixpoint delete_loop (fuel : nat) h (node : nat) (current : option nat) : option (outcome nheap) :=
  match current with
  | None => Some (Ok h)
  | Some a =>
      match fuel with
      | O => None
      | S f =>
          match h a with
          | None => Some UB
          | Some c =>
              match c_child c with
              | Some k => delete_loop f (upd h a (Some (set_child None c))) node (Some k)
              | None =>
                  let next := match c_next c with
                              | Some x => Some x
                              | None => if same (c_parent c) (Some node) then None else c_parent c
                              end in
                  delete_loop f (upd h a None) node next
              end
          end
      end
  end.
(** 178-244 *)
Definition delete (fuel : nat) h (node : nat) : option (outcome nheap) :=
  match remove h node with
  | UB => Some UB
  | Ok h1 =>
      match h1 node with
      | None => Some UB
      | Some c => match delete_loop fuel h1 node (c_child c) with
                  | None => None
                  | Some UB => Some UB
                  | Some (Ok h2) => Some (free_node h2 node)
                  end
      end
  end.

(** mxml-search.c 225-231; None = the fuel ran out. *)
Fixpoint walk_up (fuel : nat) h (top : nat) (a : nat) : option (outcome (option nat)) :=
  match fuel with
  | O => None
  | S f =>
      match h a with
      | None => Some UB
      | Some c =>
          match c_next c with
          | Some x => Some (Ok (Some x))
          | None => match c_parent c with
                    | None => Some (Ok None)
                    | Some p => if Nat.eqb p top then Some (Ok None) else walk_up f h top p
                    end
          end
      end
  end.
(** 209-235, for a non-NULL node *)
Definition walk_ptr (fuel : nat) h (top : nat) (descend : bool) (a : nat) : option (outcome (option nat)) :=
  match h a with
  | None => Some UB
  | Some c =>
      match (if descend then c_child c else None) with
      | Some k => Some (Ok (Some k))
      | None =>
          if Nat.eqb a top then Some (Ok None)
          else match c_next c with
               | Some x => Some (Ok (Some x))
               | None => match c_parent c with
                         | None => Some (Ok None)
                         | Some p => if Nat.eqb p top then Some (Ok None) else walk_up fuel h top p
                         end
               end
      end
  end.
End Nodes.
Arguments nheap : clear implicits.
