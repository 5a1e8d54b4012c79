(** Reference counts used from several threads. Every object of the library has a plain int
    reference_count (no atomics, no locks anywhere in src/): *_get_new_reference increments it, *_free
    decrements it, looks at it again and releases the object. The model has a set of threads, each with
    the calls it is going to make, and executes one memory access of one thread at a time, in any order
    (sequential consistency; a real machine or an optimising compiler may only do worse). Only the count
    is modelled: what an object owns is released in the same call (PropRef.v). *)
From Verif Require Import CBase TocModel.

Inductive call := Take (x : nat) | Drop (x : nat).
(** Where a thread is: between calls or inside one, with what it has read. *)
Inductive place := Between | TakeHas (x : nat) (r : Z) | DropHas (x : nat) (r : Z) | DropTests (x : nat) | DropFrees (x : nat).
(** [held x]: references to object x the thread has, as its programmer would count them: a reference is
    there when the call that takes it returns, and given up when the call that drops it begins. *)
Record thread := mkThread { todo : list call; at_ : place; held : nat -> Z }.
(** The objects: the count of each, None when it does not exist (any more). *)
Definition objects := nat -> option Z.
Definition put {A} (f : nat -> A) (x : nat) (v : A) : nat -> A := fun y => if Nat.eqb y x then v else f y.

(** The test that decides to release: [<= 0] in 17 of the kinds (src/tocfile.c 319, for instance), [== 0]
    in the other four (src/toc/previewsection.c 152, previewsections.c 112, previewlayoutdefinition.c 209,
    previewlayoutdefinitions.c 112). *)
Inductive release_test := AtMostZero | IsZero.
Definition releases (k : release_test) (r : Z) : bool := match k with AtMostZero => r <=? 0 | IsZero => r =? 0 end.

(** One access. src/tocfile.c 382-393 (and the get_new_reference of the other kinds): read the count,
    write it back increased; 310-332 (and the other free functions): read, write back decreased, read
    again for the test, release. An access to an object that does not exist is undefined, and so is
    signed overflow. *)
Definition access (k : release_test) (t : thread) (h : objects) : outcome (thread * objects) :=
  match at_ t with
  | Between =>
      match todo t with
      | [] => Ok (t, h)
      | Take x :: p => match h x with None => UB | Some r => Ok (mkThread p (TakeHas x r) (held t), h) end
      | Drop x :: p => match h x with None => UB | Some r => Ok (mkThread p (DropHas x r) (put (held t) x (held t x - 1)), h) end
      end
  | TakeHas x r =>
      match h x with
      | None => UB
      | Some _ => obind (chk32 (r + 1)) (fun r' => Ok (mkThread (todo t) Between (put (held t) x (held t x + 1)), put h x (Some r')))
      end
  | DropHas x r =>
      match h x with
      | None => UB
      | Some _ => obind (chk32 (r - 1)) (fun r' => Ok (mkThread (todo t) (DropTests x) (held t), put h x (Some r')))
      end
  | DropTests x =>
      match h x with
      | None => UB
      | Some r => Ok (mkThread (todo t) (if releases k r then DropFrees x else Between) (held t), h)
      end
  | DropFrees x => match h x with None => UB | Some _ => Ok (mkThread (todo t) Between (held t), put h x None) end
  end.
(** A schedule says which thread makes the next access. *)
Fixpoint set_nth {A} (i : nat) (a : A) (l : list A) : list A :=
  match i, l with
  | _, [] => []
  | O, _ :: l' => a :: l'
  | S j, b :: l' => b :: set_nth j a l'
  end.
Fixpoint execute (k : release_test) (schedule : list nat) (pool : list thread) (h : objects) : outcome (list thread * objects) :=
  match schedule with
  | [] => Ok (pool, h)
  | i :: s =>
      match nth_error pool i with
      | None => execute k s pool h
      | Some t => obind (access k t h) (fun r => execute k s (set_nth i (fst r) pool) (snd r))
      end
  end.
