(** What a text file that was only partly written may be read as. Independent of the reader. *)
From Verif Require Import CBase XmlModel FileModel.

(** [p] is a beginning of [s]. *)
Definition beginning {A} (p s : list A) : Prop := exists q, s = p ++ q.
(** What remains of the document [D] when the text ends too early: nothing; an empty element with a
    beginning of the name of the outermost element; the outermost element with some first children;
    or these followed by an empty element with a beginning of the name of the next child. Never an
    element that holds only a part of its content, except the outermost one. *)
Inductive torn : node -> option node -> Prop :=
| torn_nothing D : torn D None
| torn_name n a ks m : beginning m n -> torn (Elem n a ks) (Some (Elem m [] []))
| torn_kids n a k1 k2 : torn (Elem n a (k1 ++ k2)) (Some (Elem n a k1))
| torn_tag n a k1 n2 a2 ks2 k2 m : beginning m n2 ->
    torn (Elem n a (k1 ++ Elem n2 a2 ks2 :: k2)) (Some (Elem n a (k1 ++ [Elem m [] []])))
| torn_end n a ks : torn (Elem n a ks) (Some (Elem n a (ks ++ [Elem [] [] []]))).

(** A crash while a file is written: the save that would end with [d'] leaves a beginning of the new
    content (possibly nothing, possibly everything). *)
Definition interrupted (d' d'' : disk) (name : cstr) : Prop :=
  exists p q, d' name = Some (p ++ q) /\ d'' name = Some p.
(** Whenever the save is interrupted, loading the file afterwards fails, gives the saved object, or
    gives something else in [other]. *)
Definition crash_leaves {A} (to_file : bool -> bool -> bool -> disk -> cstr -> outcome (disk * bool)) (load : node -> option A) (x : A) (other : A -> Prop) : Prop :=
  forall compact nl d name d' d'', to_file compact nl true d name = Ok (d', true) -> interrupted d' d'' name ->
    exists r, fetch load true d'' name = Ok r /\ forall y, r = Some y -> y = x \/ other y.
Definition compact_crash_leaves {A} (to_file : bool -> bool -> bool -> disk -> cstr -> outcome (disk * bool)) (load : node -> option A) (x : A) (other : A -> Prop) : Prop :=
  forall nl d name d' d'', to_file true nl true d name = Ok (d', true) -> interrupted d' d'' name ->
    exists r, fetch load true d'' name = Ok r /\ forall y, r = Some y -> y = x \/ other y.
Definition nothing {A} (_ : A) : Prop := False.
(** Some crash points of a successful save leave a file that loads without an error as [e]. *)
Definition crash_may_leave {A} (to_file : bool -> bool -> bool -> disk -> cstr -> outcome (disk * bool)) (load : node -> option A) (e : A) : Prop :=
  forall nl d name, exists d' d'', to_file true nl true d name = Ok (d', true) /\ interrupted d' d'' name /\ fetch load true d'' name = Ok (Some e).
