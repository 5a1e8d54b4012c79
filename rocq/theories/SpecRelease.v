(** What a call does with the file it opens and the document it builds. Nothing here refers to the code. *)
From Coq Require Import List.
Import ListNotations.
Inductive thing := TheFile | TheDocument.
(** Opened or created; read, written or looked into; closed or deleted. *)
Inductive event := Took (x : thing) | Used (x : thing) | Gave (x : thing).
(** After these events [x] is held: taken, and not given back since. *)
Definition held (x : thing) (past : list event) : Prop := exists a b, past = a ++ Took x :: b /\ ~ In (Gave x) b.
(** Nothing is taken while it is held, and nothing is used or given back unless it is held: no file is
    used or closed after it was closed, no document is used or deleted after it was deleted. *)
Definition orderly (run : list event) : Prop :=
  forall past e future, run = past ++ e :: future ->
  match e with Took x => ~ held x past | Used x | Gave x => held x past end.
