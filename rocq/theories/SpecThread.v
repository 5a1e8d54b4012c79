(** What threads that share objects may rely on. *)
From Verif Require Import CBase TocModel ThreadModel.

(** A thread is inside a call on object x. *)
Definition inside (t : thread) (x : nat) : Prop :=
  match at_ t with Between => False | TakeHas y _ | DropHas y _ | DropTests y | DropFrees y => y = x end.
(** A thread is about to begin a call on object x. *)
Definition begins (t : thread) (x : nat) : Prop :=
  at_ t = Between /\ match todo t with Take y :: _ | Drop y :: _ => y = x | [] => False end.
(** The references all threads have to object x. *)
Definition references (pool : list thread) (x : nat) : Z := fold_right Z.add 0 (map (fun t => held t x) pool).
(** The count an object with n references must have. *)
Definition alive (n : Z) : option Z := if n =? 0 then None else Some n.
(** A client uses only references it has. *)
Fixpoint lawful (refs : nat -> Z) (p : list call) : Prop :=
  match p with
  | [] => True
  | Take x :: p' => 0 < refs x /\ lawful (put refs x (refs x + 1)) p'
  | Drop x :: p' => 0 < refs x /\ lawful (put refs x (refs x - 1)) p'
  end.
(** The calls that take a reference to x. *)
Definition takes (x : nat) (p : list call) : Z := Z.of_nat (List.length (filter (fun c => match c with Take y => Nat.eqb y x | Drop _ => false end) p)).
Definition takes_left (pool : list thread) (x : nat) : Z := fold_right Z.add 0 (map (fun t => takes x (todo t)) pool).
(** The threads at the beginning: each has references and only uses those, every object that exists has
    the right count, and no count can leave the range of an int. *)
Definition clients (pool : list thread) (h : objects) : Prop :=
  Forall (fun t => at_ t = Between /\ (forall x, 0 <= held t x) /\ lawful (held t) (todo t)) pool /\
  (forall x, h x = alive (references pool x)) /\ (forall x, references pool x + takes_left pool x < 2^31).
(** No call on an object begins while another thread is inside a call on it. *)
Fixpoint one_at_a_time (k : release_test) (schedule : list nat) (pool : list thread) (h : objects) : Prop :=
  match schedule with
  | [] => True
  | i :: s =>
      match nth_error pool i with
      | None => one_at_a_time k s pool h
      | Some t => (forall x j u, begins t x -> j <> i -> nth_error pool j = Some u -> ~ inside u x) /\
                  match access k t h with Ok (t', h') => one_at_a_time k s (set_nth i t' pool) h' | UB => True end
      end
  end.
(** A lock around all calls: a thread only runs while the others are between calls. *)
Fixpoint locked (k : release_test) (schedule : list nat) (pool : list thread) (h : objects) : Prop :=
  match schedule with
  | [] => True
  | i :: s =>
      match nth_error pool i with
      | None => locked k s pool h
      | Some t => (forall j u, j <> i -> nth_error pool j = Some u -> at_ u = Between) /\
                  match access k t h with Ok (t', h') => locked k s (set_nth i t' pool) h' | UB => True end
      end
  end.
(** No object is used by two threads. *)
Definition uses (t : thread) (x : nat) : Prop := In (Take x) (todo t) \/ In (Drop x) (todo t).
Definition private (pool : list thread) : Prop :=
  forall i j t u x, i <> j -> nth_error pool i = Some t -> nth_error pool j = Some u -> uses t x -> ~ uses u x.
