(** What the recovery tool must do. Independent of ToolModel.v. *)
From Verif Require Import CBase.
Notation length := List.length.

(** * Names *)
Definition separator (c : Z) : Prop := c = 47 \/ c = 92.
(** [name] is the part of [path] after the last separator. *)
Definition last_part (path name : cstr) : Prop :=
  exists dir, path = dir ++ name /\ (dir = [] \/ exists dir' c, dir = dir' ++ [c] /\ separator c) /\ ~ Exists separator name.
(** [stem] is [name] up to its first dot. *)
Definition before_dot (name stem : cstr) : Prop :=
  ~ In 46 stem /\ (name = stem \/ exists ext, name = stem ++ 46 :: ext).

(** What a decoder with memory gives for each of the [images], after those it was [given] before. *)
Fixpoint outputs {A B} (dec : list A -> B) (given images : list A) : list B :=
  match images with [] => [] | im :: l => dec (given ++ [im]) :: outputs dec (given ++ [im]) l end.

(** * Placement of a file in the output of frames: from byte [start] of the first to byte [fin] of the last *)
Definition placed_bytes (frames : list (list Z)) (start fin : Z) : list Z :=
  firstn (length (List.concat (removelast frames)) + Z.to_nat fin + 1 - Z.to_nat start) (skipn (Z.to_nat start) (List.concat frames)).
(** The first byte is in the first frame, the last one in the last, and not before the first. *)
Definition well_placed (frames : list (list Z)) (start fin : Z) : Prop :=
  frames <> [] /\ 0 <= start < Z.of_nat (length (hd [] frames)) /\ 0 <= fin < Z.of_nat (length (last frames [])) /\
  (length frames = 1%nat -> start <= fin).
(** Not a single byte of a longer frame: neither in the first nor in the last frame. *)
Definition never_one_byte (frames : list (list Z)) (start fin : Z) : Prop :=
  match frames with
  | [o] => start < fin \/ length o = 1%nat
  | o :: _ => (start + 1 < Z.of_nat (length o) \/ start = 0) /\ (0 < fin \/ length (last frames []) = 1%nat)
  | [] => True
  end.

(** * Pixels: [depth] bits each, the first one in the lowest bits of its byte, scaled to 0..255 *)
Definition sample (bytes : list Z) (depth k : Z) : Z :=
  (nth (Z.to_nat (k / (8 / depth))) bytes 0 / 2 ^ (depth * (k mod (8 / depth)))) mod 2 ^ depth.
Definition brightness (depth v : Z) : Z := v * (255 / (2 ^ depth - 1)).

(** * File numbers on the command line *)
Definition digits (s : cstr) : Prop := s <> [] /\ Forall (fun c => 48 <= c <= 57) s.
Definition value (s : cstr) : Z := fold_left (fun n c => 10 * n + (c - 48)) s 0.
Definition from_to (a b : Z) : list Z := map (fun k => a + Z.of_nat k) (seq 0 (Z.to_nat (b - a + 1))).
(** "7" is 7; "3-5" is 3, 4, 5. *)
Inductive denotes : cstr -> list Z -> Prop :=
| denotes_number s : digits s -> value s < 2 ^ 31 -> denotes s [value s]
| denotes_range a b : digits a -> digits b -> value a < 2 ^ 31 -> value b < 2 ^ 31 - 1 -> denotes (a ++ 45 :: b) (from_to (value a) (value b)).
(** [l'] is [l] without some elements. *)
Inductive sublist {A} : list A -> list A -> Prop :=
| sub_nil : sublist [] []
| sub_skip x l l' : sublist l l' -> sublist (x :: l) l'
| sub_keep x l l' : sublist l l' -> sublist (x :: l) (x :: l').
(** The first occurrence of each element. *)
Fixpoint keep_first (l : list Z) : list Z :=
  match l with [] => [] | x :: l' => x :: filter (fun y => negb (y =? x)) (keep_first l') end.
(** The files asked for: those of the numbers that exist, each once, in the order asked; without numbers, all. *)
Definition asked (numbers : list Z) (count : Z) : list Z :=
  match numbers with [] => from_to 0 (count - 1) | _ => keep_first (filter (fun n => n <? count) numbers) end.
(** The part of a frame file that holds the pixels: [size] bytes, from byte 32 on when there are 64 bytes more. *)
Definition payload (bytes : list Z) (size : Z) (header : bool) : list Z := firstn (Z.to_nat size) (skipn (if header then 32%nat else 0%nat) bytes).

(** * Names of frames *)
(** No character with a meaning in a template. *)
Definition plain (s : cstr) : Prop := Forall (fun c => c <> 37 /\ c <> 42) s.
(** [s] is [n] in decimal, with zeros in front up to [w] characters. *)
Definition padded (s : cstr) (n w : Z) : Prop :=
  digits s /\ value s = n /\ (Z.of_nat (length s) = w \/ w < Z.of_nat (length s) /\ (hd 0 s <> 48 \/ s = [48])).
