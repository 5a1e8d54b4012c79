(** What reference counting promises. The client's books: for every object ever created its type, what
    was stored in it, and how many references the client holds. An object must be alive exactly while
    the client holds a reference to it or it is stored in an object that is alive. *)
From Verif Require Import CBase RefModel.

Record entry := mkEntry { e_kind : kind; e_fields : list (list address); e_held : nat }.
Definition books := list entry.
Definition entry_of (b : books) (a : address) : option entry := nth_error b a.
Definition held (b : books) (a : address) : nat := match entry_of b a with Some e => e_held e | None => 0 end.
Definition kind_is (b : books) (a : address) (k : kind) : Prop := exists e, entry_of b a = Some e /\ e_kind e = k.
(** how often [a] is stored in the fields *)
Definition stored (fields : list (list address)) (a : address) : nat := count_occ Nat.eq_dec (List.concat fields) a.
Inductive alive (b : books) : address -> Prop :=
| alive_held a : (0 < held b a)%nat -> alive b a
| alive_stored p e a : alive b p -> entry_of b p = Some e -> In a (List.concat (e_fields e)) -> alive b a.

(** What each type may contain *)
Definition contains (k : kind) : list kind :=
  match k with
  | KString | KConfig | KSection | KRange => []
  | KSections => [KSection] | KLayout => [KString; KString; KSections] | KLayouts => [KLayout]
  | KPage => [KString] | KPreview => [KPage] | KFsource => [KString; KString] | KFmetadata => [KFsource]
  | KFile => [KString; KString; KString; KString; KPreview; KString; KFmetadata] | KFiles => [KFile]
  | KReel => [KString; KFiles] | KReels => [KReel] | KMsource => [KString; KString; KString] | KMetadata => [KMsource]
  | KTocData => [KString; KString; KString; KString; KReels; KMetadata; KLayouts]
  | KFormat => [KConfig] | KAdmin => [KString; KString; KString; KString; KString; KString]
  | KTechnical => [KFormat; KFiles; KFiles] | KControl => [KAdmin; KTechnical] | KRanges => [KRange]
  end.
Definition counted (k : kind) : Prop := k <> KString /\ k <> KConfig.
Definition change (b : books) (a : address) (f : entry -> entry) : books :=
  map (fun q => if (fst q =? a)%nat then f (snd q) else snd q) (combine (seq 0 (List.length b)) b).
Definition add_held (n : Z) (e : entry) : entry := mkEntry (e_kind e) (e_fields e) (Z.to_nat (Z.of_nat (e_held e) + n)).
(** the client gives away one reference for every pointer stored *)
Definition give (b : books) (fields : list (list address)) : books :=
  map (fun q => add_held (- Z.of_nat (stored fields (fst q))) (snd q)) (combine (seq 0 (List.length b)) b).
(** A call is allowed when the client has the references it gives away and the objects it uses are
    alive; the books afterwards. *)
Inductive allowed : books -> call -> books -> Prop :=
| allowed_create b k fields : Forall2 (fun k l => forall a, In a l -> kind_is b a k) (contains k) fields ->
    (forall a, stored fields a <= held b a)%nat ->
    allowed b (Create k fields) (give b fields ++ [mkEntry k fields 1])
| allowed_append b k k' a i c : alive b a -> kind_is b a k -> nth_error (contains k) i = Some k' -> kind_is b c k' -> (0 < held b c)%nat ->
    allowed b (Append k a i c) (change (change b c (add_held (-1))) a (fun e => mkEntry (e_kind e) (append_field (e_fields e) i c) (e_held e)))
| allowed_clear b k k' a i : alive b a -> kind_is b a k -> nth_error (contains k) i = Some k' ->
    allowed b (Clear k k' a i) (change b a (fun e => mkEntry (e_kind e) (clear_field (e_fields e) i) (e_held e)))
| allowed_new b k a : alive b a -> kind_is b a k -> counted k -> allowed b (NewReference k (Some a)) (change b a (add_held 1))
| allowed_new_null b k : allowed b (NewReference k None) b
| allowed_free b k a : kind_is b a k -> (0 < held b a)%nat -> allowed b (Free k (Some a)) (change b a (add_held (-1)))
| allowed_free_null b k : allowed b (Free k None) b.
Inductive history : books -> list call -> books -> Prop :=
| history_nil b : history b [] b
| history_cons b1 c b2 l b3 : allowed b1 c b2 -> history b2 l b3 -> history b1 (c :: l) b3.

(** [a'] is a copy of [a]: same types, and everything stored in it is a copy of what is stored in [a].
    Nothing is nested more than 8 deep. *)
Fixpoint is_copy (depth : nat) (b : books) (a a' : address) : Prop :=
  match depth with
  | O => False
  | S d => exists e e', entry_of b a = Some e /\ entry_of b a' = Some e' /\ e_kind e' = e_kind e /\ Forall2 (Forall2 (is_copy d b)) (e_fields e) (e_fields e')
  end.
Definition creates (c : call) : Prop := match c with Create _ _ => True | _ => False end.
