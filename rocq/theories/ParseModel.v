(** mxml_load_data over linked nodes: the reader of XmlModel.v with the nodes it really makes, links and frees, as the library calls it
    (top = NULL, MXML_OPAQUE_CALLBACK, no SAX callback). The characters are read by the functions of XmlModel.v. [fresh i] is the address that
    the i-th call of calloc for a node returns; calloc never fails. The attributes are stored in one write after the tag has been read
    (mxml_parse_element stores them one by one). Texts, names and the text buffer are values, not memory. *)
From Verif Require Import CBase XmlEntity XmlModel NodeModel NodeBuild.

Definition set_val (v : payload) (c : cell payload) : cell payload := mkCell (c_parent c) (c_prev c) (c_next c) (c_child c) (c_last c) v.
(** mxml-file.c 1393-1402: heap, number of nodes made, parent, first, buffer, type == MXML_OPAQUE *)
Record hstate := mkHS { hs_heap : nheap payload; hs_made : nat; hs_parent : option nat; hs_first : option nat; hs_buf : cstr; hs_opaque : bool }.
(** One iteration of the loop: carry on, return, undefined behaviour, a read beyond the string, or out of fuel. *)
Inductive hres := HGo (s : hstate) (t : list tok) | HEnd (h : nheap payload) (r : option nat) | HUB | HOver | HLoop.

(** mxmlDelete(first) and return NULL: 2083-2090, 2068-2070. mxmlDelete(NULL) does nothing. *)
Definition h_delete (fuel : nat) (h : nheap payload) (a : option nat) (k : nheap payload -> hres) : hres :=
  match a with
  | None => k h
  | Some f => match delete fuel h f with Some (Ok h') => k h' | Some UB => HUB | None => HLoop end
  end.
Definition h_error (fuel : nat) (s : hstate) : hres := h_delete fuel (hs_heap s) (hs_first s) (fun h => HEnd h None).
(** 2059-2060 *)
Fixpoint root_of (fuel : nat) (h : nheap payload) (a : nat) : option (outcome nat) :=
  match fuel with
  | O => None
  | S f => match h a with
           | None => Some UB
           | Some c => match c_parent c with None => Some (Ok a) | Some p => root_of f h p end
           end
  end.
(** 2049-2077 *)
Definition h_finish (fuel : nat) (s : hstate) : hres :=
  match hs_parent s with
  | None => HEnd (hs_heap s) (hs_first s)
  | Some p => match root_of fuel (hs_heap s) p with
              | None => HLoop
              | Some UB => HUB
              | Some (Ok r) => if Nat.eqb r p then HEnd (hs_heap s) (Some p) else h_error fuel s
              end
  end.
Definition or_first (first : option nat) (a : nat) : option nat := match first with Some f => Some f | None => Some a end.
(** !parent && first *)
Definition h_second_root (s : hstate) : bool := match hs_parent s, hs_first s with None, Some _ => true | _, _ => false end.
(** 1632-1663, 1700-1731, 1767-1811, 1855-1899 *)
Definition h_special (fresh : nat -> nat) (fuel : nat) (name : cstr) (becomes_parent : bool) (s : hstate) (t : list tok) : hres :=
  if h_second_root s then h_error fuel s
  else
    let a := fresh (hs_made s) in
    match new_node (hs_heap s) a (hs_parent s) (PElem name []) with
    | UB => HUB
    | Ok h =>
        match hs_parent s with
        | None => if becomes_parent then HGo (mkHS h (S (hs_made s)) (Some a) (or_first (hs_first s) a) [] true) t
                  else HGo (mkHS h (S (hs_made s)) None (or_first (hs_first s) a) [] (hs_opaque s)) t
        | Some p => HGo (mkHS h (S (hs_made s)) (Some p) (or_first (hs_first s) a) [] (hs_opaque s)) t
        end
    end.
(** What reading characters gives; [bad] is what follows a failure. *)
Definition h_read {A} (r : res A) (bad : hres) (k : A -> hres) : hres :=
  match r with Ret a => k a | Fail => bad | OverRead => HOver | NoFuel => HLoop end.
(** 1907-1942: the name of the parent is compared, then node = parent, parent = parent->parent *)
Definition h_close (fuel : nat) (name : cstr) (ch : Z) (s : hstate) (t : list tok) : hres :=
  match hs_parent s with
  | None => h_error fuel s
  | Some p =>
      match hs_heap s p with
      | None => HUB
      | Some c =>
          match c_val c with
          | PText _ => HUB
          | PElem n _ =>
              if str_eqb name n
              then h_read (skip_to_gt ch t) (h_error fuel s) (fun t1 => HGo (mkHS (hs_heap s) (hs_made s) (c_parent c) (hs_first s) [] (hs_opaque s)) t1)
              else h_error fuel s
          end
      end
  end.
(** 1949-2018: the node is made before its attributes are read; first is set only afterwards. After a bad "/" the node is deleted (1982). *)
Definition h_open (fresh : nat -> nat) (fuel : nat) (name : cstr) (ch : Z) (s : hstate) (t : list tok) : hres :=
  if h_second_root s then h_error fuel s
  else
    let a := fresh (hs_made s) in
    match new_node (hs_heap s) a (hs_parent s) (PElem name []) with
    | UB => HUB
    | Ok h =>
        let s1 := mkHS h (S (hs_made s)) (hs_parent s) (hs_first s) [] (hs_opaque s) in
        h_read (if mxml_isspace ch then parse_element (S (List.length t)) [] t
                else if ch =? 47 then expect_gt 47 [] t
                else Ret (ch, [], t))
               (if mxml_isspace ch then h_error fuel s1
                else h_delete fuel h (Some a) (fun h1 => h_error fuel (mkHS h1 (S (hs_made s)) (hs_parent s) (hs_first s) [] (hs_opaque s))))
               (fun r =>
                let '(ch1, attrs, t1) := r in
                match modify h a (set_val (PElem name attrs)) with
                | UB => HUB
                | Ok h2 =>
                    let s2 := mkHS h2 (S (hs_made s)) (hs_parent s) (or_first (hs_first s) a) [] (hs_opaque s) in
                    if ch1 =? EOF then h_finish fuel s2
                    else if ch1 =? 47 then HGo s2 t1
                    else HGo (mkHS h2 (S (hs_made s)) (Some a) (or_first (hs_first s) a) [] true) t1
                end)
    end.
(** 1561-2021: after '<' *)
Definition h_tag (fresh : nat -> nat) (fuel : nat) (s : hstate) (t : list tok) : hres :=
  h_read (collect true name_before name_after (fun _ => false) None t []) (h_error fuel s) (fun r =>
  let '(ch, name, t1) := r in
  if str_eqb name COMMENT then
    h_read (collect false comment_before never (fun _ => false) None t1 name) (h_error fuel s) (fun r2 =>
    let '(ch2, name2, t2) := r2 in
    if ch2 =? 62 then h_special fresh fuel name2 false s t2 else h_error fuel s)
  else if str_eqb name CDATA then
    h_read (collect false cdata_before never (fun _ => false) None t1 name) (h_error fuel s) (fun r2 =>
    let '(ch2, name2, t2) := r2 in
    if ch2 =? 62 then h_special fresh fuel name2 false s t2 else h_error fuel s)
  else match name with
       | 63 :: _ =>
           h_read (collect false pi_before never (fun _ => false) None t1 name) (h_error fuel s) (fun r2 =>
           let '(ch2, name2, t2) := r2 in
           if ch2 =? 62 then h_special fresh fuel name2 true s t2 else h_error fuel s)
       | 33 :: _ =>
           h_read (if ch =? 62 then Ret (ch, name, t1)
                   else collect true decl_before never (fun _ => false) None t1 (name ++ utf8 ch)) (h_error fuel s) (fun r2 =>
           let '(ch2, name2, t2) := r2 in
           if ch2 =? 62 then h_special fresh fuel name2 true s t2 else h_error fuel s)
       | 47 :: rest => h_close fuel rest ch s t1
       | _ => h_open fresh fuel name ch s t1
       end).
(** 1442-1531: the text before a tag, mxmlNewOpaque with the current parent, NULL after the root was closed *)
Definition h_flush (fresh : nat -> nat) (s : hstate) : outcome hstate :=
  match hs_buf s with
  | [] => Ok s
  | b => if hs_opaque s
         then obind (new_node (hs_heap s) (fresh (hs_made s)) (hs_parent s) (PText b)) (fun h =>
              Ok (mkHS h (S (hs_made s)) (hs_parent s) (or_first (hs_first s) (fresh (hs_made s))) [] (hs_opaque s)))
         else Ok (mkHS (hs_heap s) (hs_made s) (hs_parent s) (hs_first s) [] (hs_opaque s))
  end.
Definition with_buf (b : cstr) (s : hstate) : hstate := mkHS (hs_heap s) (hs_made s) (hs_parent s) (hs_first s) b (hs_opaque s).
Definition h_step (fresh : nat -> nat) (fuel : nat) (s : hstate) (t : list tok) : hres :=
  match t with
  | [] => h_finish fuel s
  | Bad :: _ => h_finish fuel s
  | Over :: _ => HOver
  | Ch c :: l =>
      if c =? 60 then
        match h_flush fresh s with UB => HUB | Ok s1 => h_tag fresh fuel (with_buf [] s1) l end
      else
        let s1 := if mxml_isspace c && negb (hs_opaque s) then with_buf [] s else s in
        if c =? 38 then
          h_read (get_entity l []) (h_error fuel s) (fun r => HGo (with_buf (hs_buf s1 ++ utf8 (fst r)) s1) (snd r))
        else if hs_opaque s1 || negb (mxml_isspace c)
        then HGo (with_buf (hs_buf s1 ++ utf8 c) s1) l
        else HGo s1 l
  end.
Fixpoint h_run (fresh : nat -> nat) (fuel : nat) (n : nat) (s : hstate) (t : list tok) : hres :=
  match n with
  | O => HLoop
  | S n' => match h_step fresh fuel s t with HGo s' t' => h_run fresh fuel n' s' t' | other => other end
  end.
(** mxmlLoadString / mxmlLoadFile on the characters [t]: the heap afterwards and the pointer returned. *)
Definition load_nodes (fresh : nat -> nat) (fuel : nat) (t : list tok) (h : nheap payload) : hres :=
  h_run fresh fuel (S (List.length t)) (mkHS h 0 None None [] false) t.

(** * Reading a node (mxml-get.c, mxml-attr.c) through its address *)
(** mxml-get.c 94-109 *)
Definition element_ptr (h : nheap payload) (a : nat) : outcome (option cstr) :=
  match h a with Some c => Ok (match c_val c with PElem n _ => Some n | PText _ => None end) | None => UB end.
(** 235-257 *)
Definition opaque_ptr (h : nheap payload) (a : nat) : outcome (option cstr) :=
  match h a with
  | None => UB
  | Some c => match c_val c with
              | PText s => Ok (Some s)
              | PElem _ _ => match c_child c with
                             | None => Ok None
                             | Some k => match h k with
                                         | None => UB
                                         | Some ck => match c_val ck with PText s => Ok (Some s) | PElem _ _ => Ok None end
                                         end
                             end
              end
  end.
(** mxml-attr.c 102-151 *)
Definition attr_ptr (h : nheap payload) (a : nat) (name : cstr) : outcome (option cstr) :=
  match h a with Some c => Ok (match c_val c with PElem _ at_ => get_attr at_ name | PText _ => None end) | None => UB end.
(** mxml-get.c 121-136 and then 208-223 until NULL; None = the fuel ran out *)
Fixpoint siblings_ptr (fuel : nat) (h : nheap payload) (a : option nat) : option (outcome (list nat)) :=
  match a with
  | None => Some (Ok [])
  | Some x => match fuel with
              | O => None
              | S f => match h x with
                       | None => Some UB
                       | Some c => match siblings_ptr f h (c_next c) with Some (Ok l) => Some (Ok (x :: l)) | other => other end
                       end
              end
  end.
Definition children_ptr (fuel : nat) (h : nheap payload) (a : nat) : option (outcome (list nat)) :=
  match h a with
  | None => Some UB
  | Some c => siblings_ptr fuel h (match c_val c with PElem _ _ => c_child c | PText _ => None end)
  end.
