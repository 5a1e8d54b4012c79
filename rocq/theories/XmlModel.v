(** The bundled Mini-XML reader and writer (thirdparty/minixml/src), as the library uses it:
    every document is loaded with MXML_OPAQUE_CALLBACK, no SAX callback and top = NULL, and every
    save sets the wrap margin to 0, so the integer, real, text, custom and SAX branches are dead.
    Allocation is assumed to succeed. *)
From Verif Require Import CBase XmlEntity.

(** mxml.h: mxml_node_t. Comments, CDATA sections, declarations and processing instructions are
    elements whose name holds the whole tag; NULL attribute values are [None]. *)
Inductive node : Type :=
| Elem (name : cstr) (attrs : list (cstr * option cstr)) (children : list node)
| Opaque (text : cstr).

(** mxml-attr.c 102-151 *)
Fixpoint get_attr (attrs : list (cstr * option cstr)) (name : cstr) : option cstr :=
  match attrs with
  | [] => None
  | (n, v) :: l => if str_eqb n name then v else get_attr l name
  end.
(** mxml-attr.c 248-309 *)
Fixpoint set_attr (attrs : list (cstr * option cstr)) (name : cstr) (value : option cstr) :=
  match attrs with
  | [] => [(name, value)]
  | (n, v) :: l => if str_eqb n name then (n, value) :: l else (n, v) :: set_attr l name value
  end.

(** * Characters: mxml-file.c 40, 74-78 *)
Definition bad_char (c : Z) : bool := (c <? 32) && negb (c =? 10) && negb (c =? 13) && negb (c =? 9).
Definition mxml_isspace (c : Z) : bool := (c =? 32) || (c =? 9) || (c =? 13) || (c =? 10).
(** 595-667 mxml_add_char: the bytes appended (int to char keeps the low 8 bits). The growth of the
    buffer is modelled in XmlMem.v. *)
Definition utf8 (c : Z) : cstr :=
  if c <? 128 then [u8 c]
  else if c <? 2048 then [Z.lor 192 (Z.shiftr c 6); Z.lor 128 (Z.land c 63)]
  else if c <? 65536 then [Z.lor 224 (Z.shiftr c 12); Z.lor 128 (Z.land (Z.shiftr c 6) 63); Z.lor 128 (Z.land c 63)]
  else [u8 (Z.lor 240 (Z.shiftr c 18)); Z.lor 128 (Z.land (Z.shiftr c 12) 63);
        Z.lor 128 (Z.land (Z.shiftr c 6) 63); Z.lor 128 (Z.land c 63)].

(** * mxml_string_getc (2366-2610) as a stream: the results of the successive calls on a C string.
    [Ch c]: the call returns c; [Bad]: it returns EOF after having moved the read position;
    [Over]: it reads beyond the terminating NUL. At the end of the list every call returns EOF. *)
Inductive tok := Ch (c : Z) | Bad | Over.
Definition emit (c : Z) : tok := if bad_char c then Bad else Ch c.
Definition is_high (c : Z) : bool := (55296 <=? c) && (c <=? 56319).
Definition pair_tok (hi lo : Z) : tok :=
  if (lo <? 56320) || (57343 <=? lo) then Bad else Ch (Z.lor (Z.shiftl (Z.land hi 1023) 10) (Z.land lo 1023) + 65536).
(** 2518-2557: a missing second byte is the NUL itself, and the position moves past it. *)
Fixpoint tok16be (l : cstr) : list tok :=
  match l with
  | [] => []
  | c :: [] => if bad_char (c * 256) then [Bad; Over]
               else if is_high (c * 256) then [Over] else [Ch (c * 256); Over]
  | c :: d :: l1 =>
      let w := c * 256 + d in
      if bad_char w then Bad :: tok16be l1
      else if is_high w then
        match l1 with
        | [] => [Bad]
        | e :: [] => [pair_tok w (e * 256); Over]
        | e :: f :: l2 => pair_tok w (e * 256 + f) :: tok16be l2
        end
      else Ch w :: tok16be l1
  end.
(** 2559-2605: the NUL is read as the low byte of a word. *)
Fixpoint tok16le (l : cstr) : list tok :=
  match l with
  | [] => [Over]
  | c :: [] => [if bad_char c then Bad else Ch c; Over]
  | c :: d :: l1 =>
      let w := c + d * 256 in
      if bad_char w then Bad :: tok16le l1
      else if is_high w then
        match l1 with
        | [] => [Over]
        | e :: [] => Bad :: tok16le l1
        | e :: f :: l2 => pair_tok w (f * 256 + e) :: tok16le l2
        end
      else Ch w :: tok16le l1
  end.
Definition is_cont (c : Z) : bool := Z.land c 192 =? 128.
(** 2375-2516 *)
Fixpoint tok8 (l : cstr) : list tok :=
  match l with
  | [] => []
  | c :: l1 =>
      if c <? 128 then emit c :: tok8 l1
      else if c =? 254 then match l1 with d :: l2 => if d =? 255 then tok16be l2 else Bad :: tok8 l1 | [] => [Bad] end
      else if c =? 255 then match l1 with d :: l2 => if d =? 254 then tok16le l2 else Bad :: tok8 l1 | [] => [Bad] end
      else if Z.land c 224 =? 192 then
        match l1 with
        | d :: l2 =>
            if is_cont d then
              let ch := Z.lor (Z.shiftl (Z.land c 31) 6) (Z.land d 63) in
              (if ch <? 128 then Bad else Ch ch) :: tok8 l2
            else Bad :: tok8 l1
        | [] => [Bad]
        end
      else if Z.land c 240 =? 224 then
        match l1 with
        | d :: e :: l3 =>
            if is_cont d && is_cont e then
              let ch := Z.lor (Z.shiftl (Z.lor (Z.shiftl (Z.land c 15) 6) (Z.land d 63)) 6) (Z.land e 63) in
              if ch <? 2048 then Bad :: tok8 l3
              else if ch =? 65279 then tok8 l3
              else Ch ch :: tok8 l3
            else Bad :: tok8 l1
        | _ => Bad :: tok8 l1
        end
      else if Z.land c 248 =? 240 then
        match l1 with
        | d :: e :: f :: l4 =>
            if is_cont d && is_cont e && is_cont f then
              let ch := Z.lor (Z.shiftl (Z.lor (Z.shiftl (Z.lor (Z.shiftl (Z.land c 7) 6) (Z.land d 63)) 6) (Z.land e 63)) 6) (Z.land f 63) in
              (if ch <? 65536 then Bad else Ch ch) :: tok8 l4
            else Bad :: tok8 l1
        | _ => Bad :: tok8 l1
        end
      else Bad :: tok8 l1
  end.

(** Outcome of a reader function: a value, [Fail] (the error label: NULL is returned), [OverRead]
    (the call reads beyond the end of the input) or [NoFuel] (never the case, XmlMem.v). *)
Inductive res (A : Type) : Type := Ret (a : A) | Fail | OverRead | NoFuel.
Arguments Ret {A} a. Arguments Fail {A}. Arguments OverRead {A}. Arguments NoFuel {A}.
Definition rbind {A B} (m : res A) (f : A -> res B) : res B :=
  match m with Ret a => f a | Fail => Fail | OverRead => OverRead | NoFuel => NoFuel end.

Definition EOF := -1.
Definition getc (t : list tok) : res (Z * list tok) :=
  match t with
  | [] => Ret (EOF, [])
  | Ch c :: l => Ret (c, l)
  | Bad :: l => Ret (EOF, l)
  | Over :: _ => OverRead
  end.

(** * mxml_get_entity (1324-1377) *)
Definition ent_char (c : Z) : bool :=
  (c <=? 126) && (((48 <=? c) && (c <=? 57)) || ((65 <=? c) && (c <=? 90)) || ((97 <=? c) && (c <=? 122)) || (c =? 35)).
Definition hex_digit (c : Z) : option Z :=
  if (48 <=? c) && (c <=? 57) then Some (c - 48)
  else if (65 <=? c) && (c <=? 70) then Some (c - 55)
  else if (97 <=? c) && (c <=? 102) then Some (c - 87)
  else None.
Fixpoint read_hex (s : cstr) (acc : Z) : Z :=
  match s with
  | c :: l => match hex_digit c with Some d => read_hex l (16 * acc + d) | None => acc end
  | [] => acc
  end.
(** strtol(s, NULL, 16) on a string of letters, digits and '#' (so without blanks and sign):
    an optional 0x prefix counts only when a hexadecimal digit follows. *)
Definition strtol16 (s : cstr) : Z :=
  clamp64 (match s with
           | 48 :: x :: d :: l =>
               if ((x =? 120) || (x =? 88)) && (match hex_digit d with Some _ => true | None => false end)
               then read_hex (d :: l) 0 else read_hex s 0
           | _ => read_hex s 0
           end).
(** 1358-1377, for the collected name: the character, or None for EOF. *)
Definition ent_value (e : cstr) : option Z :=
  let ch := match e with
            | 35 :: 120 :: r => i32 (strtol16 r)
            | 35 :: r => atoi r
            | _ => entity_value e
            end in
  if bad_char ch then None else Some ch.
(** 1337-1356, one character: keep reading, or the final answer. *)
Inductive ent_res := More (e : cstr) | Done (v : option Z).
Definition ent_step (e : cstr) (c : Z) : ent_res :=
  if ent_char c then
    if (List.length e <? 63)%nat then More (e ++ [c]) else Done None
  else if c =? 59 then Done (ent_value e)
  else Done None.
Fixpoint get_entity (t : list tok) (e : cstr) : res (Z * list tok) :=
  match t with
  | [] => Fail
  | Bad :: _ => Fail
  | Over :: _ => OverRead
  | Ch c :: l => match ent_step e c with
                 | More e' => get_entity l e'
                 | Done (Some v) => Ret (v, l)
                 | Done None => Fail
                 end
  end.

(** * The character-collecting loops
    All of them have the shape [while ((ch = getc()) != EOF) ...]: a test on the raw character that
    stops, fails or adds it to the buffer, an optional entity expansion, and an optional test after
    the addition. [ent = Some e]: inside an entity whose name so far is e. The result is the last
    character (EOF when the input ended), the buffer and the remaining input. *)
Inductive verdict := Stop | Err | Add.
Fixpoint collect (ents : bool) (before : Z -> cstr -> verdict) (after : Z -> cstr -> bool)
  (after_ent : Z -> bool) (ent : option cstr) (t : list tok) (buf : cstr) : res (Z * cstr * list tok) :=
  match t with
  | [] => match ent with Some _ => Fail | None => Ret (EOF, buf, []) end
  | Bad :: l => match ent with Some _ => Fail | None => Ret (EOF, buf, l) end
  | Over :: _ => OverRead
  | Ch c :: l =>
      match ent with
      | Some e =>
          match ent_step e c with
          | More e' => collect ents before after after_ent (Some e') l buf
          | Done None => Fail
          | Done (Some v) => if after_ent v then Ret (v, buf ++ utf8 v, l)
                             else collect ents before after after_ent None l (buf ++ utf8 v)
          end
      | None =>
          if ents && (c =? 38) then collect ents before after after_ent (Some []) l buf
          else match before c buf with
               | Stop => Ret (c, buf, l)
               | Err => Fail
               | Add => let buf' := buf ++ utf8 c in
                        if after c buf' then Ret (c, buf', l)
                        else collect ents before after after_ent None l buf'
               end
      end
  end.
Definition never {A} (_ : Z) (_ : A) : bool := false.

(** 1569-1592: the tag name. *)
Definition name_before (c : Z) (buf : cstr) : verdict :=
  if mxml_isspace c || (c =? 62) || ((c =? 47) && negb (null_or_empty (Some buf))) then Stop
  else if c =? 60 then Err
  else if (c <? 48) && negb (c =? 33) && negb (c =? 45) && negb (c =? 46) && negb (c =? 47) then Err
  else Add.
Definition COMMENT := s2z "!--".
Definition CDATA := s2z "![CDATA[".
Definition name_after (_ : Z) (buf : cstr) : bool :=
  str_eqb buf (s2z "?") || str_eqb buf COMMENT || str_eqb buf CDATA.
(** 1602-1609 *)
Definition comment_before (c : Z) (buf : cstr) : verdict :=
  if (c =? 62) && (4 <? List.length buf)%nat &&
     (match rev buf with a :: b :: d :: _ => (a =? 45) && (b =? 45) && negb (d =? 45) | _ => false end)
  then Stop else Add.
(** 1671-1677 *)
Definition cdata_before (c : Z) (buf : cstr) : verdict :=
  if (c =? 62) && (match rev buf with a :: b :: _ => (a =? 93) && (b =? 93) | _ => false end) then Stop else Add.
(** 1739-1745 *)
Definition pi_before (c : Z) (buf : cstr) : verdict :=
  if (c =? 62) && (match rev buf with a :: _ => a =? 63 | _ => false end) then Stop else Add.
(** 1819-1833 *)
Definition decl_before (c : Z) (_ : cstr) : verdict := if c =? 62 then Stop else Add.

(** * mxml_parse_element (2098-2358) *)
(** 2214-2226, 2195-2206, 2261-2272, 2285-2296 *)
Definition aname_before (c : Z) (_ : cstr) : verdict :=
  if mxml_isspace c || (c =? 61) || (c =? 47) || (c =? 62) || (c =? 63) then Stop else Add.
Definition quote_before (q : Z) (c : Z) (_ : cstr) : verdict := if c =? q then Stop else Add.
Definition bare_before (c : Z) (_ : cstr) : verdict :=
  if mxml_isspace c || (c =? 61) || (c =? 47) || (c =? 62) then Stop else Add.
Definition add_all (_ : Z) (_ : cstr) : verdict := Add.
(** 2234-2235: skip blanks, starting from the character already read. *)
Fixpoint skip_blanks (ch : Z) (t : list tok) : res (Z * list tok) :=
  if mxml_isspace ch then
    match t with
    | [] => Ret (EOF, [])
    | Bad :: l => Ret (EOF, l)
    | Over :: _ => OverRead
    | Ch c :: l => skip_blanks c l
    end
  else Ret (ch, t).
Definition is_quote (c : Z) : bool := (c =? 34) || (c =? 39).
Notation attr_list := (list (cstr * option cstr)) (only parsing).
(** One attribute starting with character [c] (2184-2312): the character after it, the attributes. *)
Definition parse_attr (attrs : attr_list) (c : Z) (t : list tok) : res (Z * attr_list * list tok) :=
  rbind (if is_quote c
         then collect true add_all (fun x _ => x =? c) (fun x => x =? c) None t [u8 c]
         else collect true aname_before never (fun _ => false) None t [u8 c]) (fun r =>
  let '(ch, name, t1) := r in
  match get_attr attrs name with
  | Some _ => Fail
  | None =>
      rbind (skip_blanks ch t1) (fun r2 =>
      let (ch2, t2) := r2 in
      if ch2 =? 61 then
        rbind (skip_blanks 32 t2) (fun r3 =>
        let (ch3, t3) := r3 in
        if ch3 =? EOF then Fail
        else
          rbind (if is_quote ch3
                 then collect true (quote_before ch3) never (fun _ => false) None t3 []
                 else collect true bare_before never (fun _ => false) None t3 [u8 ch3]) (fun r4 =>
          let '(ch4, value, t4) := r4 in
          Ret (ch4, set_attr attrs name (Some value), t4)))
      else Fail)
  end).
(** 2161-2171 and 2318-2336: after '/' or '?' only '>' may follow. *)
Definition expect_gt (ch : Z) (attrs : attr_list) (t : list tok) : res (Z * attr_list * list tok) :=
  rbind (getc t) (fun r => if fst r =? 62 then Ret (ch, attrs, snd r) else Fail).
(** The main loop; every result other than Ret is EOF for the caller, which fails. *)
Fixpoint parse_element (fuel : nat) (attrs : attr_list) (t : list tok) : res (Z * attr_list * list tok) :=
  match fuel with
  | O => NoFuel
  | S f =>
      rbind (getc t) (fun r =>
      let (ch, t1) := r in
      if ch =? EOF then Fail
      else if mxml_isspace ch then parse_element f attrs t1
      else if (ch =? 47) || (ch =? 63) then expect_gt ch attrs t1
      else if ch =? 60 then Fail
      else if ch =? 62 then Ret (ch, attrs, t1)
      else
        rbind (parse_attr attrs ch t1) (fun r2 =>
        let '(ch2, attrs2, t2) := r2 in
        if (ch2 =? 47) || (ch2 =? 63) then expect_gt ch2 attrs2 t2
        else if ch2 =? 62 then Ret (ch2, attrs2, t2)
        else parse_element f attrs2 t2))
  end.

(** * mxml_load_data (1385-2090) *)
(** An open element: its name, attributes and the children so far, last first. *)
Record frame := mkFrame { fr_name : cstr; fr_attrs : attr_list; fr_kids : list node }.
(** [stack]: the parent and its ancestors, innermost first (empty: parent is NULL).
    [top]: the finished top-level node, once parent is NULL again.
    [buf]: the text read since the last tag; [opaque]: type is MXML_OPAQUE rather than MXML_IGNORE. *)
Record pstate := mkP { stack : list frame; top : option node; buf : cstr; opaque : bool }.
Definition close_frame (f : frame) : node := Elem (fr_name f) (fr_attrs f) (rev (fr_kids f)).
(** mxmlNewElement / mxmlNewOpaque with the current parent. *)
Definition attach (n : node) (st : pstate) : pstate :=
  match stack st with
  | f :: l => mkP (mkFrame (fr_name f) (fr_attrs f) (n :: fr_kids f) :: l) (top st) [] (opaque st)
  | [] => mkP [] (match n, top st with
                  | _, Some x => Some x
                  | Elem _ _ _, None => Some n
                  | Opaque _, None => None end) [] (opaque st)
  end.
Definition push (f : frame) (st : pstate) : pstate := mkP (f :: stack st) (top st) [] true.
(** !parent && first *)
Definition second_root (st : pstate) : bool :=
  match stack st, top st with [], Some _ => true | _, _ => false end.
(** 2055-2077 *)
Definition finish (st : pstate) : option node :=
  match stack st with
  | [] => top st
  | [f] => Some (close_frame f)
  | _ => None
  end.
(** One iteration of the main loop: carry on, or return. *)
Inductive stepr := Go (st : pstate) (t : list tok) | End (r : option node).
(** A node without content: it becomes the parent when there is none (1797-1810, 1885-1898). *)
Definition special (name : cstr) (becomes_parent : bool) (st : pstate) (t : list tok) : res stepr :=
  if second_root st then Fail
  else match stack st with
       | [] => if becomes_parent then Ret (Go (push (mkFrame name [] []) st) t)
               else Ret (Go (attach (Elem name [] []) st) t)
       | _ => Ret (Go (attach (Elem name [] []) st) t)
       end.
(** 1901-1942 *)
Fixpoint skip_to_gt (ch : Z) (t : list tok) : res (list tok) :=
  if (ch =? 62) || (ch =? EOF) then Ret t
  else match t with
       | [] => Ret []
       | Bad :: l => Ret l
       | Over :: _ => OverRead
       | Ch c :: l => skip_to_gt c l
       end.
Definition close_tag (name : cstr) (ch : Z) (st : pstate) (t : list tok) : res stepr :=
  match stack st with
  | [] => Fail
  | f :: l =>
      if str_eqb name (fr_name f) then
        rbind (skip_to_gt ch t) (fun t1 => Ret (Go (attach (close_frame f) (mkP l (top st) [] (opaque st))) t1))
      else Fail
  end.
(** 1943-2018 *)
Definition open_element (name : cstr) (ch : Z) (st : pstate) (t : list tok) : res stepr :=
  if second_root st then Fail
  else
    rbind (if mxml_isspace ch then parse_element (S (List.length t)) [] t
           else if ch =? 47 then expect_gt 47 [] t
           else Ret (ch, [], t)) (fun r =>
    let '(ch1, attrs, t1) := r in
    if ch1 =? EOF then Ret (End (finish (attach (Elem name attrs []) st)))
    else if ch1 =? 47 then Ret (Go (attach (Elem name attrs []) st) t1)
    else Ret (Go (push (mkFrame name attrs []) st) t1)).
(** 1561-2021: a tag, after its '<'. *)
Definition tag (st : pstate) (t : list tok) : res stepr :=
  rbind (collect true name_before name_after (fun _ => false) None t []) (fun r =>
  let '(ch, name, t1) := r in
  if str_eqb name COMMENT then
    rbind (collect false comment_before never (fun _ => false) None t1 name) (fun r2 =>
    let '(ch2, name2, t2) := r2 in
    if ch2 =? 62 then special name2 false st t2 else Fail)
  else if str_eqb name CDATA then
    rbind (collect false cdata_before never (fun _ => false) None t1 name) (fun r2 =>
    let '(ch2, name2, t2) := r2 in
    if ch2 =? 62 then special name2 false st t2 else Fail)
  else match name with
       | 63 :: _ =>
           rbind (collect false pi_before never (fun _ => false) None t1 name) (fun r2 =>
           let '(ch2, name2, t2) := r2 in
           if ch2 =? 62 then special name2 true st t2 else Fail)
       | 33 :: _ =>
           rbind (if ch =? 62 then Ret (ch, name, t1)
                  else collect true decl_before never (fun _ => false) None t1 (name ++ utf8 ch)) (fun r2 =>
           let '(ch2, name2, t2) := r2 in
           if ch2 =? 62 then special name2 true st t2 else Fail)
       | 47 :: rest => close_tag rest ch st t1
       | _ => open_element name ch st t1
       end).
(** 1440-1531: text collected before a tag becomes a node (dropped while nothing is open). *)
Definition flush (st : pstate) : pstate :=
  match buf st with
  | [] => st
  | b => if opaque st then attach (Opaque b) st else mkP (stack st) (top st) [] (opaque st)
  end.
Definition step (st : pstate) (t : list tok) : res stepr :=
  match t with
  | [] => Ret (End (finish st))
  | Bad :: _ => Ret (End (finish st))
  | Over :: _ => OverRead
  | Ch c :: l =>
      if c =? 60 then tag (mkP (stack (flush st)) (top (flush st)) [] (opaque st)) l
      else
        let st1 := if mxml_isspace c && negb (opaque st) then mkP (stack st) (top st) [] (opaque st) else st in
        if c =? 38 then
          rbind (get_entity l []) (fun r =>
          Ret (Go (mkP (stack st1) (top st1) (buf st1 ++ utf8 (fst r)) (opaque st1)) (snd r)))
        else if opaque st1 || negb (mxml_isspace c)
        then Ret (Go (mkP (stack st1) (top st1) (buf st1 ++ utf8 c) (opaque st1)) l)
        else Ret (Go st1 l)
  end.
Fixpoint run_parser (fuel : nat) (st : pstate) (t : list tok) : res (option node) :=
  match fuel with
  | O => NoFuel
  | S f => rbind (step st t) (fun r => match r with Go st' t' => run_parser f st' t' | End n => Ret n end)
  end.
(** mxmlLoadString(NULL, s, MXML_OPAQUE_CALLBACK): [Fail] stands for NULL through the error label,
    [Ret None] for NULL at the end of the input. *)
Definition load_string (s : cstr) : res (option node) :=
  run_parser (S (List.length (tok8 s))) (mkP [] None [] false) (tok8 s).
(** The node the caller receives, None for NULL; meaningful when there is no over-read. *)
Definition loaded (r : res (option node)) : option node := match r with Ret n => n | _ => None end.

(** * The writer *)
(** mxml_write_string 3002-3034 *)
Definition escape_char (c : Z) : cstr :=
  match entity_name c with Some n => 38 :: n ++ [59] | None => [c] end.
Definition escape (s : cstr) : cstr := flat_map escape_char s.
(** mxml_write_name 2641-2708 *)
Fixpoint upto (q : Z) (s : cstr) : cstr :=
  match s with c :: l => if c =? q then [] else c :: upto q l | [] => [] end.
Definition write_name (s : cstr) : cstr :=
  match s with
  | q :: l => if is_quote q then q :: escape (upto q l) ++ [q] else s
  | [] => []
  end.
(** Whitespace callbacks (mxml_write_ws 3042-3073): any function of the ancestors' names (innermost
    first), of the node and of the place. MXML_NO_CALLBACK is [no_ws]. *)
Inductive place := BeforeOpen | AfterOpen | BeforeClose | AfterClose.
Definition ws_cb := list cstr -> node -> place -> cstr.
Definition no_ws : ws_cb := fun _ _ _ => [].
Fixpoint has_prefix (p s : cstr) : bool :=
  match p, s with
  | [], _ => true
  | x :: p', y :: s' => (x =? y) && has_prefix p' s'
  | _, [] => false
  end.
(** 2748-2764 *)
Definition write_tag_name (n : cstr) : cstr :=
  match n with
  | 63 :: _ => n
  | _ => if has_prefix COMMENT n || has_prefix CDATA n then n else write_name n
  end.
(** 2768-2808 with wrap = 0 *)
Definition write_attr (a : cstr * option cstr) : cstr :=
  32 :: write_name (fst a) ++ match snd a with Some v => 61 :: 34 :: escape v ++ [34] | None => [] end.
(** name[0] is '!' or '?' *)
Definition is_special (n : cstr) : bool :=
  match n with c :: _ => (c =? 33) || (c =? 63) | [] => false end.
(** mxml_write_node 2716-2994, as a recursion over the tree (the C code walks the same tree with
    parent and sibling pointers; [node] has no next sibling in any call of the library). *)
Fixpoint write_node (ws : ws_cb) (path : list cstr) (t : node) : cstr :=
  match t with
  | Opaque s => escape s
  | Elem n attrs kids =>
      ws path t BeforeOpen ++ 60 :: write_tag_name n ++ flat_map write_attr attrs ++
      match kids with
      | [] => (if is_special n then [62] else [32; 47; 62]) ++ ws path t AfterOpen
      | _ => 62 :: ws path t AfterOpen ++ flat_map (write_node ws (n :: path)) kids ++
             (if is_special n then []
              else ws path t BeforeClose ++ 60 :: 47 :: escape n ++ 62 :: ws path t AfterClose)
      end
  end.
(** mxmlSaveAllocString 214-261 / mxmlSaveString 366-404: the text, followed by a newline when the
    column is not 0; the column is not modelled, [nl] says whether the newline is written. *)
Definition save_text (ws : ws_cb) (nl : bool) (t : node) : cstr :=
  write_node ws [] t ++ (if nl then [10] else []).
(** mxmlNewXML("1.0"): mxml-node.c *)
Definition XML_DECL := s2z "?xml version=""1.0"" encoding=""utf-8""?".
Definition new_xml (kids : list node) : node := Elem XML_DECL [] kids.

(** * src/xmlutils.c *)
(** 80-118: cut to [start, end). *)
Definition string_cut (s : cstr) (start fin : nat) : cstr :=
  if (fin <? start)%nat then s
  else if (start =? fin)%nat then []
  else if (List.length s <=? start)%nat || (List.length s <? fin)%nat then s
  else firstn (fin - start) (skipn start s).
Definition is_trim (c : Z) : bool := (c =? 10) || (c =? 13) || (c =? 32).
Fixpoint trim_start (s : cstr) : nat :=
  match s with c :: l => if is_trim c then S (trim_start l) else 0 | [] => 0 end.
(** 149-153: [r] is the reversed prefix of length [fin]. *)
Fixpoint trim_end (r : cstr) (start fin : nat) : nat :=
  match r with
  | c :: l => if is_trim c && (start <? fin)%nat then trim_end l start (pred fin) else fin
  | [] => fin
  end.
(** 129-156 *)
Definition string_trim (s : cstr) : cstr :=
  match s with
  | [] => []
  | _ => string_cut s (trim_start s) (trim_end (rev s) (trim_start s) (List.length s))
  end.
(** mxmlGetOpaque / 170-194 *)
Definition node_text (t : node) : option cstr :=
  match t with
  | Opaque s => Some (string_trim s)
  | Elem _ _ (Opaque s :: _) => Some (string_trim s)
  | Elem _ _ _ => None
  end.
(** 57-68 *)
Definition text_kids (s : cstr) : list node := match s with [] => [] | _ => [Opaque s] end.
(** 293-302: NULL adds no element. *)
Definition text_node (name : cstr) (s : option cstr) : list node :=
  match s with Some x => [Elem name [] (text_kids x)] | None => [] end.
(** 317-330, 345-358 *)
Definition int_node (name : cstr) (z : Z) : list node := [Elem name [] (text_kids (print_dec z))].
(** The proper descendants in document order (mxmlWalkNext with MXML_DESCEND, see WalkModel.v). *)
Fixpoint descendants (t : node) : list node :=
  match t with
  | Opaque _ => []
  | Elem _ _ kids => flat_map (fun k => k :: descendants k) kids
  end.
Definition named (n : cstr) (t : node) : bool :=
  match t with Elem m _ _ => str_eqb m n | Opaque _ => false end.
(** mxmlFindElement(node, node, name, NULL, NULL, MXML_DESCEND) *)
Definition find_elem (n : cstr) (t : node) : option node := find (named n) (descendants t).
(** The loop [for (x = find(top, top); x; x = find(x, top))] *)
Definition find_all (n : cstr) (t : node) : list node := filter (named n) (descendants t).
Definition node_attr (t : node) (name : cstr) : option cstr :=
  match t with Elem _ a _ => get_attr a name | Opaque _ => None end.
Definition node_kids (t : node) : list node := match t with Elem _ _ k => k | Opaque _ => [] end.
Definition node_name (t : node) : option cstr := match t with Elem n _ _ => Some n | Opaque _ => None end.
(** 231-246, 263-278 *)
Definition int_attr (t : node) (name : cstr) : option Z := option_map atoi (node_attr t name).
Definition uint_attr (t : node) (name : cstr) : option Z := option_map (fun s => u32 (atoi s)) (node_attr t name).
(** 374-398 *)
Definition int_elem (t : node) (name : cstr) : option Z :=
  match find_elem name t with
  | Some x => option_map atoi (node_text x)
  | None => None
  end.
