(** Properties of the XML layer. *)
From Verif Require Import CBase CBaseProofs XmlEntity XmlModel SpecXml EntityProofs Utf8Proofs XmlTermProofs TrimProofs
  XmlProofs XmlRound SimProofs SimExact WalkModel WalkProofs XmlMem XmlMem2 SpecEntity.

(** C14: a tree written and parsed again is the same tree; in compact form exactly, whatever
    characters its attribute values and texts hold. *)
Theorem C14_compact_round_trip t nl : wf t ->
  load_string (save_text no_ws nl (new_xml [t])) = Ret (Some (new_xml [t])) /\
  load_string (save_text no_ws nl t) = Ret (Some t).
Proof. exact (save_load_compact nl t). Qed.
Print Assumptions C14_compact_round_trip.
Theorem C14_indented_round_trip t ws nl : wf t -> indenting ws ->
  (exists t', load_string (save_text ws nl (new_xml [t])) = Ret (Some t') /\ esim (new_xml [t]) t') /\
  (exists t', load_string (save_text ws nl t) = Ret (Some t') /\ esim t t').
Proof. intros W I. split; [exact (save_load_document_e ws nl t I W)|exact (save_load_bare_e ws nl t I W)]. Qed.
Print Assumptions C14_indented_round_trip.
(** Setting an attribute makes it readable with the new value and leaves the others alone. *)
Theorem C14_set_then_get a n v m :
  get_attr (set_attr a n v) m = if str_eqb n m then v else get_attr a m.
Proof.
  induction a as [|(k, w) a IH]; cbn [set_attr get_attr].
  - destruct (str_eqb n m); reflexivity.
  - destruct (str_eqb k n) eqn:E; cbn [get_attr].
    + apply str_eqb_eq in E. subst k. destruct (str_eqb n m); reflexivity.
    + destruct (str_eqb k m) eqn:E2; [|exact IH].
      destruct (str_eqb n m) eqn:E3; [|reflexivity].
      apply str_eqb_eq in E2, E3. subst. rewrite str_eqb_refl in E. discriminate.
Qed.
Print Assumptions C14_set_then_get.
Example C14_set_witness :
  get_attr (set_attr [(s2z "a", Some (s2z "1")); (s2z "b", Some (s2z "2"))] (s2z "b") (Some (s2z "3"))) (s2z "b")
  = Some (s2z "3").
Proof. reflexivity. Qed.

(** Two documents with the same text are the same document: no value can imitate markup. *)
Theorem C14_injective t1 t2 nl : wf t1 -> wf t2 -> save_text no_ws nl t1 = save_text no_ws nl t2 -> t1 = t2.
Proof.
  intros W1 W2 E. destruct (save_load_compact nl t1 W1) as (_ & L1). destruct (save_load_compact nl t2 W2) as (_ & L2).
  rewrite E in L1. congruence.
Qed.
Print Assumptions C14_injective.
Definition ex_tree : node :=
  Elem (s2z "file") [(s2z "name", Some (s2z "a<b>&""c""' />")); (s2z "u", Some (rfc_utf8 233 ++ rfc_utf8 8364 ++ rfc_utf8 128512))]
    [Elem (s2z "data") [] [Opaque (s2z "</data><evil x='1'/>&amp;")];
     Elem (s2z "cd") [] [cdata_node (s2z "<x>]] &amp;")]; Elem (s2z "empty") [] []].
Lemma ascii_ok s : forallb (fun c => (32 <=? c) && (c <? 128)) s = true -> is_text s.
Proof.
  intro H. apply is_text_ascii. rewrite forallb_forall in H. apply Forall_forall. intros c I. specialize (H c I). lia.
Qed.
Lemma name_dec n : match n with c :: _ => ((65 <=? c) && (c <=? 90)) || ((97 <=? c) && (c <=? 122)) || (c =? 95) | [] => false end = true -> forallb (fun c => ((48 <=? c) && (c <=? 57)) || ((65 <=? c) && (c <=? 90)) || ((97 <=? c) && (c <=? 122)) || (c =? 45) || (c =? 46) || (c =? 95)) n = true -> name_ok n.
Proof.
  intros N H. split; [destruct n; congruence|]. split; [|destruct n; [discriminate|unfold first_char; lia]]. rewrite forallb_forall in H. apply Forall_forall. intros c I. specialize (H c I). unfold name_char. lia.
Qed.
Example C14_witness : wf ex_tree.
Proof.
  assert (NA : attrs_ok []) by (split; constructor).
  assert (Hnm : forall s, match s with c :: _ => ((65 <=? c) && (c <=? 90)) || ((97 <=? c) && (c <=? 122)) || (c =? 95) | [] => false end = true -> forallb (fun c => ((48 <=? c) && (c <=? 57)) || ((65 <=? c) && (c <=? 90)) || ((97 <=? c) && (c <=? 122)) || (c =? 45) || (c =? 46) || (c =? 95)) s = true -> name_ok s) by exact name_dec.
  apply wf_elems; [apply Hnm; reflexivity| |].
  - split; [repeat constructor; cbn; [intros [K|[]]; discriminate|tauto]|].
    constructor; [split; [apply Hnm; reflexivity|]|constructor; [split; [apply Hnm; reflexivity|]|constructor]]; eexists; (split; [reflexivity|]).
    + apply ascii_ok. reflexivity.
    + exists [233; 8364; 128512]. split; [repeat constructor; unfold good_cp; lia|reflexivity].
  - constructor; [|constructor; [|constructor; [|constructor]]].
    + apply wf_text; [apply Hnm; reflexivity|exact NA|discriminate|apply ascii_ok; reflexivity].
    + apply wf_elems; [apply Hnm; reflexivity|exact NA|]. constructor; [|constructor]. apply wf_cdata.
      split; [apply ascii_ok; reflexivity|]. intros (a & b & E).
      do 12 (destruct a as [|? a]; [cbn in E; inversion E|cbn in E; try discriminate; injection E as _ E]).
    + apply wf_leaf; [apply Hnm; reflexivity|exact NA].
Qed.

(** C15: CDATA payloads come back byte for byte. *)
Theorem C15_cdata_round_trip p n ws nl : cdata_ok p -> name_ok n -> indenting ws ->
  exists d e, load_string (save_text ws nl (new_xml [Elem n [] [cdata_node p]])) = Ret (Some d) /\
    find_elem n d = Some e /\ elements (node_kids e) = [cdata_node p].
Proof.
  intros Hp Hn I.
  assert (W : wf (Elem n [] [cdata_node p])).
  { apply wf_elems; [exact Hn|split; constructor|]. constructor; [now apply wf_cdata|constructor]. }
  destruct (save_load_document_e ws nl _ I W) as (d & E & S). exists d.
  pose proof (esim_find n _ _ S) as F. cbn in F. rewrite str_eqb_refl in F. cbn in F.
  destruct (find_elem n d) as [e|]; [|destruct F]. exists e. split; [exact E|]. split; [reflexivity|].
  pose proof (esim_kids _ _ F) as K. cbn in K. inversion K as [|x y l l' Sx Fl E1 E2]; subst. inversion Fl; subst.
  f_equal. inversion Sx as [n1 a1 ks ks' F1 T1]; subst. unfold cdata_node. f_equal.
  cbn in F1. inversion F1 as [Ha Hb|]; subst. specialize (T1 eq_refl). destruct ks' as [|[m b k|s] ks']; [reflexivity| |]; cbn in *; discriminate.
Qed.
Print Assumptions C15_cdata_round_trip.
(** A payload that holds the CDATA terminator is cut there. *)
Theorem C15_terminator_refuted : exists p d, is_text p /\
  load_string (save_text no_ws true (new_xml [Elem (s2z "data") [] [cdata_node p]])) = Ret (Some d) /\
  match find_elem (s2z "data") d with Some e => elements (node_kids e) <> [cdata_node p] | None => True end.
Proof.
  exists (s2z "a]]>b"). eexists. split; [apply ascii_ok; reflexivity|]. split; [vm_compute; reflexivity|]. vm_compute. discriminate.
Qed.
Print Assumptions C15_terminator_refuted.
Example C15_witness : cdata_ok (s2z "<meta>&lt; ]] > "" </meta>") /\ name_ok (s2z "data").
Proof.
  split; [|apply name_dec; reflexivity]. split; [apply ascii_ok; reflexivity|]. intros (a & b & E).
  do 27 (destruct a as [|? a]; [cbn in E; inversion E|cbn in E; try discriminate; injection E as _ E]).
Qed.

(** C16: the reader sees the same in compact and indented output: for every element name the same
    elements in the same order, each with the same attributes and, if it has no element content,
    the same text. *)
Definition same_view (a b : node) : Prop :=
  node_name a = node_name b /\ (forall k, node_attr a k = node_attr b k) /\
  List.length (elements (node_kids a)) = List.length (elements (node_kids b)) /\
  (elements (node_kids a) = [] -> node_text a = node_text b).
Theorem C16_indentation_is_invisible t ws nl nl' : wf t -> indenting ws ->
  exists d1 d2, load_string (save_text no_ws nl (new_xml [t])) = Ret (Some d1) /\
    load_string (save_text ws nl' (new_xml [t])) = Ret (Some d2) /\
    forall name, Forall2 same_view (find_all name d1) (find_all name d2).
Proof.
  intros W I. destruct (save_load_compact nl t W) as (E1 & _). destruct (save_load_document_e ws nl' t I W) as (d2 & E2 & S).
  exists (new_xml [t]), d2. repeat split; auto. intro name. pose proof (esim_find_all name _ _ S) as F.
  induction F as [|x y l l' Sx F IH]; constructor; [|exact IH]. clear - Sx. destruct Sx as [n a ks ks' F T].
  repeat split; auto. cbn [node_kids]. clear - F. revert F. generalize (elements ks) (elements ks'). intros l l' F. induction F; cbn; congruence.
Qed.
Print Assumptions C16_indentation_is_invisible.
Example C16_witness : indenting (fun path _ p => match p with BeforeOpen => 10 :: repeat 32 (2 * List.length path) | _ => [] end).
Proof. intros path t p. destruct p; try constructor; [auto|]. apply Forall_forall. intros c H. apply repeat_spec in H. lia. Qed.

(** C31: trimming. *)
Definition is_blank (c : Z) : Prop := c = 10 \/ c = 13 \/ c = 32.
Theorem C31_trim s : exists p q, s = p ++ string_trim s ++ q /\ Forall is_blank p /\ Forall is_blank q /\
  (forall c l, string_trim s = c :: l -> ~ is_blank c) /\ (forall c l, string_trim s = l ++ [c] -> ~ is_blank c) /\
  string_trim (string_trim s) = string_trim s.
Proof.
  destruct (string_trim_spec s) as (p & q & Bp & Bq & E & A & B). exists p, q. repeat split; auto. apply trim_trim.
Qed.
Print Assumptions C31_trim.
Theorem C31_trim_unique s p q r : s = p ++ r ++ q -> Forall is_blank p -> Forall is_blank q ->
  (forall c l, r = c :: l -> ~ is_blank c) -> (forall c l, r = l ++ [c] -> ~ is_blank c) -> string_trim s = r.
Proof.
  intros -> Hp Hq A B. rewrite trim_blanks by assumption. apply trim_bare. split; assumption.
Qed.
Print Assumptions C31_trim_unique.
Example C31_witness : string_trim (s2z "  a b  ") = s2z "a b" /\ string_trim [10; 32; 13] = [] /\ string_trim [9; 97; 9] = [9; 97; 9].
Proof. vm_compute. auto. Qed.

(** C32: numbers. *)
Theorem C32_int_element_round_trip t ws nl name z : wf t -> indenting ws -> is_i32 z ->
  find_elem name (new_xml [t]) = Some (Elem name [] (text_kids (print_dec z))) ->
  exists d, load_string (save_text ws nl (new_xml [t])) = Ret (Some d) /\ int_elem d name = Some z.
Proof.
  intros W I Hz F. destruct (save_load_document_e ws nl t I W) as (d & E & S). exists d. split; [exact E|].
  pose proof (esim_find name _ _ S) as K. rewrite F in K. unfold int_elem. destruct (find_elem name d) as [x|]; [|destruct K]. cbn in K.
  rewrite <- (esim_text _ _ K (etext_node_only _ _ _)), int_node_text. cbn. now rewrite atoi_print_dec.
Qed.
Print Assumptions C32_int_element_round_trip.
Theorem C32_int64_element_round_trip t ws nl name z : wf t -> indenting ws -> is_i64 z ->
  find_elem name (new_xml [t]) = Some (Elem name [] (text_kids (print_dec z))) ->
  exists d e s, load_string (save_text ws nl (new_xml [t])) = Ret (Some d) /\ find_elem name d = Some e /\
    node_text e = Some s /\ atoll s = z.
Proof.
  intros W I Hz F. destruct (save_load_document_e ws nl t I W) as (d & E & S).
  pose proof (esim_find name _ _ S) as K. rewrite F in K. destruct (find_elem name d) as [x|] eqn:FE; [|destruct K]. cbn in K.
  exists d, x, (print_dec z). split; [exact E|]. split; [exact FE|]. split; [|now apply atoll_print_dec].
  now rewrite <- (esim_text _ _ K (etext_node_only _ _ _)), int_node_text.
Qed.
Print Assumptions C32_int64_element_round_trip.
Theorem C32_attribute_round_trip t ws nl name key w z x : wf t -> indenting ws ->
  find_elem name (new_xml [t]) = Some x ->
  (is_i32 z /\ (node_attr x key = Some (print_dec z) \/ node_attr x key = Some (print_dec_pad w z)) ->
    exists d e, load_string (save_text ws nl (new_xml [t])) = Ret (Some d) /\ find_elem name d = Some e /\ int_attr e key = Some z) /\
  (is_u32 z /\ node_attr x key = Some (print_nonneg z) ->
    exists d e, load_string (save_text ws nl (new_xml [t])) = Ret (Some d) /\ find_elem name d = Some e /\ uint_attr e key = Some z).
Proof.
  intros W I F. destruct (save_load_document_e ws nl t I W) as (d & E & S).
  pose proof (esim_find name _ _ S) as K. rewrite F in K. destruct (find_elem name d) as [e|] eqn:FE; [|destruct K]. cbn in K.
  split.
  - intros (Hz & A). exists d, e. repeat split; auto. unfold int_attr. rewrite <- (esim_attrs _ _ key K).
    destruct A as [-> | ->]; cbn; [now rewrite atoi_print_dec|now rewrite atoi_print_dec_pad].
  - intros (Hz & A). exists d, e. repeat split; auto. unfold uint_attr. rewrite <- (esim_attrs _ _ key K), A. cbn [option_map]. now rewrite atoi_print_unsigned.
Qed.
Print Assumptions C32_attribute_round_trip.
Example C32_witness :
  find_elem (s2z "a") (new_xml [Elem (s2z "r") [] (int_node (s2z "a") (-2147483648))]) = Some (Elem (s2z "a") [] (text_kids (print_dec (-2147483648)))) /\
  print_dec (-2147483648) = s2z "-2147483648" /\ print_dec_pad 6 42 = s2z "000042" /\ print_nonneg 4294967295 = s2z "4294967295".
Proof. vm_compute. auto. Qed.

(** C33: the search enumerates exactly the descendants with the name, each once, in document order. *)
Theorem C33_search_enumerates doc top t name : at_pos doc top = Some t -> forall fuel, (List.length (descendants t) < fuel)%nat ->
  exists ps, find_loop fuel doc top name top = Some ps /\ NoDup ps /\
    map (at_pos doc) ps = map Some (filter (named name) (descendants t)) /\
    Forall (fun p => exists q i, p = q ++ i :: top) ps.
Proof. exact (search_enumerates doc top t name). Qed.
Print Assumptions C33_search_enumerates.
Theorem C33_search_first doc top t name : at_pos doc top = Some t -> forall fuel, (List.length (descendants t) < fuel)%nat ->
  exists r, find_element fuel doc top name top = Some r /\
    match r with Some p => at_pos doc p = List.find (named name) (descendants t) /\ List.find (named name) (descendants t) <> None
               | None => List.find (named name) (descendants t) = None end.
Proof. exact (search_first doc top t name). Qed.
Print Assumptions C33_search_first.
Theorem C33_children doc top t k ks : at_pos doc top = Some t -> node_kids t = k :: ks ->
  forall fuel, (List.length (k :: ks) <= fuel)%nat ->
  exists ps, child_loop fuel doc top (O :: top) = Some ps /\ map (at_pos doc) ps = map Some (k :: ks).
Proof. exact (children_enumerated doc top t k ks). Qed.
Print Assumptions C33_children.
Example C33_witness :
  let leaf n := Elem (s2z n) [] [] in let x := "x"%string in
  let doc := Elem (s2z "r") [] [leaf x; Elem (s2z "t") [] [leaf x; Elem (s2z "y") [] [leaf x]; leaf x]; leaf x] in
  find_loop 20 doc [1%nat] (s2z "x") [1%nat] = Some [[0; 1]; [0; 1; 1]; [2; 1]]%nat /\
  find_loop 20 doc [] (s2z "x") [] = Some [[0]; [0; 1]; [0; 1; 1]; [2; 1]; [2]]%nat.
Proof. vm_compute. auto. Qed.

(** C34: loading any string ends; if the bytes FE FF or FF FE do not follow one another in it (they do in
    no UTF-8 text) it stays inside the string; the buffers are never overrun. *)
Theorem C34_terminates s : load_string s <> NoFuel.
Proof. exact (load_string_ends s). Qed.
Print Assumptions C34_terminates.
Theorem C34_stays_inside_partial s : no_mark s ->
  (exists d, load_string s = Ret d) \/ load_string s = Fail.
Proof.
  intros A. destruct (load_string_safe s A) as (r & E & N1 & N2). rewrite E. destruct r; [left; eauto|now right|congruence|congruence].
Qed.
Print Assumptions C34_stays_inside_partial.
Lemma no_mark_by s : ~ In 254 s -> no_mark s.
Proof. intros H a b. split; intros ->; apply H; apply in_or_app; right; cbn; auto. Qed.
(** In particular for every text in UTF-8. *)
Theorem C34_text_inside s : is_text s -> (exists d, load_string s = Ret d) \/ load_string s = Fail.
Proof.
  intros (cps & G & ->). apply C34_stays_inside_partial, no_mark_by. intro I. apply in_flat_map in I. destruct I as (c & Ic & I).
  rewrite Forall_forall in G. specialize (G c Ic). unfold good_cp in G. revert I. unfold rfc_utf8.
  repeat match goal with |- In _ (if ?b then _ else _) -> _ => destruct b eqn:? end; cbn [In]; intros; 
  Z.div_mod_to_equations; lia.
Qed.
Print Assumptions C34_text_inside.
Theorem C34_utf16_refuted l : Forall (fun p => 0 <= fst p < 256 /\ 1 <= snd p < 128) l ->
  load_string (255 :: 254 :: flat_map (fun p => [fst p; snd p]) l) = OverRead.
Proof. exact (utf16le_over_reads l). Qed.
Print Assumptions C34_utf16_refuted.
(** Any sequence of characters added to, and resets of, a text buffer that starts with 64 bytes:
    all bytes lie inside, and there is room for the terminator. *)
Theorem C34_buffers ops : exists used size, add_chars ops (0, 64) = (used, size, true) /\ 0 <= used < size.
Proof. apply buffer_never_overflows; lia. Qed.
Print Assumptions C34_buffers.
Theorem C34_entity_buffer e c e' : (List.length e <= 63)%nat -> ent_step e c = More e' -> (List.length e' <= 63)%nat.
Proof. exact (entity_buffer e c e'). Qed.
Print Assumptions C34_entity_buffer.
Example C34_witness : no_mark (s2z "<a><b x='&lt;'>") /\ no_mark [254; 60; 255] /\ load_string (s2z "<a><b x='&lt;'>") = Ret None /\ load_string (s2z "<a></b>") = Fail /\
  load_string (s2z "<a x=""1""/>") = Ret (Some (Elem [97] [([120], Some [49])] [])).
Proof.
  split; [apply no_mark_by; vm_compute; intuition discriminate|]. split; [|vm_compute; repeat split; reflexivity].
  intros a b. split; intro E; destruct a as [|? [|? [|? [|? a]]]]; cbn in E; try discriminate E; injection E; try discriminate; intros; destruct a; discriminate.
Qed.

(** C35: the text of a save is returned whole. *)
Theorem C35_saved_text_complete w stack_buffer heap_block :
  Z.of_nat (List.length stack_buffer) = 8192 -> (forall n, 0 <= n -> List.length (heap_block n) = Z.to_nat n) ->
  w <> [] -> ~ In 0 w -> Z.of_nat (List.length w) < 2^31 - 1 ->
  save_alloc_string w stack_buffer heap_block = Some (Some w).
Proof. exact (save_alloc_complete w stack_buffer heap_block). Qed.
Print Assumptions C35_saved_text_complete.
Theorem C35_saved_tree_complete ws nl t stack_buffer heap_block : indenting ws -> wf t ->
  Z.of_nat (List.length stack_buffer) = 8192 -> (forall n, 0 <= n -> List.length (heap_block n) = Z.to_nat n) ->
  Z.of_nat (List.length (save_text ws nl (new_xml [t]))) < 2^31 - 1 ->
  save_alloc_string (save_text ws nl (new_xml [t])) stack_buffer heap_block = Some (Some (save_text ws nl (new_xml [t]))).
Proof. exact (saved_tree_complete ws nl t stack_buffer heap_block). Qed.
Print Assumptions C35_saved_tree_complete.
(** A buffer of any size, too small or not, holds the text as far as it fits and a terminating zero; what lies behind is not
    touched, and the length of the whole text is returned. *)
Lemma putc_full w : forall o, o_pos o = List.length (o_mem o) -> o_pos (fold_left putc w o) = o_pos o /\ o_mem (fold_left putc w o) = o_mem o.
Proof.
  induction w as [|c w IH]; intros o E; cbn [fold_left]; [auto|]. unfold putc at 2 4. rewrite E, Nat.ltb_irrefl.
  destruct (IH (mkOut (o_mem o) (o_pos o) (o_count o + 1))) as (P & M); [exact E|]. rewrite E in P, M. cbn [o_pos o_mem] in P, M. auto.
Qed.
Theorem C35_any_buffer w mem : mem <> [] -> Z.of_nat (List.length w) < 2^31 ->
  let k := Nat.min (List.length w) (List.length mem - 1) in
  save_string w mem = (firstn k w ++ 0 :: skipn (S k) mem, Z.of_nat (List.length w)).
Proof.
  intros N B k. unfold save_string. f_equal; [|rewrite putc_count; cbn [o_count]; rewrite i32_small; [lia|unfold is_i32; lia]].
  assert (0 < List.length mem)%nat by (destruct mem; [congruence|cbn; lia]).
  set (m := Nat.min (List.length w) (List.length mem)).
  assert (E : fold_left putc (firstn m w) (mkOut mem 0 0) = mkOut (firstn m w ++ skipn m mem) m (Z.of_nat m)).
  { pose proof (putc_all (firstn m w) [] mem 0) as K. rewrite firstn_length in K. replace (Nat.min m (List.length w)) with m in K by lia.
    cbn [app List.length Nat.add] in K. rewrite K by lia. reflexivity. }
  destruct (Nat.ltb_spec (List.length w) (List.length mem)) as [L|L].
  - replace m with (List.length w) in E by lia. rewrite firstn_all in E. rewrite E. cbn [o_pos o_mem].
    replace (Nat.eqb (List.length w) (List.length mem)) with false by (symmetry; apply Nat.eqb_neq; lia).
    replace k with (List.length w) by (subst k; lia). rewrite firstn_all.
    destruct (skipn (List.length w) mem) as [|x l] eqn:Es; [apply (f_equal (@List.length _)) in Es; rewrite skipn_length in Es; cbn in Es; lia|].
    rewrite upd_app. f_equal. f_equal. replace (S (List.length w)) with (List.length w + 1)%nat by lia.
    clear - Es. revert mem Es. induction (List.length w) as [|n IH]; intros mem Es; [cbn in Es; now subst|]. destruct mem; [discriminate|]. cbn. now apply IH.
  - replace m with (List.length mem) in E by lia. rewrite skipn_all in E. rewrite app_nil_r in E.
    assert (F : fold_left putc w (mkOut mem 0 0) = fold_left putc (skipn (List.length mem) w) (fold_left putc (firstn (List.length mem) w) (mkOut mem 0 0)))
      by (rewrite <- fold_left_app, firstn_skipn; reflexivity).
    assert (Lf : List.length (firstn (List.length mem) w) = List.length mem) by (rewrite firstn_length; lia).
    destruct (putc_full (skipn (List.length mem) w) (mkOut (firstn (List.length mem) w) (List.length mem) (Z.of_nat (List.length mem)))) as (P & M); [cbn [o_pos o_mem]; lia|].
    rewrite F, E, P, M. cbn [o_pos o_mem]. rewrite Nat.eqb_refl.
    replace k with (List.length mem - 1)%nat by (subst k; lia). replace (S (List.length mem - 1)) with (List.length mem) by lia. rewrite skipn_all.
    set (n := (List.length mem - 1)%nat). replace (List.length mem) with (n + 1)%nat by lia.
    assert (Hn : (n < List.length w)%nat) by lia. clear - Hn. revert w Hn. induction n as [|n IH]; intros w Hn; destruct w as [|c w]; cbn in Hn; try lia; [reflexivity|].
    cbn. f_equal. apply IH. lia.
Qed.
Print Assumptions C35_any_buffer.
Example C35_small_buffer : save_string (s2z "<a/>") [7; 7; 7; 7] = (s2z "<a/" ++ [0], 4) /\ save_string (s2z "<a/>") [7; 7; 7; 7; 7; 7] = (s2z "<a/>" ++ [0; 7], 4).
Proof. vm_compute. auto. Qed.
Example C35_witness : Z.of_nat (List.length (repeat 7 (Z.to_nat 8192))) = 8192 /\ save_text no_ws true ex_tree <> [] /\ ~ In 0 (save_text no_ws true ex_tree).
Proof.
  split; [rewrite repeat_length; reflexivity|]. split; [discriminate|]. intro H.
  assert (K : forallb (fun c => negb (c =? 0)) (save_text no_ws true ex_tree) = true) by (vm_compute; reflexivity).
  rewrite forallb_forall in K. specialize (K 0 H). discriminate.
Qed.

(** C39: named entities. *)
Theorem C39_entities name v : (entity_value name = v /\ v <> -1) <-> In (name, v) entities.
Proof. exact (entity_value_iff name v). Qed.
Print Assumptions C39_entities.
(** The table is that of HTML 4.01 and five more names, given independently in SpecEntity.v: a name is decoded iff it is one of
    those, and to the character it stands for. *)
Definition pair_eqb (p q : cstr * Z) : bool := str_eqb (fst p) (fst q) && (snd p =? snd q).
Lemma included l m : forallb (fun p => existsb (pair_eqb p) m) l = true -> incl l m.
Proof.
  intros H p I. rewrite forallb_forall in H. specialize (H p I). rewrite existsb_exists in H. destruct H as (q & Iq & E).
  unfold pair_eqb in E. apply andb_prop in E. destruct E as (E1 & E2). apply str_eqb_eq in E1. apply Z.eqb_eq in E2.
  destruct p, q. cbn in *. now subst.
Qed.
Theorem C39_standard_entities name v : (entity_value name = v /\ v <> -1) <-> In (name, v) (html4 ++ synonyms).
Proof.
  rewrite entity_value_iff. split; apply included; vm_compute; reflexivity.
Qed.
Print Assumptions C39_standard_entities.
Theorem C39_written_entities_decode c n : entity_name c = Some n -> ent_value n = Some c /\ In (n, c) entities.
Proof.
  unfold entity_name. repeat match goal with |- context [if ?b then _ else _] => destruct b eqn:?E end; try discriminate;
  intros [= <-]; apply Z.eqb_eq in E || apply Z.eqb_eq in E0 || apply Z.eqb_eq in E1 || apply Z.eqb_eq in E2; subst;
  (split; [vm_compute; reflexivity|apply entity_value_iff; vm_compute; split; [reflexivity|discriminate]]).
Qed.
Print Assumptions C39_written_entities_decode.
Theorem C39_unknown_rejected name : (forall v, ~ In (name, v) entities) -> (forall r, name <> 35 :: r) -> ent_value name = None.
Proof.
  intros H N. unfold ent_value. rewrite (entity_value_missing name H).
  destruct name as [|x r]; [reflexivity|]. 
  assert (x <> 35) by (intros ->; exact (N r eq_refl)).
  destruct x as [|p|p]; try reflexivity. do 6 (destruct p as [p|p|]; try reflexivity). congruence.
Qed.
Print Assumptions C39_unknown_rejected.
Example C39_witness : entity_value (s2z "euro") = 8364 /\ entity_value (s2z "zwnj") = 8204 /\ entity_value (s2z "AElig") = 198 /\ entity_value (s2z "nope") = -1.
Proof. vm_compute. auto. Qed.
