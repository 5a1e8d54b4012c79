(** C71: XML documents written or edited by other tools are read as XML says. *)
From Verif Require Import CBase CBaseProofs XmlEntity XmlModel SpecXml SpecGrammar SpecForeign EntityProofs Utf8Proofs TrimProofs XmlTermProofs XmlProofs XmlRound SimProofs GrammarProofs
  TocModel SpecToc TocXmlModel SpecTocXml ControlModel SpecControl ControlProofs2 ForeignProofs PropCdata.

(** Every document of the grammar is read, completely and as the tree it stands for. *)
Theorem C71_reads s d : document s d -> load_string s = Ret (Some d).
Proof. apply reads_document. Qed.
(** Two texts of the same tree (other quotes, blanks, references) are read alike. *)
Theorem C71_spelling_does_not_matter s1 s2 d {A} (load : node -> option A) : document s1 d -> document s2 d -> load_object load s1 = load_object load s2.
Proof. intros H1 H2. now rewrite (document_load load s1 d H1), (document_load load s2 d H2). Qed.
(** Every document that shows a valid object, in whatever spelling, order of attributes and layout,
    and with comments and processing instructions anywhere between the elements, is loaded as that
    object. *)
Theorem C71_understood split t0 :
  (forall x, section_range x -> section_is_valid x = true -> understood (save_section x) load_section x) /\
  (forall l, sections_is_valid (Some (Some l)) = true -> sections_carried l -> understood (save_sections (Some (Some l))) load_sections (Some l)) /\
  (forall x, layout_def_is_valid x = true -> layout_carried x -> understood (save_layout_def x) load_layout_def (layout_back x)) /\
  (forall l, Forall (fun d => layout_def_is_valid d = true) l -> layouts_carried l -> understood (save_layout_defs (Some (Some l))) load_layout_defs (back_list layout_back l)) /\
  (forall x, page_carried x -> understood (save_page x) load_page (page_back x)) /\
  (forall x, preview_is_valid (Some x) = true -> preview_carried x -> understood (save_preview (Some x)) load_preview (preview_back x)) /\
  (forall x, fsource_is_valid x = true -> fsource_carried x -> understood (save_fsource x) load_fsource (fsource_back x)) /\
  (forall l, Forall (fun s => fsource_is_valid s = true) l -> Forall fsource_carried l -> short l -> understood (save_fmetadata (Some (Some l))) load_fmetadata (back_list fsource_back l)) /\
  (forall x, msource_is_valid x = true -> msource_carried x -> understood (save_msource x) (load_msource split) (msource_back split x)) /\
  (forall l, metadata_is_valid (Some (Some l)) = true -> Forall msource_carried l -> understood (save_metadata (Some (Some l))) (load_metadata split) (back_list (msource_back split) l)) /\
  (forall x, file_is_valid x = true -> file_carried x -> understood (save_file false x) load_file (file_back x)) /\
  (forall x, file_is_valid x = true -> file_carried x -> understood (save_file true x) load_file (file_back_v1 x)) /\
  (forall l, Forall (fun f => file_is_valid f = true) l -> files_carried l -> understood (save_files (Some (Some l))) load_files (back_list file_back l)) /\
  (forall x, reel_is_valid x = true -> reel_carried x -> understood (save_reel x) load_reel (reel_back x)) /\
  (forall l, Forall (fun r => reel_is_valid r = true) l -> reels_carried l -> short l -> understood (save_reels (Some (Some l))) load_reels (back_list reel_back l)) /\
  (forall x, toc_is_valid x = true -> toc_carried x -> understood (save_toc x) (load_toc split t0) (toc_back split x)).
Proof.
  split; [exact section_understood|]. split; [exact sections_understood|]. split; [exact layout_understood|]. split; [exact layouts_understood|].
  split; [exact page_understood|]. split; [exact preview_understood|]. split; [exact fsource_understood|]. split; [exact fmetadata_understood|].
  split; [exact (msource_understood split)|]. split; [exact (metadata_understood split)|]. split; [exact (file_understood false)|]. split; [exact (file_understood true)|].
  split; [exact files_understood|]. split; [exact reel_understood|]. split; [exact reels_understood|]. exact (toc_understood split t0).
Qed.
(** Control data and its parts, which are always below the XML declaration. *)
Theorem C71_control_understood :
  (forall a, admin_carried a -> understood_declared (save_admin (Some a)) (fun d => succeeded (load_admin d)) (admin_back a)) /\
  (forall f, format_carried f -> understood_declared (save_format (Some f)) load_format (format_back f)) /\
  (forall t, tech_carried t -> understood_declared (save_tech (Some t)) (fun d => succeeded (load_tech d)) (tech_back t)) /\
  (forall a t, admin_carried a -> tech_carried t ->
    understood_declared (save_control_string (mkControl (Some a) (Some t))) load_control (mkControl (Some (admin_back a)) (Some (tech_back t)))).
Proof. split; [exact admin_understood|]. split; [exact format_understood|]. split; [exact tech_understood|exact control_understood]. Qed.
Print Assumptions C71_reads.
Print Assumptions C71_spelling_does_not_matter.
Print Assumptions C71_understood.
Print Assumptions C71_control_understood.

(** * Building documents *)
Lemma spells_app ok s1 v1 s2 v2 : spells ok s1 v1 -> spells ok s2 v2 -> spells ok (s1 ++ s2) (v1 ++ v2).
Proof. intro H. induction H; intro K; cbn [app]; auto; rewrite <- !app_assoc; [apply spells_char|apply spells_ref]; auto. Qed.
Lemma spells_ascii ok s : Forall (fun c => 32 <= c < 128 /\ ok c) s -> spells ok s s.
Proof.
  induction 1 as [|c s (R & O) _ IH]; [constructor|]. assert (E : rfc_utf8 c = [c]) by (unfold rfc_utf8; now replace (c <? 128) with true by lia).
  change (c :: s) with ([c] ++ s). rewrite <- E. apply spells_char; [unfold good_cp; lia|exact O|exact IH].
Qed.
Lemma spells_text s : forallb (fun c => (32 <=? c) && (c <? 128) && negb (c =? 38) && negb (c =? 60)) s = true -> spells text_char s s.
Proof. intro H. apply spells_ascii. apply Forall_forall. intros c I. rewrite forallb_forall in H. specialize (H c I). unfold text_char. lia. Qed.
Lemma spells_value q s : forallb (fun c => (32 <=? c) && (c <? 128) && negb (c =? 38) && negb (c =? 60) && negb (c =? q)) s = true -> spells (value_char q) s s.
Proof. intro H. apply spells_ascii. apply Forall_forall. intros c I. rewrite forallb_forall in H. specialize (H c I). unfold value_char. lia. Qed.
Definition letterb (c : Z) : bool := ((65 <=? c) && (c <=? 90)) || ((97 <=? c) && (c <=? 122)) || (c =? 95) || (c =? 58).
Definition moreb (c : Z) : bool := letterb c || ((48 <=? c) && (c <=? 57)) || (c =? 45) || (c =? 46).
Lemma ascii_name c l : letterb c && forallb moreb l = true -> tag_name (c :: l) /\ attr_name (c :: l).
Proof.
  intro H. apply andb_true_iff in H as (Hc & Hl). assert (Lc : letter c) by (unfold letterb in Hc; unfold letter; lia).
  assert (F : Forall name_more l). { apply Forall_forall. intros x I. rewrite forallb_forall in Hl. specialize (Hl x I). unfold moreb, letterb in Hl. unfold name_more, name_start, letter. lia. }
  assert (E : forall l, Forall (fun x => x < 128) l -> flat_map rfc_utf8 l = l).
  { induction 1 as [|x m X _ IH]; [reflexivity|]. cbn [flat_map]. rewrite IH. unfold rfc_utf8. now replace (x <? 128) with true by lia. }
  assert (B : Forall (fun x => x < 128) (c :: l)).
  { constructor; [unfold letter in Lc; lia|]. apply Forall_forall. intros x I. rewrite forallb_forall in Hl. specialize (Hl x I). unfold moreb, letterb in Hl. lia. }
  split; exists c, l; rewrite (E _ B); repeat split; auto. now left.
Qed.
Lemma ascii_text s : forallb (fun c => (32 <=? c) && (c <? 128)) s = true -> is_text s.
Proof. intro H. apply is_text_ascii. apply Forall_forall. intros c I. rewrite forallb_forall in H. specialize (H c I). lia. Qed.
Lemma no_pair a b s : forallb (fun p => negb ((fst p =? a) && (snd p =? b))) (combine s (tl s)) = true -> ~ exists x y, s = x ++ [a; b] ++ y.
Proof.
  intros H (x & y & E). subst s. induction x as [|c x IH]; cbn in H.
  - rewrite !Z.eqb_refl in H. discriminate.
  - apply IH. destruct x as [|d x]; cbn [app tl combine forallb] in *; apply andb_true_iff in H as (_ & H); exact H.
Qed.
Lemma ascii_comment p : forallb (fun c => (32 <=? c) && (c <? 128)) p = true -> p <> [] ->
  forallb (fun q => negb ((fst q =? 45) && (snd q =? 45))) (combine (p ++ [45]) (tl (p ++ [45]))) = true -> comment_ok p.
Proof. intros A N B. split; [now apply ascii_text|]. split; [exact N|]. now apply no_pair. Qed.
Lemma ascii_instruction p : forallb (fun c => (32 <=? c) && (c <? 128)) p = true ->
  forallb (fun q => negb ((fst q =? 63) && (snd q =? 62))) (combine (63 :: p) p) = true -> instruction_ok p.
Proof. intros A B. split; [now apply ascii_text|]. now apply (no_pair 63 62 (63 :: p)). Qed.
Ltac nm := apply ascii_name; reflexivity.
Ltac sp := let c := fresh in let K := fresh in apply Forall_forall; intros c K; vm_compute in K; unfold space; intuition lia.
Lemma simple_item n s v : tag_name n -> spells text_char s v -> item (60 :: n ++ 62 :: s ++ s2z "</" ++ n ++ s2z ">") (Elem n [] (texts v)).
Proof. intros N S. exact (item_element n [] [] [] s (texts v) [] N attributes_none ltac:(sp) (content_end s v S) ltac:(sp)). Qed.
(** A control data part as another tool may write it: byte order mark, single quotes in the
    declaration, a document type, comments, DOS line ends, character references. *)
Definition CRLF : cstr := [13; 10].
Definition foreign_admin : cstr :=
  BOM ++ [] ++ s2z "<?" ++ s2z "xml version='1.0'" ++ s2z "?>" ++
  CRLF ++ (s2z "<!" ++ s2z "DOCTYPE a" ++ s2z ">") ++
  CRLF ++ (s2z "<!--" ++ s2z " edited by hand - twice " ++ s2z "-->") ++
  CRLF ++ (60 :: s2z "AdministrativeMetadata" ++ [] ++ s2z " " ++ 62 ::
    ((CRLF ++ s2z "  ") ++ (60 :: s2z "ReelId" ++ 62 :: s2z " 12 " ++ s2z "</" ++ s2z "ReelId" ++ s2z ">") ++
     ([] ++ (s2z "<!--" ++ s2z "x" ++ s2z "-->") ++
     ((CRLF ++ s2z "  ") ++ (60 :: s2z "Title" ++ 62 :: (s2z "A &amp;" ++ s2z "&#x26;" ++ s2z "&#0038;" ++ s2z " B") ++ s2z "</" ++ s2z "Title" ++ s2z ">") ++ CRLF))) ++
    s2z "</" ++ s2z "AdministrativeMetadata" ++ s2z " " ++ s2z ">") ++ CRLF.
Definition foreign_tree : node :=
  Elem (s2z "?" ++ s2z "xml version='1.0'" ++ s2z "?") []
    [Opaque CRLF; Elem (s2z "!" ++ s2z "DOCTYPE a") [] [];
     Opaque CRLF; Elem (s2z "!--" ++ s2z " edited by hand - twice " ++ s2z "--") [] [];
     Opaque CRLF; Elem (s2z "AdministrativeMetadata") []
       [Opaque (CRLF ++ s2z "  "); Elem (s2z "ReelId") [] [Opaque (s2z " 12 ")];
        Elem (s2z "!--" ++ s2z "x" ++ s2z "--") [] [];
        Opaque (CRLF ++ s2z "  "); Elem (s2z "Title") [] [Opaque (s2z "A &&& B")];
        Opaque CRLF]].
Example C71_witness : document foreign_admin foreign_tree.
Proof.
  apply (document_declared BOM [] (s2z "xml version='1.0'")); [now right|sp|now apply ascii_instruction|].
  assert (C : spaces CRLF) by sp.
  apply (body_item CRLF _ _ _ _ C).
  { apply (item_declaration (s2z "DOCTYPE a")). exists (s2z "DOCTYPE"), (s2z " "), (s2z "a"). split; [discriminate|].
    split; [apply Forall_forall; intros c I; cbn in I; unfold letter; intuition lia|]. split; [sp|]. split; [discriminate|]. split; [now apply ascii_text|].
    split; [intro I; cbn in I; intuition lia|]. split; [intro I; cbn in I; intuition lia|reflexivity]. }
  apply (body_item CRLF _ _ _ _ C). { apply (item_comment (s2z " edited by hand - twice ")). now apply ascii_comment. }
  apply (body_item CRLF _ _ _ _ C); [|now apply body_end].
  eapply item_element; [nm|constructor|sp| |sp].
  assert (T : spells text_char (CRLF ++ s2z "  ") (CRLF ++ s2z "  ")) by (apply spaces_spell; sp).
  apply (content_item _ _ _ _ _ _ T); [apply (simple_item (s2z "ReelId") (s2z " 12 ") (s2z " 12 ")); [nm|now apply spells_text]|].
  apply (content_item _ _ _ _ _ _ (spells_nil _)); [apply (item_comment (s2z "x")); now apply ascii_comment|].
  apply (content_item _ _ _ _ _ _ T); [|apply (content_end CRLF CRLF); now apply spaces_spell].
  apply (simple_item (s2z "Title") (s2z "A &amp;" ++ s2z "&#x26;" ++ s2z "&#0038;" ++ s2z " B") (s2z "A &" ++ s2z "&" ++ s2z "&" ++ s2z " B")); [nm|].
  assert (G38 : good_cp 38) by (unfold good_cp; lia).
  apply spells_app. { apply (spells_app _ (s2z "A ") (s2z "A ")); [now apply spells_text|]. apply (spells_ref _ (s2z "&amp;") 38 [] []); constructor. }
  apply spells_app. { refine (spells_ref _ _ 38 [] [] (ref_hex (s2z "26") 38 _ _ _ _) (spells_nil _)); [discriminate| |cbn; lia|exact G38].
    apply (hex_snoc [50] 2 54 6); [apply (hex_snoc [] 0 50 2); [constructor|apply (hex_09 50); lia]|apply (hex_09 54); lia]. }
  apply spells_app; [|now apply spells_text].
  refine (spells_ref _ _ 38 [] [] (ref_dec (s2z "0038") _ _ _ _) (spells_nil _)); [discriminate| |cbn; lia|exact G38].
  apply Forall_forall. intros c I. cbn in I. unfold dec_digit. intuition lia.
Qed.
(** It is understood. *)
Example C71_witness_admin :
  load_object (fun d => succeeded (load_admin d)) foreign_admin = Ok (Some (mkAdmin (Some (s2z "12")) None (Some (s2z "A &&& B")) None None None)).
Proof.
  refine (proj2 (proj1 C71_control_understood (mkAdmin (Some (s2z "12")) None (Some (s2z "A &&& B")) None None None) _) foreign_admin (s2z "xml version='1.0'" ++ s2z "?") _ C71_witness _).
  - repeat split; intros x E; try discriminate; injection E as <-; now apply ascii_text.
  - cbn [fst save_admin elems filter is_elem]. unfold admin_tags. cbn. repeat (constructor; try reflexivity); intros; discriminate.
Qed.

(** * What is not read as XML says *)
(** Without a declaration, a comment before or after the document element makes the document
    unreadable. *)
Lemma step_element_after n x tp b op r : item x (Elem n [] r) \/ (exists a, item x (Elem n a r)) -> tag_name n ->
  forall rest, step (mkP [] (Some tp) b op) (tok8 (x ++ rest)) = Fail.
Proof.
  intros H N rest. assert (exists a, item x (Elem n a r)) as (a & I) by (destruct H as [H|H]; eauto). clear H.
  assert (exists c t, (space c \/ c = 62 \/ c = 47) /\ x ++ rest = 60 :: n ++ c :: t) as (c & t & Hc & E).
  { inversion I as [m ta l w T1 T2 T3 E1|m ta l w s ks w' T1 T2 T3 T4 T5 E1|p P E1 E2|p P E1 E2|p P E1 E2|p P E1 E2]; subst.
    1, 2: inversion T2 as [|w0 n0 w1 w2 q s0 v rs l0 W0 W1]; subst; [destruct w as [|c0 w]|destruct w0 as [|c0 w0]; [congruence|]].
    - exists 47, (62 :: rest). split; [auto|]. cbn. now rewrite <- app_assoc.
    - inversion T3. subst. exists c0. eexists. split; [auto|]. cbn. rewrite <- !app_assoc. cbn. reflexivity.
    - inversion W1. subst. exists c0. eexists. split; [auto|]. cbn. rewrite <- !app_assoc. cbn. reflexivity.
    - exists 62. eexists. split; [auto|]. cbn. rewrite <- !app_assoc. cbn. reflexivity.
    - inversion T3. subst. exists c0. eexists. split; [auto|]. cbn. rewrite <- !app_assoc. cbn. reflexivity.
    - inversion W1. subst. exists c0. eexists. split; [auto|]. cbn. rewrite <- !app_assoc. cbn. reflexivity.
    - exfalso. now apply (proj1 (special_tag_name _ N (s2z "--" ++ p ++ s2z "--"))).
    - exfalso. now apply (proj2 (special_tag_name _ N (p ++ s2z "?"))).
    - exfalso. now apply (proj1 (special_tag_name _ N p)).
    - exfalso. now apply (proj1 (special_tag_name _ N (s2z "[CDATA[" ++ p ++ s2z "]]"))). }
  rewrite E. rewrite tok8_ascii by lia. unfold step. change (60 =? 60) with true. cbv iota. rewrite flush_after.
  destruct (uname_first n N) as (y & l & -> & Y1 & Y2 & Y3).
  rewrite (tag_of_name _ _ c y l (tok8 t)); [reflexivity|now apply collect_uname|assumption..].
Qed.
Theorem C71_comment_beside_root_refuted p w x n a ks : comment_ok p -> spaces w -> item x (Elem n a ks) -> tag_name n ->
  load_string ((s2z "<!--" ++ p ++ s2z "-->") ++ w ++ x) = Fail /\ load_string (x ++ w ++ s2z "<!--" ++ p ++ s2z "-->") = Fail.
Proof.
  intros P W X N. split.
  - destruct (reach_blanks_after w W (Elem (s2z "!--" ++ p ++ s2z "--") [] []) [] false x) as (b & R).
    pose proof (step_element_after n x (Elem (s2z "!--" ++ p ++ s2z "--") [] []) b false ks ltac:(eauto) N []) as F. rewrite app_nil_r in F.
    eapply load_fail; [|exact F]. eapply reach_step; [|exact R].
    replace ((s2z "<!--" ++ p ++ s2z "-->") ++ w ++ x) with (60 :: s2z "!--" ++ p ++ s2z "--" ++ 62 :: (w ++ x)) by (cbn [s2z list_ascii_of_string map app]; repeat (rewrite <- ?app_assoc; cbn [app]); reflexivity).
    rewrite step_at by reflexivity. now rewrite comment_tag.
  - destruct (proj1 reads_all x _ X [] None [] false (w ++ s2z "<!--" ++ p ++ s2z "-->") ltac:(auto) ltac:(auto) ltac:(auto)) as (op & _ & R). cbn [add_kids top_after] in R.
    destruct (reach_blanks_after w W (Elem n a ks) [] op (s2z "<!--" ++ p ++ s2z "-->")) as (b & R').
    eapply load_fail; [eapply reach_trans; [exact R|exact R']|].
    change (s2z "<!--" ++ p ++ s2z "-->") with (60 :: s2z "!--" ++ p ++ s2z "--" ++ 62 :: []). rewrite tok8_ascii by lia.
    unfold step. change (60 =? 60) with true. cbv iota. rewrite flush_after, comment_tag_any by assumption. reflexivity.
Qed.
(** An empty comment does not end: it swallows what follows, here up to the end of the document. *)
Lemma comment_runs s : is_text s -> ~ In 45 s -> forall b, (forall c l, rev b = c :: l -> c <> 45) ->
  collect false comment_before never (fun _ => false) None (tok8 s) b = Ret (EOF, b ++ s, []).
Proof.
  intro T. induction T as [|c s G T IH] using text_ind_cps; intros N b B.
  - now rewrite app_nil_r.
  - rewrite tok8_rfc by assumption. cbn [collect andb].
    assert (E : comment_before c b = Add).
    { unfold comment_before. destruct (rev b) as [|y [|z [|u l]]] eqn:Q; rewrite ?andb_false_r; try reflexivity.
      specialize (B y _ eq_refl). apply Z.eqb_neq in B. rewrite B. cbn [andb]. now rewrite andb_false_r. }
    rewrite E. cbn [never]. rewrite (good_utf8 c G). rewrite IH.
    + now rewrite <- app_assoc.
    + intro K. apply N. apply in_or_app. now right.
    + intros y l Q ->. rewrite rev_app_distr in Q. destruct (rfc_first c G) as (z & m & Zr & _). apply N. apply in_or_app. left.
      destruct (rev (rfc_utf8 c)) as [|u k] eqn:U; [apply (f_equal (@List.length BinNums.Z)) in U; rewrite rev_length, Zr in U; discriminate|].
      injection Q as -> _. apply in_rev. rewrite U. now left.
Qed.
Theorem C71_empty_comment_refuted p n : is_text p -> ~ In 45 p -> tag_name n -> ~ In 45 n ->
  load_string (60 :: n ++ s2z "><!---->" ++ p ++ s2z "</" ++ n ++ s2z ">") = Fail.
Proof.
  intros T P N Q.
  assert (Tn : is_text n). { destruct N as (c & cs & H & F & ->). exists (c :: cs). split; [|reflexivity]. constructor; [apply more_good; now left|]. eapply Forall_impl; [|exact F]. exact more_good. }
  eapply (load_fail _ (mkP [mkFrame n [] []] None [] true) (tok8 (s2z "<!---->" ++ p ++ s2z "</" ++ n ++ s2z ">"))).
  - apply reach_one. pose proof (open_spelled n [] [] (s2z ">") 62 (s2z "<!---->" ++ p ++ s2z "</" ++ n ++ s2z ">") (mkP [] None [] false) N attributes_none) as O.
    rewrite step_at by reflexivity. refine (eq_trans (O _ eq_refl) eq_refl). exists []. split; [constructor|]. now left.
  - change (tok8 (s2z "<!---->" ++ p ++ s2z "</" ++ n ++ s2z ">")) with (tok8 (60 :: s2z "!---->" ++ p ++ s2z "</" ++ n ++ s2z ">")).
    rewrite step_at by reflexivity. unfold tag.
    replace (collect true name_before name_after (fun _ => false) None (tok8 (s2z "!---->" ++ p ++ s2z "</" ++ n ++ s2z ">")) [])
      with (Ret (A:=Z * cstr * list tok) (45, COMMENT, tok8 (s2z "-->" ++ p ++ s2z "</" ++ n ++ s2z ">"))) by reflexivity.
    cbn [rbind]. change (str_eqb COMMENT COMMENT) with true. cbv iota.
    replace (collect false comment_before never (fun _ => false) None (tok8 (s2z "-->" ++ p ++ s2z "</" ++ n ++ s2z ">")) COMMENT)
      with (collect false comment_before never (fun _ => false) None (tok8 (p ++ s2z "</" ++ n ++ s2z ">")) (COMMENT ++ s2z "-->")) by reflexivity.
    rewrite comment_runs; [reflexivity| | |].
    + repeat apply is_text_app; try assumption; now apply ascii_text.
    + intro K. apply in_app_or in K as [K|K]; [auto|]. apply in_app_or in K as [K|K]; [vm_compute in K; intuition lia|].
      apply in_app_or in K as [K|K]; [auto|vm_compute in K; intuition lia].
    + intros c l R. vm_compute in R. injection R as <- _. lia.
Qed.
(** An attribute whose name begins beyond ASCII is kept under a damaged name: the first character
    becomes the byte that is its code point modulo 256. *)
Theorem C71_attribute_name_refuted c v : good_cp c -> 128 <= c -> spells (value_char 34) v v ->
  load_string (s2z "<a " ++ rfc_utf8 c ++ s2z "=""" ++ v ++ s2z """/>") = Ret (Some (Elem (s2z "a") [([c mod 256], Some v)] [])).
Proof.
  intros G C V. unfold load_string.
  erewrite run_reach; [| |apply Nat.lt_succ_diag_r]; [|apply reach_one].
  2:{ change (s2z "<a " ++ rfc_utf8 c ++ s2z "=""" ++ v ++ s2z """/>") with (60 :: s2z "a" ++ 32 :: rfc_utf8 c ++ 61 :: 34 :: v ++ 34 :: s2z "/>").
      rewrite step_at by reflexivity.
      rewrite (tag_of_name _ _ 32 97 [] (tok8 (rfc_utf8 c ++ 61 :: 34 :: v ++ 34 :: s2z "/>"))) by (lia || (apply (collect_uname (s2z "a")); [nm|left; unfold space; lia])).
      unfold open_element. cbn [second_root stack top add_kids pend]. change (mxml_isspace 32) with true. cbv iota.
      assert (E : parse_attr [] c (tok8 (61 :: 34 :: v ++ 34 :: s2z "/>")) = Ret (34, [([c mod 256], Some v)], tok8 (s2z "/>"))).
      { unfold parse_attr. replace (is_quote c) with false by (unfold is_quote; lia).
        rewrite tok8_ascii by lia. cbn [collect andb Z.eqb Pos.eqb].
        replace (aname_before 61 [u8 c]) with Stop by reflexivity. cbn [rbind get_attr]. rewrite skip_over by reflexivity. cbn [rbind Z.eqb Pos.eqb].
        rewrite tok8_ascii by lia. cbn [skip_blanks]. change (mxml_isspace 32) with true. cbv iota. rewrite skip_over by reflexivity. cbn [rbind].
        change (34 =? EOF) with false. change (is_quote 34) with true. cbv iota.
        rewrite (collect_spells (quote_before 34) (value_char 34) v v); [|intros d b (D1 & _ & D3); split; [exact D1|]; unfold quote_before; now replace (d =? 34) with false by lia|exact V].
        rewrite tok8_ascii by lia. cbn [collect andb Z.eqb Pos.eqb]. unfold quote_before. change (34 =? 34) with true. cbv iota. cbn [rbind]. reflexivity. }
      rewrite (tok8_rfc c) by exact G.
      remember (61 :: 34 :: v ++ 34 :: s2z "/>") as rest eqn:Er.
      cbn [parse_element]. cbn [getc rbind]. replace (c =? EOF) with false by (unfold EOF; lia).
      replace (mxml_isspace c) with false by (unfold mxml_isspace; lia).
      replace ((c =? 47) || (c =? 63)) with false by lia. replace (c =? 60) with false by lia. replace (c =? 62) with false by lia. cbv iota.
      rewrite E. cbn [rbind]. change ((34 =? 47) || (34 =? 63)) with false. change (34 =? 62) with false. cbv iota.
      rewrite Er. cbn [List.length]. rewrite tok8_ascii by lia. cbn [List.length parse_element].
      replace (tok8 (s2z "/>")) with [Ch 47; Ch 62] by reflexivity. cbn. reflexivity. }
  reflexivity.
Qed.
(** A character reference of more than 62 digits is refused, although its value may be small. *)
Theorem C71_long_reference_refuted s : Forall dec_digit s -> (62 < List.length s)%nat ->
  load_string (s2z "<a>&#" ++ s ++ s2z ";</a>") = Fail.
Proof.
  intros D L. eapply (load_fail _ (mkP [mkFrame (s2z "a") [] []] None [] true) (tok8 (38 :: 35 :: s ++ s2z ";</a>"))); [apply reach_one; reflexivity|].
  rewrite tok8_ascii by lia. unfold step. change (38 =? 60) with false. change (38 =? 38) with true. cbv iota.
  rewrite <- (firstn_skipn 62 s). rewrite tok8_ascii by lia. cbn [get_entity]. change (ent_step [] 35) with (More [35]). cbv iota.
  rewrite <- app_assoc.
  assert (forall u e r, Forall dec_digit u -> (List.length e + List.length u <= 63)%nat -> get_entity (tok8 (u ++ r)) e = get_entity (tok8 r) (e ++ u)) as Walk.
  { induction u as [|c u IH]; intros e r F Le; [now rewrite app_nil_r|]. inversion F as [|? ? F1 F2]; subst. unfold dec_digit in F1.
    cbn [app]. rewrite tok8_ascii by lia. cbn [get_entity]. unfold ent_step.
    replace (ent_char c) with true by (symmetry; unfold ent_char; lia). cbn [List.length] in Le.
    replace (List.length e <? 63)%nat with true by (symmetry; apply Nat.ltb_lt; lia). rewrite IH; [now rewrite <- app_assoc|exact F2|]. rewrite app_length. cbn. lia. }
  rewrite Walk; [| |rewrite firstn_length; cbn [List.length]; lia].
  2:{ apply Forall_forall. intros c I. rewrite Forall_forall in D. apply D. rewrite <- (firstn_skipn 62 s). apply in_or_app. now left. }
  destruct (skipn 62 s) as [|c k] eqn:K; [apply (f_equal (@List.length BinNums.Z)) in K; rewrite skipn_length in K; cbn in K; lia|].
  assert (Dc : dec_digit c). { rewrite Forall_forall in D. apply D. rewrite <- (firstn_skipn 62 s), K. apply in_or_app. right. now left. }
  unfold dec_digit in Dc. cbn [app]. rewrite tok8_ascii by lia. cbn [get_entity]. unfold ent_step.
  replace (ent_char c) with true by (symmetry; unfold ent_char; lia).
  replace (List.length (35%Z :: firstn 62 s) <? 63)%nat with false; [reflexivity|]. symmetry. apply Nat.ltb_ge. cbn [List.length]. rewrite firstn_length. lia.
Qed.
(** Line ends are kept as they are: a carriage return is part of the text. *)
Theorem C71_line_ends_refuted n s : tag_name n -> spells text_char (s ++ [13; 10]) (s ++ [13; 10]) ->
  load_string (60 :: n ++ 62 :: (s ++ [13; 10]) ++ s2z "</" ++ n ++ s2z ">") = Ret (Some (Elem n [] [Opaque (s ++ [13; 10])])).
Proof.
  intros N S. apply C71_reads. pose proof (document_bare [] [] _ n [] _ [] ltac:(now left) (Forall_nil _) (simple_item n _ _ N S) N (Forall_nil _)) as K.
  cbn [app] in K. rewrite app_nil_r in K. replace (texts (s ++ [13; 10])) with [Opaque (s ++ [13; 10])] in K; [exact K|]. now destruct s.
Qed.
(** Text after a comment, or in a CDATA section, is lost: the title of a document of this form is
    read as empty, or as what is before the comment. *)
Definition titled (s : cstr) : cstr := s2z "<?xml?>" ++ s2z "<AdministrativeMetadata>" ++ s2z "<Title>" ++ s ++ s2z "</Title>" ++ s2z "</AdministrativeMetadata>".
Definition with_title (t : cstr) : admin := mkAdmin None None (Some t) None None None.
Lemma titled_document s ks : content s ks -> document (titled s) (Elem (s2z "?xml?") [] [Elem (s2z "AdministrativeMetadata") [] [Elem (s2z "Title") [] ks]]).
Proof.
  intro H.
  assert (It : item (s2z "<Title>" ++ s ++ s2z "</Title>") (Elem (s2z "Title") [] ks)).
  { refine (item_element (s2z "Title") [] [] [] s ks [] _ attributes_none _ H _); [nm|sp|sp]. }
  assert (Ia : item (s2z "<AdministrativeMetadata>" ++ (s2z "<Title>" ++ s ++ s2z "</Title>") ++ s2z "</AdministrativeMetadata>") (Elem (s2z "AdministrativeMetadata") [] [Elem (s2z "Title") [] ks])).
  { assert (C : content ([] ++ (s2z "<Title>" ++ s ++ s2z "</Title>") ++ []) [Elem (s2z "Title") [] ks]).
    { apply (content_item [] [] _ _ [] []); [constructor|exact It|apply (content_end [] []); constructor]. }
    rewrite app_nil_r in C. cbn [app] in C.
    refine (item_element (s2z "AdministrativeMetadata") [] [] [] _ _ [] _ attributes_none _ C _); [nm|sp|sp]. }
  pose proof (document_declared [] [] (s2z "xml") _ _ ltac:(now left) (Forall_nil _) ltac:(now apply ascii_instruction) (body_item [] _ _ [] [] (Forall_nil _) Ia (body_end [] (Forall_nil _)))) as K.
  unfold titled. cbn [app texts] in K. rewrite app_nil_r in K. rewrite <- !app_assoc in K. exact K.
Qed.
Theorem C71_text_after_comment_refuted p s1 v1 s2 v2 : comment_ok p -> spells text_char s1 v1 -> spells text_char s2 v2 ->
  load_object (fun d => succeeded (load_admin d)) (titled (s1 ++ (s2z "<!--" ++ p ++ s2z "-->") ++ s2)) =
  Ok (Some (with_title (string_trim v1))).
Proof.
  intros P H1 H2. rewrite (document_load _ _ _ (titled_document _ _ (content_item s1 v1 _ _ s2 _ H1 (item_comment p P) (content_end s2 v2 H2)))).
  destruct v1; destruct v2; reflexivity.
Qed.
Theorem C71_text_in_cdata_refuted p : cdata_ok p ->
  load_object (fun d => succeeded (load_admin d)) (titled (s2z "<![CDATA[" ++ p ++ s2z "]]>")) = Ok (Some (with_title [])).
Proof.
  intros P. pose proof (content_item [] [] _ _ [] [] (spells_nil _) (item_cdata p P) (content_end [] [] (spells_nil _))) as C. cbn [app texts] in C. rewrite app_nil_r in C.
  rewrite (document_load _ _ _ (titled_document _ _ C)). reflexivity.
Qed.
Print Assumptions C71_comment_beside_root_refuted.
Print Assumptions C71_empty_comment_refuted.
Print Assumptions C71_attribute_name_refuted.
Print Assumptions C71_long_reference_refuted.
Print Assumptions C71_line_ends_refuted.
Print Assumptions C71_text_after_comment_refuted.
Print Assumptions C71_text_in_cdata_refuted.
(** The refutations' hypotheses are met by ordinary documents. *)
Example C71_refuted_witness :
  comment_ok (s2z " made by hand ") /\ spaces [10] /\ item (s2z "<file/>") (Elem (s2z "file") [] []) /\ tag_name (s2z "file") /\
  ~ In 45 (s2z "file") /\ good_cp 233 /\ spells (value_char 34) (s2z "v") (s2z "v") /\ spells text_char (s2z "Film" ++ [13; 10]) (s2z "Film" ++ [13; 10]) /\
  cdata_ok (s2z "Film") /\ Forall dec_digit (repeat 48 60 ++ s2z "065") /\ dec_value (repeat 48 60 ++ s2z "065") = 65.
Proof.
  split; [now apply ascii_comment|]. split; [sp|]. split; [refine (item_empty (s2z "file") [] [] [] _ attributes_none _); [nm|sp]|]. split; [nm|].
  split; [intro K; vm_compute in K; intuition lia|]. split; [unfold good_cp; lia|]. split; [now apply spells_value|].
  split; [apply spells_app; [now apply spells_text|apply spaces_spell; sp]|].
  split. { split; [now apply ascii_text|]. intros (a & b & E). assert (I : In 93 (s2z "Film")) by (rewrite E; apply in_or_app; right; now left). vm_compute in I. intuition lia. }
  split; [|reflexivity]. apply Forall_forall. intros c K. vm_compute in K. unfold dec_digit. intuition lia.
Qed.
