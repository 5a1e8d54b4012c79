(** Saving to strings. *)
From Verif Require Import CBase CBaseProofs XmlEntity XmlModel SpecXml TocModel TocXmlModel SpecTocXml ControlModel WsModel SpecWs WsProofs FileModel FileProofs WriterModel SpecWriter WriterProofs.

Definition is_whole (p : part) : bool := match p with Whole => true | _ => false end.
(** One element of the right name. *)
Definition fits (p : part) (kids : list node) : Prop :=
  match p with
  | Whole => True
  | FirstChild => exists n a k, kids = [Elem n a k]
  | Named => exists a k, kids = [Elem (s2z "metadata") a k]
  end.
Lemma part_text_spec p cb kids : fits p kids -> exists nl, part_text p cb kids = save_indented (is_whole p) (kids, true) cb nl /\
  (forall s, part_text p cb kids = Ok (Some s) -> ends_line s).
Proof.
  assert (G : forall path t, is_elem t -> exists nl, obind (saved_text cb path t) (fun s => Ok (Some s)) = obind (write_checked cb path t) (fun s => Ok (Some (s ++ (if nl : bool then [10] else [])))) /\
     (forall s, obind (saved_text cb path t) (fun s => Ok (Some s)) = Ok (Some s) -> ends_line s)).
  { intros path t IE. destruct (saved_text_spec cb path t IE) as (nl & E & L). exists nl. split.
    - rewrite E. destruct (write_checked cb path t); reflexivity.
    - intros s X. destruct (saved_text cb path t) as [s'|]; [|discriminate]. injection X as <-. now apply L. }
  unfold save_indented. cbn [fst snd]. destruct p; cbn [fits is_whole part_text].
  - intros _. now apply G.
  - intros (n & a & k & ->). now apply G.
  - intros (a & k & ->). change (find_elem (s2z "metadata") (new_xml [Elem (s2z "metadata") a k])) with (Some (Elem (s2z "metadata") a k)). now apply G.
Qed.
Lemma string_round {A} p saved cb (load : node -> option A) x : fits p (fst saved) ->
  indented_round_trips (is_whole p) saved (guarded no_ws) load x -> indented_round_trips (is_whole p) saved cb load x ->
  string_round_trips (as_string p true saved cb) load x.
Proof.
  intros F R1 R2 compact. assert (K : snd saved = true) by (destruct (R1 true) as (s & E & _); exact (indented_saved _ _ _ _ _ E)).
  unfold as_string. cbn [negb]. rewrite K. cbn [negb]. destruct (part_text_spec p (if compact then guarded no_ws else cb) (fst saved) F) as (nl & E & L).
  replace (fst saved, true) with saved in E by (destruct saved; cbn in *; congruence).
  assert (R : exists s, save_indented (is_whole p) saved (if compact then guarded no_ws else cb) nl = Ok (Some s) /\ load_object load s = Ok (Some x) /\ is_text s) by (destruct compact; auto).
  destruct R as (s & E' & R & T). exists s. rewrite E in L |- *. auto.
Qed.
Lemma string_round_compact {A} p saved cb (load : node -> option A) x : fits p (fst saved) ->
  indented_round_trips (is_whole p) saved (guarded no_ws) load x -> compact_string_round_trips (as_string p true saved cb) load x.
Proof. intros F R. exact (string_round p saved (guarded no_ws) load x F R R true). Qed.

(** * Files *)
Lemma finish_is cb path t : match write_col cb path t 0 with
  | Ok (s, c) => write_checked cb path t = Ok s /\ saved_text cb path t = Ok (s ++ (if c >? 0 then [10] else []))
  | UB => write_checked cb path t = UB /\ saved_text cb path t = UB end.
Proof.
  pose proof (col_writes cb t path 0) as W. unfold saved_text. destruct (write_col cb path t 0) as [(s, c)|]; cbn in W |- *; rewrite <- W; split; reflexivity.
Qed.
(** What *_save_file writes. *)
Lemma store_exact o g saved cb compact d name : (snd saved = true -> g = true) ->
  exactly saved cb (store o g saved cb) compact true d name =
    if negb (snd saved) then Ok (if g then match o with OpenFirst => write_file d name [] | BuildFirst => d end else d, false)
    else obind (saved_text (if compact then guarded no_ws else cb) [] (new_xml (fst saved))) (fun s => Ok (write_file (write_file d name []) name s, true)).
Proof.
  intro G. unfold exactly, store, save_indented, file_nl. destruct (snd saved) eqn:K.
  - rewrite (G eq_refl). cbn [negb]. pose proof (finish_is (if compact then guarded no_ws else cb) [] (new_xml (fst saved))) as F.
    destruct (write_col (if compact then guarded no_ws else cb) [] (new_xml (fst saved)) 0) as [(s, c)|]; destruct F as (-> & ->); destruct o; reflexivity.
  - cbn [negb]. destruct g; cbn [negb]; [destruct o|]; reflexivity.
Qed.
Lemma same_whole o g1 g2 saved cb compact : (snd saved = true -> g1 = true /\ g2 = true) -> same_document (as_string Whole g1 saved cb) (exactly saved cb (store o g2 saved cb)) no_declaration compact.
Proof.
  intros G d name. rewrite store_exact by (intro X; apply G, X). unfold as_string. destruct (snd saved) eqn:K.
  - destruct (G eq_refl) as (-> & ->). cbn [negb part_text]. destruct (saved_text _ [] (new_xml (fst saved))) as [s|]; [|reflexivity]. cbn [obind].
    exists (write_file (write_file d name []) name s), []. split; [reflexivity|]. split; [reflexivity|]. split; [apply write_file_at|]. intros n N. now rewrite !write_file_other.
  - cbn [negb]. destruct g1; cbn [negb]; eexists; reflexivity.
Qed.
(** An element only: the callback says nothing but blanks around the document itself. *)
Lemma same_element o p g2 saved cb compact : is_whole p = false -> fits p (fst saved) \/ snd saved = false -> (snd saved = true -> g2 = true) ->
  (compact = false -> forall doc, doc = new_xml (fst saved) -> cb [] doc BeforeOpen = Ok [] /\ exists b, blank b /\ cb [] doc AfterOpen = Ok b) ->
  same_document (as_string p true saved cb) (exactly saved cb (store o g2 saved cb)) declaration compact.
Proof.
  intros Wh F G C d name. rewrite store_exact by exact G. unfold as_string. cbn [negb]. destruct (snd saved) eqn:K; [|cbn [negb]; eexists; reflexivity].
  cbn [negb]. destruct F as [F|F]; [|discriminate].
  assert (H : exists n a k, fst saved = [Elem n a k] /\ part_text p (if compact then guarded no_ws else cb) (fst saved) = obind (saved_text (if compact then guarded no_ws else cb) [XML_DECL] (Elem n a k)) (fun s => Ok (Some s))).
  { destruct p; [discriminate| |]; cbn [fits] in F.
    - destruct F as (n & a & k & ->). exists n, a, k. split; reflexivity.
    - destruct F as (a & k & ->). exists (s2z "metadata"), a, k. split; reflexivity. }
  destruct H as (n & a & k & E & ->).
  assert (B : exists b, blank b /\ saved_text (if compact then guarded no_ws else cb) [] (new_xml (fst saved)) =
    obind (saved_text (if compact then guarded no_ws else cb) [XML_DECL] (Elem n a k)) (fun s => Ok ((60 :: XML_DECL ++ 62 :: b) ++ s))).
  { rewrite E. rewrite document_text. destruct compact.
    - exists []. split; [constructor|]. reflexivity.
    - destruct (C eq_refl _ eq_refl) as (C1 & b & Bb & C2). rewrite E in C1, C2. rewrite C1, C2. exists b. split; [exact Bb|]. reflexivity. }
  destruct B as (b & Bb & ->). destruct (saved_text _ [XML_DECL] (Elem n a k)) as [s|]; [|reflexivity]. cbn [obind].
  eexists _, (60 :: XML_DECL ++ 62 :: b). split; [reflexivity|]. split; [exists b; split; [exact Bb|reflexivity]|]. split; [apply write_file_at|].
  intros m N. now rewrite !write_file_other.
Qed.
