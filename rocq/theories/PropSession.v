(** C76: sessions of edits, saves and loads of a table of contents. *)
From Verif Require Import CBase CBaseProofs TocModel SpecToc ValidProofs
  XmlModel SpecXml TocXmlModel SpecTocXml TagsModel PropTocXml FileModel SpecFile BuildModel SpecBuild BuildProofs SessionModel SpecSession SessionProofs.
From Coq Require Import ZifyBool.

(** Any session on a new table of contents, on any disk: it never fails, each step answers what the
    rules for books say, the object shows the book of the session, it is valid exactly when the book is
    named, and no file is changed but those saved to. Files loaded from are saved to before, or absent. *)
Theorem C76_sessions split version index job reel d0 l :
  session_limits l -> (forall name, In (LoadFrom name) l -> d0 name = None) ->
  all_carried split (empty_book version index job reel, nothing) l ->
  exists t d answers b s, steps split (mkToc version index job reel None None None, d0) l = Ok ((t, d), answers) /\
    session split (empty_book version index job reel, nothing) l answers (b, s) /\ shows t b /\ (toc_is_valid t = true <-> named b) /\
    (forall name, not_saved_to l name -> d name = d0 name).
Proof.
  intros ((L & F) & B) D C.
  destruct (steps_session split d0 l (mkToc version index job reel None None None, d0) (empty_book version index job reel, nothing)) as ((t, d) & answers & (b, s) & E & H & (V & _) & O); auto.
  - clear - F. apply Forall_forall. intros [o|c|c nl n|n] I0; cbn; auto. rewrite Forall_forall in F. apply F. unfold edits. apply in_flat_map. exists (Edit o). split; [exact I0|now left].
  - split; [|reflexivity]. constructor; cbn; try reflexivity; try lia; repeat constructor.
  - cbn in V, O. exists t, d, answers, b, s. split; [exact E|]. split; [exact H|]. destruct (inv_shows _ _ _ _ V) as (S1 & S2). auto.
Qed.
Print Assumptions C76_sessions.
(** The files of the session can be loaded into any object by any later program: each gives an object
    that shows the book on the shelf. *)
Theorem C76_files split version index job reel d0 l :
  session_limits l -> (forall name, In (LoadFrom name) l -> d0 name = None) ->
  all_carried split (empty_book version index job reel, nothing) l ->
  exists t d answers b s, steps split (mkToc version index job reel None None None, d0) l = Ok ((t, d), answers) /\
    session split (empty_book version index job reel, nothing) l answers (b, s) /\
    forall name k, s name = Some k -> exists u, shows u k /\ (toc_is_valid u = true <-> named k) /\
      forall t0 d', d' name = d name -> fetch (load_toc split t0) true d' name = Ok (Some u).
Proof.
  intros ((L & F) & B) D C.
  destruct (steps_session split d0 l (mkToc version index job reel None None None, d0) (empty_book version index job reel, nothing)) as ((t, d) & answers & (b, s) & E & H & (V & Sh) & O); auto.
  - clear - F. apply Forall_forall. intros [o|c|c nl n|n] I0; cbn; auto. rewrite Forall_forall in F. apply F. unfold edits. apply in_flat_map. exists (Edit o). split; [exact I0|now left].
  - split; [|reflexivity]. constructor; cbn; try reflexivity; try lia; repeat constructor.
  - exists t, d, answers, b, s. split; [exact E|]. split; [exact H|]. intros name k Ek. cbn [fst snd] in Sh. specialize (Sh name). rewrite Ek in Sh. destruct Sh as (u & Vu & _ & Fu).
    exists u. destruct (inv_shows _ _ _ _ Vu) as (S1 & S2). split; [exact S1|]. split; [exact S2|]. intros t0 d' Ed. rewrite (fetch_same _ _ _ _ Ed). apply Fu.
Qed.
Print Assumptions C76_files.

(** A session: an unnamed object is refused, then named, filled and saved to a file; it loses its
    version, so that a second save is refused; the file is loaded again, another does not exist. *)
Definition session_of (r : reel) (m : msource) : list act :=
  [Reparse true; Edit (SetVersion (Some (s2z "1.0"))); Edit (SetIndexType (Some (s2z "reel"))); Edit (SetJobId (Some (s2z " job 1 "))); Edit (SetReelId (Some (s2z "reel-7")));
   Edit (AddReel r); Edit (AddSource m); Edit (AddReel (mkReel None None)); SaveAs false true (s2z "a.xml"); Edit (SetVersion None); SaveAs true true (s2z "a.xml");
   LoadFrom (s2z "a.xml"); LoadFrom (s2z "b.xml")].
Definition ex_session : list act := session_of ex_reel ex_msource.
Definition ex_disk0 : disk := fun n => if str_eqb n (s2z "old.xml") then Some (s2z "<old/>") else None.
Ltac one_step := match goal with
  | H : session _ _ (_ :: _) _ _ |- _ => inversion H; subst; clear H
  | H : session _ _ [] _ _ |- _ => inversion H; subst; clear H
  | H : went _ _ _ _ _ |- _ => inversion H; subst; clear H
  | H : does _ _ _ _ |- _ => inversion H; subst; clear H
  end.
Lemma no_reel_ok : ~ reel_ok (mkReel None None).
Proof. intros ((c & m & E) & _). discriminate E. Qed.
Lemma unnamed b : b_version b = None -> ~ named b.
Proof. intros E ((c & m & E') & _). congruence. Qed.
Lemma cons_cut {A} (x : A) l l1 a l2 : x :: l = l1 ++ a :: l2 -> (l1 = [] /\ a = x) \/ exists k, l1 = x :: k /\ l = k ++ a :: l2.
Proof. destruct l1 as [|y l1]; cbn; intro E; injection E; intros; subst; eauto. Qed.
Lemma session_of_carried split r m : reels_carried [r] -> msource_carried m -> all_carried split (empty_book None None None None, nothing) (session_of r m).
Proof.
  intros Kr Km l1 a l2 answers b s E Sa Se N. unfold session_of in E.
  assert (Cx : forall x : cstr, forallb (fun c => (32 <=? c) && (c <? 128)) x = true -> carried (Some x)) by (intros x Hx y Ey; injection Ey as <-; now apply ascii_by).
  Ltac next E Se := let k := fresh "k" in let W := fresh "W" in
    apply cons_cut in E as [(-> & ->)|(k & -> & E)];
    [try contradiction; inversion Se; subst; clear Se; try (exfalso; match goal with H : named _ |- _ => revert H end; apply unnamed; reflexivity)
    |inversion Se as [|? ? ? ? ? ? ? W Se']; subst; clear Se; rename Se' into Se; inversion W; subst; clear W;
      try match goal with H : does _ _ _ _ |- _ => inversion H; subst; clear H end; try (exfalso; apply no_reel_ok; assumption);
      try (exfalso; match goal with N : named _, H : named _ |- _ => revert H end; apply unnamed; reflexivity);
      cbn [empty_book b_version b_index_type b_job_id b_reel_id b_reels b_sources b_layouts app] in Se].
  do 13 (try match goal with E : _ = _ ++ _ :: _, Se : session _ _ _ _ _ |- _ => next E Se end).
  all: try (destruct k; discriminate E).
  all: try (exfalso; match goal with H : named _ |- _ => revert H; apply unnamed; reflexivity end).
  all: assert (carried (Some (s2z "1.0")) /\ carried (Some (s2z " job 1 ")) /\ carried (Some (s2z "reel-7"))) as (T1 & T2 & T3) by (repeat split; apply Cx; reflexivity).
  all: unfold book_carried; cbn [b_version b_index_type b_job_id b_reel_id b_reels b_sources b_layouts].
  all: split; [exact T1|]; split; [exact T2|]; split; [exact T3|].
  all: split; [first [apply Forall_nil|apply Forall_cons; [exact Km|apply Forall_nil]]|]; split; [split; [apply Forall_nil|split; [apply Forall_nil|apply NoDup_nil]]|].
  all: first [exact Kr|split; apply Forall_nil].
Qed.
Example C76_witness : session_limits ex_session /\ (forall name, In (LoadFrom name) ex_session -> ex_disk0 name = None) /\
  all_carried split_parts (empty_book None None None None, nothing) ex_session /\
  match steps split_parts (mkToc None None None None None None None, ex_disk0) ex_session with
  | Ok ((t, d), answers) => answers = [false; true; true; true; true; true; true; false; true; true; false; true; false] /\
      t_version t = Some (s2z "1.0") /\ t_job_id t = Some (s2z "job 1") /\ toc_reel_count t = 1 /\ toc_is_valid t = true
  | UB => False
  end.
Proof.
  assert (Fi : few (files_of ex_reel) /\ Forall (fun f => few (fsources_of f) /\ offset_fits 0 f) (files_of ex_reel)).
  { split; [unfold few; cbn; lia|]. assert (F : few (fsources_of ex_file) /\ offset_fits 0 ex_file).
    { split; [unfold few; cbn; lia|]. unfold offset_fits, is_i32; cbn. repeat (split; [lia|]). intros pv E; try discriminate E; injection E as <-. repeat constructor; cbn; lia. }
    unfold files_of, ex_reel. cbn [r_files]. repeat (constructor; [exact F|]). constructor. }
  split; [|split; [|split]].
  - split; [|reflexivity]. split; [vm_compute; reflexivity|]. unfold ex_session, session_of, edits. cbn [flat_map app]. change (total_offset _) with 0.
    repeat (apply Forall_cons; [first [exact Logic.I|exact Fi|split; [unfold few; cbn; lia|constructor]]|]). apply Forall_nil.
  - intros name H. cbn in H. repeat (destruct H as [H|H]; [try discriminate H; injection H as <-; reflexivity|]). destruct H.
  - apply session_of_carried; [|apply ex_msource_carried]. split; [constructor; [apply ex_reel_carried|constructor]|]. constructor; [|constructor]. intros x E; injection E as <-; discriminate.
  - vm_compute. auto 10.
Qed.
