(** C76: a crash while a session saves. *)
From Verif Require Import CBase CBaseProofs TocModel SpecToc ValidProofs
  XmlModel SpecXml TocXmlModel SpecTocXml TagsModel PropTocXml FileModel SpecFile PropFile SpecCut PropCut BuildModel SpecBuild BuildProofs SessionModel SpecSession SessionProofs PropSession.
From Coq Require Import ZifyBool.

(** Any session, then one more save, which is interrupted at any byte: the books saved under other
    names load as before. The file being saved to is refused, or gives the book that was being saved,
    or gives an object without elements that is not valid. So a load that gives a valid object gives
    a book of the session, the last one saved under that name. *)
Theorem C76_crash split version index job reel d0 l compact nl name :
  session_limits l -> (forall n, In (LoadFrom n) l -> d0 n = None) ->
  all_carried split (empty_book version index job reel, fun _ => None) (l ++ [SaveAs compact nl name]) ->
  exists t d answers b s, steps split (mkToc version index job reel None None None, d0) l = Ok ((t, d), answers) /\
    session split (empty_book version index job reel, fun _ => None) l answers (b, s) /\
    (named b -> exists d', step split (t, d) (SaveAs compact nl name) = Ok ((t, d'), true) /\
      forall d'', interrupted d' d'' name -> (forall n, n <> name -> d'' n = d' n) ->
        (forall n k t0, n <> name -> s n = Some k -> exists u, fetch (load_toc split t0) true d'' n = Ok (Some u) /\ shows u k /\ (toc_is_valid u = true <-> named k)) /\
        (forall t0, exists r, fetch (load_toc split t0) true d'' name = Ok r /\
          forall u, r = Some u ->
            (shows u (book_back split b) /\ (toc_is_valid u = true <-> named (book_back split b))) \/
            (shows u (empty_book None (t_index_type t0) (t_job_id t0) (t_reel_id t0)) /\ toc_is_valid u = false))).
Proof.
  intros ((L & F) & B) D C.
  assert (C0 : all_carried split (empty_book version index job reel, fun _ => None) l).
  { intros l1 a l2 ans b s E. apply (C l1 a (l2 ++ [SaveAs compact nl name])). now rewrite E, <- app_assoc. }
  destruct (steps_session split d0 l (mkToc version index job reel None None None, d0) (empty_book version index job reel, fun _ => None)) as ((t, d) & answers & (b, s) & E & H & (V & Sh) & _); auto.
  - clear - F. apply Forall_forall. intros [o|c|c n0 n|n] I0; cbn; auto. rewrite Forall_forall in F. apply F. unfold edits. apply in_flat_map. exists (Edit o). split; [exact I0|now left].
  - split; [|reflexivity]. constructor; cbn; try reflexivity; try lia; repeat constructor.
  - exists t, d, answers, b, s. split; [exact E|]. split; [exact H|]. intro N. cbn [fst snd] in V, Sh.
    assert (K : book_carried b) by exact (C l _ [] answers b s eq_refl Logic.I H N).
    destruct (inv_shows _ _ _ _ V) as (_ & Vn). pose proof (inv_carried _ _ _ _ V K) as Kt.
    assert (Rt : forall t0, file_round_trips (toc_to_file t) (load_toc split t0) (toc_back split t)) by (intro t0; exact (proj2 (proj2 (proj2 (proj2 (proj2 (proj2 (proj2 (proj2 (proj2 (proj2 (proj2 (proj2 (C52_toc_files split)))))))))))) t0 t (proj2 Vn N) Kt)).
    destruct (Rt t compact nl d name) as (d' & St & O & _). exists d'. unfold step. rewrite St. cbn [obind fst snd]. split; [reflexivity|].
    intros d'' I0 O'. split.
    + intros n k t0 Nn Ek. specialize (Sh n). rewrite Ek in Sh. destruct Sh as (u & Vu & _ & Fu). exists u. rewrite (fetch_same _ _ d n); [|rewrite O'; auto].
      split; [apply Fu|]. apply (inv_shows _ _ _ _ Vu).
    + intro t0. destruct (proj1 (proj2 (proj2 (proj2 (proj2 (proj2 (proj2 (proj2 (C54_whole_refused_or_empty split)))))))) t0 t (proj2 Vn N) Kt compact nl d name d' d'' St I0) as (r & Er & Hr).
      exists r. split; [exact Er|]. intros u ->. destruct (Hr u eq_refl) as [->|<-].
      * left. apply (inv_shows 0 0). apply inv_back; [lia|exact V|exact K].
      * right. split; [|reflexivity]. apply (inv_shows 0 0). constructor; cbn; try reflexivity; try lia; repeat constructor.
Qed.
Print Assumptions C76_crash.

(** A session that fills an object and saves it, then a refused call and a save to another file that is
    cut short after half of its bytes: that file is refused, the first one gives its book. *)
Definition filled (r : reel) (m : msource) : list act :=
  [Edit (SetVersion (Some (s2z "1.0"))); Edit (SetIndexType (Some (s2z "reel"))); Edit (SetJobId (Some (s2z " job 1 "))); Edit (SetReelId (Some (s2z "reel-7")));
   Edit (AddReel r); Edit (AddSource m); SaveAs false true (s2z "a.xml"); Edit (AddReel (mkReel None None))].
Definition ex_save : act := SaveAs true true (s2z "c.xml").
Lemma filled_carried split r m : reels_carried [r] -> msource_carried m -> all_carried split (empty_book None None None None, fun _ => None) (filled r m ++ [ex_save]).
Proof.
  intros Kr Km l1 a l2 answers b s E Sa Se N. unfold filled, ex_save in E. cbn [app] in E.
  assert (Cx : forall x : cstr, forallb (fun c => (32 <=? c) && (c <? 128)) x = true -> carried (Some x)) by (intros x Hx y Ey; injection Ey as <-; now apply ascii_by).
  do 9 (try match goal with E : _ = _ ++ _ :: _, Se : session _ _ _ _ _ |- _ => next E Se end).
  all: try (match goal with E : [] = ?k ++ _ |- _ => destruct k; discriminate E end).
  all: try (exfalso; match goal with H : named _ |- _ => revert H; apply unnamed; reflexivity end).
  all: assert (carried (Some (s2z "1.0")) /\ carried (Some (s2z " job 1 ")) /\ carried (Some (s2z "reel-7"))) as (T1 & T2 & T3) by (repeat split; apply Cx; reflexivity).
  all: unfold book_carried; cbn [b_version b_index_type b_job_id b_reel_id b_reels b_sources b_layouts].
  all: split; [exact T1|]; split; [exact T2|]; split; [exact T3|].
  all: split; [first [apply Forall_nil|apply Forall_cons; [exact Km|apply Forall_nil]]|]; split; [split; [apply Forall_nil|split; [apply Forall_nil|apply NoDup_nil]]|].
  all: first [exact Kr|split; apply Forall_nil].
Qed.
Definition half (x : cstr) : cstr := firstn (Nat.div (List.length x) 2) x.
Definition cut (d : disk) (x : cstr) : disk := fun n => if str_eqb n (s2z "c.xml") then Some (half x) else d n.
Lemma cut_interrupts d x : d (s2z "c.xml") = Some x -> interrupted d (cut d x) (s2z "c.xml").
Proof. intro E. exists (half x), (skipn (Nat.div (List.length x) 2) x). unfold half, cut. rewrite firstn_skipn, str_eqb_refl. auto. Qed.
Example C76_crash_witness : let l := filled ex_reel ex_msource in
  session_limits l /\ (forall n, In (LoadFrom n) l -> ex_disk0 n = None) /\
  all_carried split_parts (empty_book None None None None, fun _ => None) (l ++ [ex_save]) /\
  match steps split_parts (mkToc None None None None None None None, ex_disk0) (l ++ [ex_save]) with
  | Ok ((t, d), answers) => answers = [true; true; true; true; true; true; true; false; true] /\
      match d (s2z "c.xml") with
      | Some x =>
          interrupted d (cut d x) (s2z "c.xml") /\ Nat.ltb 200 (List.length (half x)) = true /\
          fetch (load_toc split_parts t) true (cut d x) (s2z "c.xml") = Ok None /\
          match fetch (load_toc split_parts t) true (cut d x) (s2z "a.xml") with Ok (Some u) => toc_is_valid u = true | _ => False end
      | None => False end
  | UB => False
  end.
Proof.
  assert (Fi : few (files_of ex_reel) /\ Forall (fun f => few (fsources_of f) /\ offset_fits 0 f) (files_of ex_reel)).
  { split; [unfold few; cbn; lia|]. assert (F : few (fsources_of ex_file) /\ offset_fits 0 ex_file).
    { split; [unfold few; cbn; lia|]. unfold offset_fits, is_i32; cbn. repeat (split; [lia|]). intros pv E; try discriminate E; injection E as <-. repeat constructor; cbn; lia. }
    unfold files_of, ex_reel. cbn [r_files]. repeat (constructor; [exact F|]). constructor. }
  split; [|split; [|split]].
  - split; [|reflexivity]. split; [vm_compute; reflexivity|]. unfold filled, edits. cbn [flat_map app]. change (total_offset _) with 0.
    repeat (apply Forall_cons; [first [exact Logic.I|exact Fi|split; [unfold few; cbn; lia|constructor]]|]). apply Forall_nil.
  - intros name H. cbn in H. repeat (destruct H as [H|H]; [discriminate H|]). destruct H.
  - apply filled_carried; [|apply ex_msource_carried]. split; [constructor; [apply ex_reel_carried|constructor]|]. constructor; [|constructor]. intros x E; injection E as <-; discriminate.
  - assert (H : exists t d answers x, steps split_parts (mkToc None None None None None None None, ex_disk0) (filled ex_reel ex_msource ++ [ex_save]) = Ok ((t, d), answers) /\
      answers = [true; true; true; true; true; true; true; false; true] /\ d (s2z "c.xml") = Some x /\ Nat.ltb 200 (List.length (half x)) = true /\
      fetch (load_toc split_parts t) true (cut d x) (s2z "c.xml") = Ok None /\
      match fetch (load_toc split_parts t) true (cut d x) (s2z "a.xml") with Ok (Some u) => toc_is_valid u = true | _ => False end).
    { eexists _, _, _, _. split; [vm_compute; reflexivity|]. split; [reflexivity|]. split; [vm_compute; reflexivity|]. split; [vm_compute; reflexivity|].
      split; vm_compute; reflexivity. }
    destruct H as (t & d & answers & x & E & A & Ex & Lx & Fx & Fa). rewrite E. rewrite Ex. auto using cut_interrupts.
Qed.
