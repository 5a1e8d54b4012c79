(** A table of contents as a client sees it: four strings and three sequences. *)
From Verif Require Import CBase TocModel SpecToc BuildModel.

Record book := mkBook { b_version : option cstr; b_index_type : option cstr; b_job_id : option cstr; b_reel_id : option cstr;
                        b_reels : list reel; b_sources : list msource; b_layouts : list layout_def }.
Definition empty_book (v i j r : option cstr) : book := mkBook v i j r [] [] [].
(** Definitions are taken one after the other until one has an identification that is already there. *)
Inductive leading : list layout_def -> list layout_def -> bool -> list layout_def -> Prop :=
| lead_end cur : leading cur [] true cur
| lead_next cur d ds ok fin : ~ In (ld_id d) (map ld_id cur) -> leading (cur ++ [d]) ds ok fin -> leading cur (d :: ds) ok fin
| lead_stop cur d ds : In (ld_id d) (map ld_id cur) -> leading cur (d :: ds) false cur.
Definition listed {A} (v : vec A) : list A := match v with Some l => l | None => [] end.
(** What a call does, and what it answers. *)
Inductive does : book -> op -> bool -> book -> Prop :=
| d_version b s : does b (SetVersion s) true (mkBook s (b_index_type b) (b_job_id b) (b_reel_id b) (b_reels b) (b_sources b) (b_layouts b))
| d_index b s : does b (SetIndexType s) true (mkBook (b_version b) s (b_job_id b) (b_reel_id b) (b_reels b) (b_sources b) (b_layouts b))
| d_job b s : does b (SetJobId s) true (mkBook (b_version b) (b_index_type b) s (b_reel_id b) (b_reels b) (b_sources b) (b_layouts b))
| d_reel_id b s : does b (SetReelId s) true (mkBook (b_version b) (b_index_type b) (b_job_id b) s (b_reels b) (b_sources b) (b_layouts b))
| d_reel b r : reel_ok r -> does b (AddReel r) true (mkBook (b_version b) (b_index_type b) (b_job_id b) (b_reel_id b) (b_reels b ++ [r]) (b_sources b) (b_layouts b))
| d_no_reel b r : ~ reel_ok r -> does b (AddReel r) false b
| d_source b s : msource_ok s -> does b (AddSource s) true (mkBook (b_version b) (b_index_type b) (b_job_id b) (b_reel_id b) (b_reels b) (b_sources b ++ [s]) (b_layouts b))
| d_no_source b s : ~ msource_ok s -> does b (AddSource s) false b
| d_layout b d : layout_ok d -> ~ In (ld_id d) (map ld_id (b_layouts b)) ->
    does b (AddLayout d) true (mkBook (b_version b) (b_index_type b) (b_job_id b) (b_reel_id b) (b_reels b) (b_sources b) (b_layouts b ++ [d]))
| d_no_layout b d : ~ layout_ok d \/ In (ld_id d) (map ld_id (b_layouts b)) -> does b (AddLayout d) false b
| d_layouts b v ok fin : listed v <> [] -> Forall layout_ok (listed v) -> leading (b_layouts b) (listed v) ok fin ->
    does b (AddLayouts v) ok (mkBook (b_version b) (b_index_type b) (b_job_id b) (b_reel_id b) (b_reels b) (b_sources b) fin)
| d_no_layouts b v : listed v = [] \/ ~ Forall layout_ok (listed v) -> does b (AddLayouts v) false b
| d_offset b offset mask l : Forall2 (reel_shifted mask offset) (b_reels b) l ->
    does b (AddFrameOffset offset mask) true (mkBook (b_version b) (b_index_type b) (b_job_id b) (b_reel_id b) l (b_sources b) (b_layouts b)).
Inductive history : book -> list op -> list bool -> book -> Prop :=
| h_nil b : history b [] [] b
| h_cons b o ok b1 l answers b2 : does b o ok b1 -> history b1 l answers b2 -> history b (o :: l) (ok :: answers) b2.

(** Limits: the numbers of elements fit in an unsigned int, rectangles and moved frame numbers in theirs. *)
Definition few {A} (l : list A) : Prop := Z.of_nat (List.length l) < 2^32.
Definition moved_by (o : op) : Z := match o with AddFrameOffset offset _ => offset | _ => 0 end.
Definition total_offset (l : list op) : Z := zsum (map moved_by l).
Definition offered (o : op) : nat := match o with AddReel _ | AddSource _ | AddLayout _ => 1 | AddLayouts v => List.length (listed v) | _ => 0 end.
Definition all_offered (l : list op) : nat := fold_right Nat.add 0%nat (map offered l).
Definition op_fits (total : Z) (o : op) : Prop :=
  match o with
  | AddReel r => few (files_of r) /\ Forall (fun f => few (fsources_of f) /\ offset_fits total f) (files_of r)
  | AddLayout d => layout_fits d
  | AddLayouts v => Forall layout_fits (listed v)
  | AddFrameOffset offset _ => 0 <= offset
  | _ => True
  end.
Definition limits (l : list op) : Prop := Z.of_nat (all_offered l) < 2^32 /\ Forall (op_fits (total_offset l)) l.

(** What a client can see of a table of contents is the book. *)
Definition shows (t : toc_data) (b : book) : Prop :=
  t_version t = b_version b /\ t_index_type t = b_index_type b /\ t_job_id t = b_job_id b /\ t_reel_id t = b_reel_id b /\
  toc_reel_count t = Z.of_nat (List.length (b_reels b)) /\ (forall i, 0 <= i -> toc_reel_by_index t i = nth_error (b_reels b) (Z.to_nat i)) /\
  toc_metadata_source_count t = Z.of_nat (List.length (b_sources b)) /\ (forall i, 0 <= i -> toc_metadata_source t i = nth_error (b_sources b) (Z.to_nat i)) /\
  toc_layout_count t = Z.of_nat (List.length (b_layouts b)) /\ (forall i, 0 <= i -> toc_layout_definition t i = nth_error (b_layouts b) (Z.to_nat i)).
Definition named (b : book) : Prop :=
  nonempty (b_version b) /\ nonempty (b_job_id b) /\ nonempty (b_reel_id b) /\ (b_index_type b = Some (s2z "job") \/ b_index_type b = Some (s2z "reel")).
