(** C57: constructors. *)
From Coq Require Import String.
From Verif Require Import CBase TocModel ControlModel LoadProofs CreateModel SpecCreate.

Ltac made := repeat match goal with |- _ /\ _ => split end; intros; intro; split; reflexivity.
(** The constructors without contents make empty objects. *)
Theorem C57_new :
  makes range_at range_create (mkRange 0 0) /\ makes ranges_at ranges_create None /\
  makes section_at section_create (mkSection 0 0 0 0 0 0) /\ makes sections_at sections_create None /\
  makes layout_at layout_create (mkLayoutDef None None None) /\ makes layouts_at layouts_create None /\
  makes toc_at toc_create (mkToc None None None None None None None) /\ makes fmetadata_at fmetadata_init None /\
  makes fsource_at fsource_create (mkFsource None None (-1) (-1)) /\ makes reel_at reel_create (mkReel None None) /\ makes reels_at reels_create None /\
  makes file_at file_init new_file /\ makes preview_at preview_init (mkPreview None (-1)) /\ makes page_at page_init (mkPage None 0 0 0 0 0 0 0) /\
  makes files_at files_init None /\ makes metadata_at metadata_init None /\ makes msource_at msource_init (mkMsource None (-1) (-1) None None) /\
  makes admin_at administrative_create admin_create /\ makes tech_at technical_create tech_create /\ makes control_at control_create (mkControl None None).
Proof. made. Qed.
Print Assumptions C57_new.
(** The others make objects with the values they are given, each in its place. *)
Theorem C57_values :
  (forall s c, makes range_at (range_create2 s c) (mkRange s c)) /\
  (forall i x y w h r, makes section_at (section_init i x y w h r) (mkSection i x y w h r)) /\
  (forall i n, makes layout_at (layout_create2 i n) (mkLayoutDef i n None)) /\
  (forall i n s, makes layout_at (layout_create3 i n s) (mkLayoutDef i n s)) /\ (forall i n s, makes layout_at (layout_init2 i n s) (mkLayoutDef i n s)) /\
  (forall v i j r, makes toc_at (toc_create2 v i j r) (mkToc v i j r None None None)) /\
  (forall v, makes fmetadata_at (fmetadata_init2 v) v) /\
  (forall d f i s, makes fsource_at (fsource_create2 d f i s) (mkFsource d f i s)) /\ (forall d f i s, makes fsource_at (fsource_init d f i s) (mkFsource d f i s)) /\
  (forall i, makes reel_at (reel_create2 i) (mkReel i None)) /\ (forall v, makes reels_at (reels_create2 v) v) /\
  (forall n d c sz i sf sb ef eb u pa ty pv ff md, makes file_at (file_create2 n d c sz i sf sb ef eb u pa ty pv ff md) (mkFile n d c sz i sf sb ef eb u pa ty pv ff md)) /\
  (forall n d c sz i sf sb ef eb u pa ty pv ff md, makes file_at (file_init2 n d c sz i sf sb ef eb u pa ty pv ff md) (mkFile n d c sz i sf sb ef eb u pa ty pv ff md)) /\
  (forall v, makes preview_at (preview_init2 v) (mkPreview v (-1))) /\
  (forall l sf ss c dx dy ox oy, makes page_at (page_init2 l sf ss c dx dy ox oy) (mkPage l sf ss c dx dy ox oy)) /\
  (forall v, makes files_at (files_init2 v) v) /\ (forall v, makes metadata_at (metadata_init2 v) v) /\
  (forall a b c d e f, makes admin_at (administrative_create2 a b c d e f) (mkAdmin a b c d e f)) /\
  (forall t f, makes tech_at (technical_create2 t f) (mkTech f t None)) /\ (forall a t, makes control_at (control_create2 a t) (mkControl a t)).
Proof. made. Qed.
Print Assumptions C57_values.
(** Metadata sources: nine constructors. *)
Theorem C57_metadata_sources (split : option cstr -> vec cstr) format file data tags id v :
  makes msource_at (msource_create2 split format file) (mkMsource format (-1) file None (split None)) /\
  makes msource_at (msource_create3 split format file id) (mkMsource format id file None (split None)) /\
  makes msource_at (msource_create4 split format file data) (mkMsource format (-1) file data (split None)) /\
  makes msource_at (msource_create5 split format file data id) (mkMsource format id file data (split None)) /\
  makes msource_at (msource_create6 split format file data tags) (mkMsource format (-1) file data (split tags)) /\
  makes msource_at (msource_create7 split format file data tags id) (mkMsource format id file data (split tags)) /\
  makes msource_at (msource_create8 format file v) (mkMsource format (-1) file None v) /\
  makes msource_at (msource_create9 format file v id) (mkMsource format id file None v) /\
  makes msource_at (msource_init2 split format file data tags id) (mkMsource format id file data (split tags)) /\
  makes msource_at (msource_init3 format file v id) (mkMsource format id file None v).
Proof. made. Qed.
Print Assumptions C57_metadata_sources.
(** The public afs_toc_preview_layout_definition_init leaves the sections as they were in the memory:
    a block that held something else there holds no layout definition, and in a block that held
    sections the new definition has them. *)
Theorem C57_layout_init_refuted i n : ~ (exists d, makes layout_at (layout_init i n) d) /\
  forall s p, p "sections"%string = PSections s -> layout_at (layout_init i n p) = Some (mkLayoutDef i n s).
Proof.
  split.
  - intros (d & H). destruct (H (fun _ => Num 7)) as (E & _). discriminate E.
  - intros s p E. unfold layout_at, layout_init, assign, text, bind. cbn. rewrite E. reflexivity.
Qed.
Print Assumptions C57_layout_init_refuted.
(** NULL is accepted by the init functions. *)
Example null_is_accepted (init : block -> block) : unless_null init None = None /\ forall p, unless_null init (Some p) = Some (init p).
Proof. split; reflexivity. Qed.
Example C57_witness : file_at (fun _ => Num 7) = None /\ page_at (fun _ => Text None) = None /\
  file_at (file_init (fun _ => PTags None)) = Some new_file.
Proof. repeat split. Qed.
