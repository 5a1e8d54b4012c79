(** C77: what has been saved and loaded once comes back unchanged from then on. *)
From Verif Require Import CBase CBaseProofs XmlModel SpecXml TocModel SpecToc ValidProofs EqualProofs TocXmlModel SpecTocXml
  TocXmlProofs TocXmlProofs2 TocXmlProofs3 TocXmlProofs4 TocXmlProofs5 TocXmlNorm TocXmlRound TagsModel PropTocXml StableProofs.
From Coq Require Import ZifyBool.

(** A valid table of contents, not necessarily in normal form, that is saved and loaded gives an object;
    when that is valid (its ids are not blank), every further save and load gives an equal object. *)
Theorem C77_toc split t0 t : splits split -> toc_is_valid t = true -> toc_carried t -> Forall msource_clean (msources_of t) ->
  exists u, round_trips (save_toc t) (load_toc split t0) u /\
    (toc_is_valid u = true <-> solid (t_job_id t) /\ solid (t_reel_id t)) /\
    (toc_is_valid u = true -> forall t1, exists w, round_trips (save_toc u) (load_toc split t1) w /\ toc_equal w u = true).
Proof.
  intros Sp V K M. exists (toc_back split t). split; [now apply C22_toc_round_trip|]. destruct (toc_carried_back split t Sp V K M) as (K' & C'). split; [now apply toc_back_valid|].
  intros V' t1. now apply C22_toc_normal_form.
Qed.
Print Assumptions C77_toc.
(** The parts that can be saved on their own. *)
Theorem C77_parts :
  (forall f, file_is_valid f = true -> file_carried f -> file_solid f -> exists g, round_trips (save_file false f) load_file g /\ file_is_valid g = true /\
     exists h, round_trips (save_file false g) load_file h /\ file_equal h g = true) /\
  (forall r, reel_is_valid r = true -> reel_carried r -> solid (r_id r) -> exists g, round_trips (save_reel r) load_reel g /\ reel_is_valid g = true /\
     exists h, round_trips (save_reel g) load_reel h /\ reel_equal h g = true) /\
  (forall d, layout_def_is_valid d = true -> layout_carried d -> solid (ld_id d) -> solid (ld_name d) -> exists g, round_trips (save_layout_def d) load_layout_def g /\ layout_def_is_valid g = true /\
     exists h, round_trips (save_layout_def g) load_layout_def h /\ layout_def_equal h g = true) /\
  (forall p, page_carried p -> exists g, round_trips (save_page p) load_page g /\ round_trips (save_page g) load_page g) /\
  (forall p, preview_is_valid (Some p) = true -> preview_carried p -> exists g, round_trips (save_preview (Some p)) load_preview g /\ preview_is_valid (Some g) = true /\
     round_trips (save_preview (Some g)) load_preview g).
Proof.
  split; [|split; [|split; [|split]]].
  - intros f V K S0. exists (file_back f). split; [now apply C17_file_round_trip|]. pose proof (file_back_valid f V K S0) as V'. split; [exact V'|].
    assert (NB : blank_text f = false) by (apply file_not_blank; [apply file_valid_iff; [apply K|exact V]|exact S0]). destruct (file_carried_back f K NB). now apply C17_file_normal_form.
  - intros r V K S0. exists (reel_back r). split; [now apply C22_reel_round_trip|]. pose proof (reel_back_valid r V K S0) as V'. split; [exact V'|].
    destruct (reel_carried_back r K V) as (K' & C'). exists (reel_back (reel_back r)). split; [now apply C22_reel_round_trip|]. apply reel_decides. now apply reel_back_norm.
  - intros d V (K1 & K2 & K3) S1 S2. exists (layout_back d). split; [now apply C20_definition_round_trip|]. pose proof (layout_back_valid d V S1 S2) as V'. split; [exact V'|].
    apply C20_definition_normal_form; [exact V'|split; [now apply back_carried|split; [now apply back_carried|exact K3]]|split; apply back_clean].
  - intros p K. exists (page_back p). split; [now apply C19_page_round_trip|]. destruct (page_carried_back p K). now apply C19_page_normal_form.
  - intros p V K. exists (preview_back p). split; [now apply C19_preview_round_trip|].
    assert (V' : preview_is_valid (Some (preview_back p)) = true).
    { apply preview_valid_iff. apply preview_valid_iff in V as (q & E & V). injection E as <-. exists (preview_back p). split; [reflexivity|now apply preview_back_ok]. }
    split; [exact V'|]. destruct (preview_carried_back p K). now apply C19_preview_normal_form.
Qed.
Print Assumptions C77_parts.
(** Tags that are not in normal form may need a second round: an empty first tag is dropped (by a
    splitting function that drops empty parts) and the leading blank of the next one only after that. *)
Theorem C77_tags_refuted : exists s u w, msource_is_valid s = true /\ msource_carried s /\
  round_trips (save_msource s) (load_msource split_parts) u /\ msource_is_valid u = true /\ round_trips (save_msource u) (load_msource split_parts) w /\
  msource_equal w u = false.
Proof.
  pose (s := mkMsource (Some (s2z "dc")) 1 (-1) (Some (s2z "x")) (Some [[]; s2z " music"])).
  assert (K : forall v, tags_carried v -> msource_carried (mkMsource (Some (s2z "dc")) 1 (-1) (Some (s2z "x")) v)).
  { intros v T. split; [intros x E; injection E as <-; now apply ascii_by|]. split; [apayload|]. split; [unfold is_i32; cbn; lia|]. split; [unfold is_i32; cbn; lia|exact T]. }
  assert (T1 : tags_carried (Some [[]; s2z " music"])) by (intros l E; injection E as <-; now apply ascii_by).
  assert (T2 : tags_carried (Some [s2z " music"])) by (intros l E; injection E as <-; now apply ascii_by).
  exists s, (msource_back split_parts s), (msource_back split_parts (msource_back split_parts s)).
  split; [reflexivity|]. split; [now apply K|]. split; [apply msource_round; [reflexivity|now apply K]|]. split; [reflexivity|]. split; [apply msource_round; [reflexivity|now apply K]|]. vm_compute. reflexivity.
Qed.
Print Assumptions C77_tags_refuted.

(** A valid table that is not in normal form. *)
Definition ex_loose : toc_data := mkToc (t_version ex_toc) (t_index_type ex_toc) (Some (s2z "  job 1 ")) (t_reel_id ex_toc) (t_reels ex_toc) (t_metadata ex_toc) (t_layouts ex_toc).
Example C77_witness : splits split_parts /\ toc_is_valid ex_loose = true /\ toc_carried ex_loose /\ Forall msource_clean (msources_of ex_loose) /\ ~ toc_clean ex_loose /\
  solid (t_job_id ex_loose) /\ solid (t_reel_id ex_loose).
Proof.
  destruct C22_witness as (W1 & W2 & (W3 & W4 & W5 & W6) & (_ & _ & W7 & _)). split; [exact W1|]. split; [exact W2|]. split; [split; [exact W3|split; [intros x E; injection E as <-; now apply ascii_by|split; [exact W5|exact W6]]]|].
  split; [exact W7|]. split; [intros (H & _); specialize (H _ eq_refl); vm_compute in H; discriminate|]. split; intros x E; injection E as <-; discriminate.
Qed.
Example C77_parts_witness : file_is_valid ex_file = true /\ file_carried ex_file /\ file_solid ex_file.
Proof. split; [apply C17_witness|]. split; [apply C17_witness|]. split; intros x E; injection E as <-; discriminate. Qed.
