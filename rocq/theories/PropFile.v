(** C52, C53 and the file part of C34: saving to and loading from files. *)
From Verif Require Import CBase CBaseProofs XmlEntity XmlModel SpecXml XmlRound XmlRoots TocModel SpecToc ValidProofs TocXmlModel SpecTocXml TocXmlProofs TocXmlProofs2 TocXmlProofs3 TocXmlProofs5 TagsModel PropTocXml
  ControlModel SpecControl ControlProofs2 PropControl WsModel SpecWs WsProofs PropWs FileModel SpecFile FileProofs.

(** * C34: loading any file, whatever its bytes, ends inside the buffers with a document or a failure. *)
Theorem C34_file_reader s : (exists d, load_bytes s = Ret d) \/ load_bytes s = Fail.
Proof. exact (load_bytes_total s). Qed.
Print Assumptions C34_file_reader.
Theorem C34_load_file {A} (load : node -> option A) can_open d name : exists r, fetch load can_open d name = Ok r.
Proof. unfold fetch. destruct (if can_open then d name else None) as [s|]; [|eauto]. destruct (load_bytes_total s) as [(x & ->)| ->]; [destruct x|]; eauto. Qed.
Print Assumptions C34_load_file.

(** * C52 *)
(** The file reader and the string reader read every well-formed UTF-8 text alike (control characters
    and byte order marks included). *)
Theorem C52_readers_agree cps : Forall (fun c => 0 < c <= 1114111) cps -> load_bytes (flat_map rfc_utf8 cps) = load_string (flat_map rfc_utf8 cps).
Proof. intro F. apply load_agree. eapply Forall_impl; [|exact F]. cbv beta. intros. lia. Qed.
Print Assumptions C52_readers_agree.
(** So loading a file gives what loading its content as a string gives. *)
Theorem C52_file_as_string {A} (load : node -> option A) d name s : d name = Some s -> s <> [] -> is_text s -> fetch load true d name = load_object load s.
Proof. intros E N T. unfold fetch, load_object. rewrite E, load_text by assumption. destruct s; [congruence|reflexivity]. Qed.
Print Assumptions C52_file_as_string.
(** Not for malformed UTF-8: the file reader has consumed the byte that does not continue the character. *)
Theorem C52_malformed_refuted : exists s d, load_bytes s = Ret (Some d) /\ load_string s = Fail.
Proof. exists (s2z "<a b=""x" ++ [195] ++ s2z """></a>"). eexists. split; vm_compute; reflexivity. Qed.
Print Assumptions C52_malformed_refuted.

Lemma to_file {A} o saved cb (load : node -> option A) x : indented_round_trips true saved (guarded no_ws) load x -> indented_round_trips true saved cb load x ->
  file_round_trips (store o true saved cb) load x.
Proof. intros H1 H2 compact. apply store_round. now destruct compact. Qed.
Lemma no_ws_indenting : indenting no_ws. Proof. intros ? ? ?. constructor. Qed.
Lemma to_file_guarded {A} o saved ws (load : node -> option A) x : indenting ws -> round_trips saved load x -> file_round_trips (store o true saved (guarded ws)) load x.
Proof. intros I R. apply to_file; apply indented_guarded; auto. exact no_ws_indenting. Qed.
Lemma to_file_document {A} o saved ws (load : node -> option A) x : indenting ws -> document_round_trips saved load x -> file_round_trips (store o true saved (guarded ws)) load x.
Proof. intros I R. apply to_file; apply indented_guarded_document; auto. exact no_ws_indenting. Qed.
Lemma true_guard {A} o b saved cb (load : node -> option A) x : b = true -> file_round_trips (store o true saved cb) load x -> file_round_trips (store o b saved cb) load x.
Proof. now intros ->. Qed.
Ltac filed := apply to_file_guarded; [intros ? ? ?; apply rules_blank|].
Ltac filed_doc := apply to_file_document; [intros ? ? ?; apply rules_blank|].
Ltac filed_if V := apply true_guard; [exact V|filed].
(** Saving to a file and loading the file: on every disk, compact or indented, the object comes back
    exactly as through a string, and no other file changes. *)
Theorem C52_toc_files split :
  (forall l, sections_is_valid (Some (Some l)) = true -> sections_carried l -> file_round_trips (sections_to_file (Some l)) load_sections (Some l)) /\
  (forall s, section_is_valid s = true -> section_range s -> file_round_trips (section_to_file s) load_section s) /\
  (forall d, layout_def_is_valid d = true -> layout_carried d -> file_round_trips (layout_to_file d) load_layout_def (layout_back d)) /\
  (forall l, layout_defs_is_valid (Some (Some l)) = true -> layouts_carried l -> file_round_trips (layouts_to_file (Some l)) load_layout_defs (back_list layout_back l)) /\
  (forall p, page_carried p -> file_round_trips (page_to_file p) load_page (page_back p)) /\
  (forall p, preview_is_valid (Some p) = true -> preview_carried p -> file_round_trips (preview_to_file p) load_preview (preview_back p)) /\
  (forall s, fsource_is_valid s = true -> fsource_carried s -> file_round_trips (fsource_to_file s) load_fsource (fsource_back s)) /\
  (forall l, Forall (fun s => fsource_is_valid s = true) l -> Forall fsource_carried l -> short l ->
     file_round_trips (fmetadata_to_file (Some l)) load_fmetadata (back_list fsource_back l)) /\
  (forall s, msource_is_valid s = true -> msource_carried s -> file_round_trips (msource_to_file s) (load_msource split) (msource_back split s)) /\
  (forall l, metadata_is_valid (Some (Some l)) = true -> Forall msource_carried l -> file_round_trips (metadata_to_file (Some l)) (load_metadata split) (back_list (msource_back split) l)) /\
  (forall r, reel_is_valid r = true -> reel_carried r -> file_round_trips (reel_to_file r) load_reel (reel_back r)) /\
  (forall l, Forall (fun r => reel_is_valid r = true) l -> reels_carried l -> short l -> file_round_trips (reels_to_file (Some l)) load_reels (back_list reel_back l)) /\
  (forall t0 t, toc_is_valid t = true -> toc_carried t -> file_round_trips (toc_to_file t) (load_toc split t0) (toc_back split t)).
Proof.
  repeat match goal with |- _ /\ _ => split end.
  - intros l V K. filed_if V. now apply C20_sections_round_trip.
  - intros s V K. filed_if V. now apply TocXmlRound.section_round.
  - intros d V K. filed. now apply C20_definition_round_trip.
  - intros l V K. filed_if V. apply C20_collection_round_trip; [|exact K].
    apply Forall_forall. cbn in V. rewrite forallb_forall in V. exact V.
  - intros p K. filed. now apply C19_page_round_trip.
  - intros p V K. filed. now apply C19_preview_round_trip.
  - intros s V K. filed_if V. apply (C21_file_metadata_round_trip [s]); auto; [unfold short; cbn; lia|now left].
  - intros l V K Sh. filed. now apply C21_file_metadata_round_trip.
  - intros s V K. filed_if V. now apply TocXmlRound.msource_round.
  - intros l V K. filed. now apply C21_toc_metadata_round_trip.
  - intros r V K. filed_if V. now apply C22_reel_round_trip.
  - intros l V K Sh. filed. now apply C22_reels_round_trip.
  - intros t0 t V K. filed_if V. now apply C22_toc_round_trip.
Qed.
Print Assumptions C52_toc_files.
(** Control data and its parts. *)
Theorem C52_control_files :
  (forall a t, admin_carried a -> tech_carried t ->
     file_round_trips (control_to_file (mkControl (Some a) (Some t))) load_control (mkControl (Some (admin_back a)) (Some (tech_back t)))) /\
  (forall a, admin_carried a -> file_round_trips (admin_to_file a) (fun d => succeeded (load_admin d)) (admin_back a)) /\
  (forall t, tech_carried t -> te_tocs t <> None -> file_round_trips (tech_to_file t) (fun d => succeeded (load_tech d)) (tech_back t)) /\
  (forall f, format_carried f -> file_round_trips (format_to_file f) load_format (format_back f)).
Proof.
  split; [|split; [|split]].
  - intros a t A T. apply to_file.
    + apply indented_guarded_document; [exact no_ws_indenting|]. now apply (C23_control_round_trip a t).
    + now apply (proj1 C48_indented_control a t).
  - intros a A. filed_doc. now apply C23_admin_round_trip.
  - intros t T N. apply true_guard.
    + destruct T as ((f & -> & _) & _). destruct (te_tocs t); congruence.
    + filed_doc. now apply C23_technical_round_trip.
  - intros f F. filed_doc. now apply C23_format_round_trip.
Qed.
Print Assumptions C52_control_files.
(** File entries: compact saves only, the indented ones crash (C48). *)
Theorem C52_file_entries :
  (forall f, file_is_valid f = true -> file_carried f ->
     compact_file_round_trips (file_to_file false f) load_file (file_back f) /\ compact_file_round_trips (file_to_file true f) load_file (file_back_v1 f)) /\
  (forall l, Forall (fun f => file_is_valid f = true) l -> files_carried l -> compact_file_round_trips (files_to_file (Some l)) load_files (back_list file_back l)).
Proof.
  split; [intros f V K; split|intros l V K]; intros nl; apply (store_round _ _ _ _ _ true); apply indented_guarded; try exact no_ws_indenting.
  - now apply C17_file_round_trip.
  - now apply C40_v1_round_trip.
  - now apply C18_files_round_trip.
Qed.
Print Assumptions C52_file_entries.
Theorem C52_indented_file_entries_refuted :
  (forall f v1 nl d name, file_is_valid f = true -> file_to_file v1 f false nl true d name = UB) /\
  (forall v nl d name, snd (save_files (Some v)) = true -> files_to_file v false nl true d name = UB).
Proof.
  split.
  - intros f v1 nl d name V. unfold file_to_file, store. cbn [negb]. unfold save_indented, save_file. rewrite V. reflexivity.
  - intros v nl d name V. unfold files_to_file, store. rewrite V. cbn [negb]. unfold save_indented. rewrite V. reflexivity.
Qed.
Print Assumptions C52_indented_file_entries_refuted.

(** A save, successful or not, writes no other file, and an unwritable file is reported. *)
Theorem C52_touches_only :
  (forall x, touches_only (section_to_file x) /\ needs_file (section_to_file x)) /\ (forall x, touches_only (sections_to_file x) /\ needs_file (sections_to_file x)) /\
  (forall x, touches_only (layout_to_file x) /\ needs_file (layout_to_file x)) /\ (forall x, touches_only (layouts_to_file x) /\ needs_file (layouts_to_file x)) /\
  (forall x, touches_only (page_to_file x) /\ needs_file (page_to_file x)) /\ (forall x, touches_only (preview_to_file x) /\ needs_file (preview_to_file x)) /\
  (forall x, touches_only (fsource_to_file x) /\ needs_file (fsource_to_file x)) /\ (forall x, touches_only (fmetadata_to_file x) /\ needs_file (fmetadata_to_file x)) /\
  (forall x, touches_only (msource_to_file x) /\ needs_file (msource_to_file x)) /\ (forall x, touches_only (metadata_to_file x) /\ needs_file (metadata_to_file x)) /\
  (forall v1 x, touches_only (file_to_file v1 x) /\ needs_file (file_to_file v1 x)) /\ (forall x, touches_only (files_to_file x) /\ needs_file (files_to_file x)) /\
  (forall x, touches_only (reel_to_file x) /\ needs_file (reel_to_file x)) /\ (forall x, touches_only (reels_to_file x) /\ needs_file (reels_to_file x)) /\
  (forall x, touches_only (toc_to_file x) /\ needs_file (toc_to_file x)) /\ (forall x, touches_only (admin_to_file x) /\ needs_file (admin_to_file x)) /\
  (forall x, touches_only (tech_to_file x) /\ needs_file (tech_to_file x)) /\ (forall x, touches_only (control_to_file x) /\ needs_file (control_to_file x)) /\ (forall x, touches_only (format_to_file x) /\ needs_file (format_to_file x)).
Proof.
  assert (T : forall o g s c, touches_only (store o g s c) /\ needs_file (store o g s c)).
  { intros. split; [intros ? ? ? ? ? ? ?; apply store_touches|intros ? ? ? ?; apply store_needs_file]. }
  repeat match goal with |- _ /\ _ => split | |- forall x, _ => intro end; apply T.
Qed.
Print Assumptions C52_touches_only.
(** A failed save leaves the disk as it was. *)
Theorem C52_failure_harmless :
  (forall x, failure_harmless (section_to_file x)) /\ (forall x, failure_harmless (sections_to_file x)) /\
  (forall x, failure_harmless (layout_to_file x)) /\ (forall x, failure_harmless (layouts_to_file x)) /\
  (forall x, failure_harmless (page_to_file x)) /\ (forall x, failure_harmless (preview_to_file x)) /\
  (forall x, failure_harmless (fsource_to_file x)) /\ (forall x, failure_harmless (fmetadata_to_file x)) /\
  (forall x, failure_harmless (msource_to_file x)) /\ (forall x, failure_harmless (metadata_to_file x)) /\
  (forall v1 x, file_is_valid x = true -> failure_harmless (file_to_file v1 x)) /\ (forall x, failure_harmless (files_to_file x)) /\
  (forall x, reel_carried x -> failure_harmless (reel_to_file x)) /\ (forall x, failure_harmless (reels_to_file x)) /\
  (forall x, toc_carried x -> failure_harmless (toc_to_file x)) /\ (forall x, failure_harmless (admin_to_file x)) /\
  (forall x, failure_harmless (control_to_file x)) /\ (forall x, failure_harmless (format_to_file x)).
Proof.
  assert (B : forall g s c, failure_harmless (store BuildFirst g s c)) by (intros g s c compact nl op d n d'; apply store_harmless; discriminate).
  assert (O : forall g s c, (g = true -> snd s = true) -> failure_harmless (store OpenFirst g s c)) by (intros g s c H compact nl op d n d'; apply store_harmless; auto).
  repeat match goal with |- _ /\ _ => split end; try (intro; apply B); intros; apply O; intro V.
  - now rewrite save_section_ok.
  - destruct x as [l|]; [|discriminate]. now rewrite save_sections_ok.
  - now rewrite save_layouts_ok.
  - reflexivity.
  - now rewrite save_fsource_ok.
  - now rewrite save_msource_ok.
  - unfold save_file. now rewrite H.
  - now rewrite save_reel_ok.
  - now rewrite save_toc_ok.
  - reflexivity.
  - reflexivity.
Qed.
Print Assumptions C52_failure_harmless.
(** But a file entry that is not valid, or technical metadata with such an entry in its lists, is
    refused only after the existing file has been emptied. *)
Theorem C52_emptied_refuted :
  (forall v1 f compact nl d name, file_is_valid f = false -> exists d', file_to_file v1 f compact nl true d name = Ok (d', false) /\ d' name = Some []) /\
  (forall t compact nl d name, te_format t <> None -> te_tocs t <> None -> files_is_valid (te_tocs t) = false ->
     exists d', tech_to_file t compact nl true d name = Ok (d', false) /\ d' name = Some []).
Proof.
  split.
  - intros v1 f compact nl d name V. exists (write_file d name []). split; [|apply write_file_at]. unfold file_to_file, store. assert (S : save_file v1 f = ([], false)) by (unfold save_file; now rewrite V). rewrite S. reflexivity.
  - intros t compact nl d name F N V. exists (write_file d name []). split; [|apply write_file_at]. unfold tech_to_file, store.
    assert (S : snd (save_tech (Some t)) = false).
    { unfold save_tech. destruct (save_format (te_format t)) as (k1, []); cbn [negb snd]; [|reflexivity].
      destruct (te_tocs t); [|congruence]. unfold save_named_files, save_files. rewrite V. reflexivity. }
    rewrite S. destruct (te_tocs t); [|congruence]. destruct (te_format t); [|congruence]. reflexivity.
Qed.
Print Assumptions C52_emptied_refuted.
(** A missing file, or one that cannot be opened, loads as a failure. *)
Theorem C52_missing_file {A} (load : node -> option A) d name : (d name = None -> fetch load true d name = Ok None) /\ fetch load false d name = Ok None.
Proof. unfold fetch. split; [now intros ->|reflexivity]. Qed.
Print Assumptions C52_missing_file.

(** * C53 *)
Theorem C53_utf16 cps : Forall (fun c => good_cp c /\ scalar c /\ readable16 c) cps ->
  load_bytes (utf16be cps) = load_bytes (flat_map rfc_utf8 cps) /\ load_bytes (utf16le cps) = load_bytes (flat_map rfc_utf8 cps).
Proof. exact (utf16_loads cps). Qed.
Print Assumptions C53_utf16.
(** So an object saved as UTF-8 and converted to UTF-16 by any tool loads as the same object. *)
Theorem C53_converted_file {A} (load : node -> option A) d name d' name' cps : Forall (fun c => good_cp c /\ scalar c /\ readable16 c) cps ->
  d name = Some (flat_map rfc_utf8 cps) -> d' name' = Some (utf16be cps) \/ d' name' = Some (utf16le cps) ->
  fetch load true d' name' = fetch load true d name.
Proof. intros F E E'. destruct (utf16_loads cps F) as (B & L). unfold fetch. rewrite E. destruct E' as [-> | ->]; [now rewrite B|now rewrite L]. Qed.
Print Assumptions C53_converted_file.
(** The last 1024th character of every plane above the first is rejected: U+103FF, for instance. *)
Theorem C53_low_surrogate_refuted : exists cps d, Forall (fun c => good_cp c /\ scalar c) cps /\
  load_bytes (flat_map rfc_utf8 cps) = Ret (Some d) /\ load_bytes (utf16be cps) <> Ret (Some d) /\ load_bytes (utf16le cps) <> Ret (Some d).
Proof.
  exists (s2z "<a>x" ++ [66559] ++ s2z "y</a>"). eexists. split; [|split; [vm_compute; reflexivity|split; vm_compute; discriminate]].
  apply Forall_app; split; [|constructor; [unfold good_cp, scalar; lia|]]; (apply Forall_forall; intros c I; assert (H : 32 <= c < 128) by (cbn in I; intuition lia); unfold good_cp, scalar; lia).
Qed.
Print Assumptions C53_low_surrogate_refuted.

(** * Witnesses *)
Definition ex_disk : disk := fun n => if str_eqb n (s2z "old.xml") then Some (s2z "<old/>") else None.
Definition str_eqb_opt (a b : option cstr) : bool := match a, b with Some x, Some y => str_eqb x y | None, None => true | _, _ => false end.
Example C52_witness : toc_is_valid ex_toc = true /\ toc_carried ex_toc /\ file_is_valid ex_file = true /\ file_carried ex_file /\
  match toc_to_file ex_toc false true true ex_disk (s2z "toc.xml") with
  | Ok (d', true) => str_eqb_opt (d' (s2z "old.xml")) (Some (s2z "<old/>")) &&
      match fetch (load_toc split_parts ex_toc) true d' (s2z "toc.xml") with Ok (Some t) => toc_equal t ex_toc | _ => false end
  | _ => false
  end = true.
Proof.
  split; [apply C22_witness|]. split; [apply C22_witness|]. split; [apply C17_witness|]. split; [apply C17_witness|]. vm_compute. reflexivity.
Qed.
Example C53_witness : Forall (fun c => good_cp c /\ scalar c /\ readable16 c) (s2z "<a>" ++ [233; 8364; 66558; 1114108] ++ s2z "</a>") /\
  load_bytes (utf16le (s2z "<a>" ++ [233; 8364; 66558; 1114108] ++ s2z "</a>")) = Ret (Some (Elem (s2z "a") [] [Opaque (flat_map rfc_utf8 [233; 8364; 66558; 1114108])])).
Proof.
  split; [|vm_compute; reflexivity].
  apply Forall_forall. intros c I. assert (H : 32 <= c < 128 \/ c = 233 \/ c = 8364 \/ c = 66558 \/ c = 1114108) by (cbn in I; intuition lia).
  destruct H as [H|[->|[->|[-> | ->]]]]; unfold good_cp, scalar, readable16; cbn; lia.
Qed.
