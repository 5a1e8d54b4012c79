(** C55, field by field: what a successful load of any document into an object in use does to each
    field. Some fields are always given the value of the document (or a default), the others are given
    it or left alone, and which of the two depends on the document only. *)
From Coq Require Import ZArith List Lia Bool String.
From Verif Require Import CBase TocModel XmlModel TocXmlModel ControlModel LoadModel SpecLoad LoadProofs PropLoad.
Import ListNotations.
Open Scope Z_scope.

(** After a successful load the field does not depend on the object before. *)
Definition determined {A B} (into : A -> node -> A * bool) (f : A -> B) : Prop :=
  forall a b t, snd (into a t) = true -> snd (into b t) = true -> f (fst (into a t)) = f (fst (into b t)).
(** The document decides if the field stays or is set, and to what. *)
Definition kept_or_set {A B} (into : A -> node -> A * bool) (f : A -> B) : Prop :=
  forall t, (forall a, snd (into a t) = true -> f (fst (into a t)) = f a) \/
            (exists v, forall a, snd (into a t) = true -> f (fst (into a t)) = v).
(** The data of a source: a marked section in the document replaces it, plain text is taken only when
    there was none. *)
Definition marked_or_first {A} (into : A -> node -> A * bool) (f : A -> option cstr) : Prop :=
  forall t, (exists v, forall a, snd (into a t) = true -> f (fst (into a t)) = Some v) \/
            (exists v, forall a, snd (into a t) = true -> f (fst (into a t)) = or_else (f a) v).

Lemma xy_ok x y x' y' s : into_xy x y s = (fst (fst (into_xy x' y' s)), snd (fst (into_xy x' y' s)), true) \/ snd (into_xy x y s) = false /\ snd (into_xy x' y' s) = false.
Proof.
  destruct s as [[|c s]|]; [now left| |now left]. unfold into_xy. destruct (scan_uint (c :: s)) as [(z & r)|]; [|now right].
  destruct r as [|d r]; [now right|]. destruct (Z.eq_dec d 120) as [->|N].
  - destruct (scan_uint r) as [(w & q)|]; [now left|now right].
  - right. destruct d; try (split; reflexivity). repeat (match goal with |- context [match ?p with xI _ => _ | xO _ => _ | xH => _ end] => destruct p end; try (split; reflexivity)); congruence.
Qed.
Lemma page_result a t : snd (into_page a t) = true -> exists u dx dy ox oy, at_or_below (s2z "pages") t = Some u /\
  fst (into_page a t) = mkPage (node_attr u (s2z "layoutId")) (keep_uattr (pg_start_frame a) (s2z "frame") u) (keep_uattr (pg_start_section a) (s2z "section") u)
     (keep_uattr (pg_section_count a) (s2z "count") u) dx dy ox oy /\
  into_xy 0 0 (node_attr u (s2z "dimension")) = (dx, dy, true) /\ into_xy 0 0 (node_attr u (s2z "overlap")) = (ox, oy, true).
Proof.
  unfold into_page. destruct (at_or_below _ t) as [u|]; [|discriminate].
  destruct (xy_ok 0 0 (pg_dimension_x a) (pg_dimension_y a) (node_attr u (s2z "dimension"))) as [E1|(_ & E1)];
    destruct (into_xy (pg_dimension_x a) (pg_dimension_y a) (node_attr u (s2z "dimension"))) as ((dx & dy) & b); cbn [fst snd] in *; [|subst b; discriminate].
  destruct b; [|discriminate].
  destruct (xy_ok 0 0 (pg_overlap_x a) (pg_overlap_y a) (node_attr u (s2z "overlap"))) as [E2|(_ & E2)];
    destruct (into_xy (pg_overlap_x a) (pg_overlap_y a) (node_attr u (s2z "overlap"))) as ((ox & oy) & b); cbn [fst snd] in *; [|subst b; discriminate].
  intros ->. exists u, dx, dy, ox, oy. auto.
Qed.
Lemma keep_kept d n t : keep_uattr d n t = d \/ exists v, forall e, keep_uattr e n t = v.
Proof. unfold keep_uattr. destruct (uint_attr t n) as [z|]; [right; now exists z|now left]. Qed.
Ltac page_det := intros a b t Ha Hb; apply page_result in Ha; apply page_result in Hb;
  destruct Ha as (u & dx & dy & ox & oy & E & -> & E1 & E2); destruct Hb as (u' & dx' & dy' & ox' & oy' & E' & -> & E1' & E2'); cbn; congruence.
Ltac page_keep := intros t; destruct (at_or_below (s2z "pages") t) as [u|] eqn:E;
  [|right; exists 0; intros a H; unfold into_page in H; rewrite E in H; discriminate];
  match goal with |- (forall a, _ -> ?f _ = _) \/ _ =>
    let k n := (destruct (uint_attr u n) as [z|] eqn:F;
      [right; exists z|left]; intros a H; apply page_result in H; destruct H as (u' & dx & dy & ox & oy & E' & -> & _);
      assert (u' = u) by congruence; subst u'; cbn [pg_start_frame pg_start_section pg_section_count]; unfold keep_uattr; now rewrite F) in
    first [k (s2z "frame") | k (s2z "section") | k (s2z "count")] end.

(** Pages of a preview *)
Theorem C55_page_fields :
  determined into_page pg_layout_id /\ determined into_page pg_dimension_x /\ determined into_page pg_dimension_y /\
  determined into_page pg_overlap_x /\ determined into_page pg_overlap_y /\
  kept_or_set into_page pg_start_frame /\ kept_or_set into_page pg_start_section /\ kept_or_set into_page pg_section_count.
Proof. repeat match goal with |- _ /\ _ => split end; try page_det; page_keep. Qed.
Print Assumptions C55_page_fields.

(** The resolution of a preview *)
Lemma into_dpi l : forall p, (forall x y, pv_dpi (fst (preview_add_page x y)) = pv_dpi x) -> pv_dpi (fst (load_into load_page preview_add_page p l)) = pv_dpi p.
Proof.
  induction l as [|x l IH]; intros p H; [reflexivity|]. cbn [load_into]. destruct (load_page x) as [g|]; [|reflexivity].
  specialize (H p g) as Hp. destruct (preview_add_page p g) as (p' & ok). cbn [fst] in Hp. destruct ok; [|exact Hp]. rewrite IH; auto.
Qed.
Theorem C55_preview_resolution : kept_or_set into_preview pv_dpi.
Proof.
  intro t. unfold into_preview. destruct (at_or_below _ t) as [u|]; [|left; reflexivity].
  assert (Q : forall x y, pv_dpi (fst (preview_add_page x y)) = pv_dpi x) by (intros x y; unfold preview_add_page; destruct (page_is_valid y); reflexivity).
  unfold get_int. destruct (int_elem u (s2z "dpi")) as [z|]; [right; exists z|left]; intros a _; rewrite into_dpi; auto.
Qed.
Print Assumptions C55_preview_resolution.

Lemma into_data_cases d x : into_data d x = match first_cdata (node_kids x) with Some s => Some s | None => or_else d (node_text x) end.
Proof. reflexivity. Qed.
(** Sources of file metadata *)
Lemma fsource_result a t : snd (into_fsource a t) = true -> exists u fid, at_or_below (s2z "source") t = Some u /\ int_attr u (s2z "fileId") = Some fid /\
  fst (into_fsource a t) = match find_elem (s2z "data") u with
     | Some d => mkFsource (into_data (fs_data a) d) (node_attr d (s2z "formatId")) fid (get_iattr (-1) (s2z "sourceId") u)
     | None => mkFsource (fs_data a) (fs_format_id a) fid (get_iattr (-1) (s2z "sourceId") u) end.
Proof.
  unfold into_fsource. destruct (at_or_below _ t) as [u|]; [|discriminate]. destruct (int_attr u (s2z "fileId")) as [fid|] eqn:F; [|discriminate].
  intros _. exists u, fid. auto.
Qed.
Theorem C55_file_source_fields :
  determined into_fsource fs_file_id /\ determined into_fsource fs_source_id /\ kept_or_set into_fsource fs_format_id /\ marked_or_first into_fsource fs_data.
Proof.
  repeat match goal with |- _ /\ _ => split end.
  - intros a b t Ha Hb. apply fsource_result in Ha. apply fsource_result in Hb. destruct Ha as (u & f & E & F & ->). destruct Hb as (u' & f' & E' & F' & ->).
    assert (u' = u) by congruence. subst u'. destruct (find_elem _ u); cbn; congruence.
  - intros a b t Ha Hb. apply fsource_result in Ha. apply fsource_result in Hb. destruct Ha as (u & f & E & F & ->). destruct Hb as (u' & f' & E' & F' & ->).
    assert (u' = u) by congruence. subst u'. destruct (find_elem _ u); reflexivity.
  - intro t. destruct (at_or_below (s2z "source") t) as [u|] eqn:E.
    + destruct (find_elem (s2z "data") u) as [d|] eqn:G; [right; exists (node_attr d (s2z "formatId"))|left]; intros a H; apply fsource_result in H; destruct H as (u' & f & E' & F & ->);
        assert (u' = u) by congruence; subst u'; now rewrite G.
    + left. intros a H. apply fsource_result in H. destruct H as (u' & f & E' & _). congruence.
  - intro t. destruct (at_or_below (s2z "source") t) as [u|] eqn:E.
    + destruct (find_elem (s2z "data") u) as [d|] eqn:G; [destruct (first_cdata (node_kids d)) as [c|] eqn:K; [left; exists c|right; exists (node_text d)]|right; exists None];
        intros a H; apply fsource_result in H; destruct H as (u' & f & E' & F & ->); assert (u' = u) by congruence; subst u'; rewrite G; cbn [fs_data];
        rewrite ?into_data_cases, ?K; try reflexivity. now destruct (fs_data a).
    + right. exists None. intros a H. apply fsource_result in H. destruct H as (u' & f & E' & _). congruence.
Qed.
Print Assumptions C55_file_source_fields.

(** Sources of the metadata of a table of contents *)
Lemma msource_result split a t : snd (into_msource split a t) = true -> exists u i fid, at_or_below (s2z "source") t = Some u /\ int_attr u (s2z "id") = Some i /\
  int_attr u (s2z "fileId") = Some fid /\
  let s0 := mkMsource (node_attr u (s2z "formatId")) i fid (match find_elem (s2z "data") u with Some x => into_data (ms_data a) x | None => ms_data a end) (ms_tags a) in
  fst (into_msource split a t) = match find_elem (s2z "tags") u with Some x => set_tags split s0 (node_text x) | None => s0 end.
Proof.
  unfold into_msource. destruct (at_or_below _ t) as [u|]; [|discriminate]. destruct (int_attr u (s2z "id")) as [i|] eqn:F; [|discriminate].
  destruct (int_attr u (s2z "fileId")) as [fid|] eqn:G; [|discriminate]. intros _. exists u, i, fid. auto.
Qed.
Lemma set_tags_other split s x : ms_format (set_tags split s x) = ms_format s /\ ms_id (set_tags split s x) = ms_id s /\ ms_file_id (set_tags split s x) = ms_file_id s /\
  ms_data (set_tags split s x) = ms_data s /\ ms_tags (set_tags split s x) = match x with None | Some [] => ms_tags s | Some y => Some (split y) end.
Proof. destruct x as [[|c x]|]; auto. Qed.
Ltac ms_open H := apply msource_result in H; let u := fresh "u" in let i := fresh "i" in let f := fresh "f" in let E := fresh "E" in let E1 := fresh in let E2 := fresh in let E3 := fresh in
  destruct H as (u & i & f & E & E1 & E2 & E3); cbv zeta in E3; rewrite E3; clear E3.
Ltac ms_fields := repeat match goal with |- context [match find_elem (s2z "tags") ?u with _ => _ end] => destruct (find_elem (s2z "tags") u) as [?|] end;
  repeat match goal with |- context [set_tags ?s ?a ?x] => destruct (set_tags_other s a x) as (? & ? & ? & ? & ?); generalize dependent (set_tags s a x); intros end;
  cbn [ms_format ms_id ms_file_id ms_data ms_tags] in *; congruence.
Theorem C55_toc_source_fields split :
  determined (into_msource split) ms_format /\ determined (into_msource split) ms_id /\ determined (into_msource split) ms_file_id /\
  kept_or_set (into_msource split) ms_tags /\ marked_or_first (into_msource split) ms_data.
Proof.
  repeat match goal with |- _ /\ _ => split end.
  1-3: intros a b t Ha Hb; ms_open Ha; ms_open Hb; assert (u0 = u) by congruence; subst u0; ms_fields.
  - intro t. destruct (at_or_below (s2z "source") t) as [u|] eqn:E; [|left; intros a H; ms_open H; congruence].
    destruct (find_elem (s2z "tags") u) as [x|] eqn:G; [|left; intros a H; ms_open H; assert (u0 = u) by congruence; subst u0; now rewrite G].
    destruct (node_text x) as [[|c y]|] eqn:N.
    1,3: left; intros a H; ms_open H; assert (u0 = u) by congruence; subst u0; now rewrite G, N.
    right. exists (Some (split (c :: y))). intros a H; ms_open H; assert (u0 = u) by congruence; subst u0; now rewrite G, N.
  - intro t. destruct (at_or_below (s2z "source") t) as [u|] eqn:E; [|right; exists None; intros a H; ms_open H; congruence].
    destruct (find_elem (s2z "data") u) as [d|] eqn:G; [destruct (first_cdata (node_kids d)) as [c|] eqn:K; [left; exists c|right; exists (node_text d)]|right; exists None];
      intros a H; ms_open H; assert (u0 = u) by congruence; subst u0;
      match goal with |- ms_data (match ?x with Some _ => _ | None => _ end) = _ => destruct x; rewrite ?(proj1 (proj2 (proj2 (proj2 (set_tags_other _ _ _))))); cbn [ms_data] end;
      rewrite G, ?into_data_cases, ?K; try reflexivity; now destruct (ms_data a).
Qed.
Print Assumptions C55_toc_source_fields.

(** A file of the table of contents *)
Lemma preview_part f t : snd (into_file_preview f t) = true ->
  fst (into_file_preview f t) = match find_elem (s2z "preview") t with
    | None => f | Some x => with_preview (set_types f (Z.lor (f_types f) TYPE_PREVIEW)) (load_preview x) end /\
  (forall x, find_elem (s2z "preview") t = Some x -> load_preview x <> None).
Proof.
  unfold into_file_preview. destruct (find_elem _ t) as [x|]; [|split; [reflexivity|discriminate]]. destruct (load_preview x) as [p|] eqn:E; [|discriminate].
  split; [reflexivity|]. intros y Hy. congruence.
Qed.
Lemma metadata_part f t : snd (into_file_metadata f t) = true ->
  fst (into_file_metadata f t) = match find_elem (s2z "metadata") t with None => f | Some x => with_metadata f (load_fmetadata x) end.
Proof. unfold into_file_metadata. destruct (find_elem _ t) as [x|]; [|reflexivity]. now destruct (load_fmetadata x). Qed.
Lemma file_result f t : snd (into_file f t) = true -> exists u, at_or_below (s2z "file") t = Some u /\
  let h := into_head f u in
  let h1 := match find_elem (s2z "preview") u with None => h | Some x => with_preview (set_types h (Z.lor (f_types h) TYPE_PREVIEW)) (load_preview x) end in
  let h2 := match find_elem (s2z "metadata") u with None => h1 | Some x => with_metadata h1 (load_fmetadata x) end in
  fst (into_file f t) = into_file_data h2 u.
Proof.
  unfold into_file. destruct (at_or_below _ t) as [u|]; [|discriminate]. intro H. exists u. split; [reflexivity|].
  pose proof (preview_part (into_head f u) u) as P. destruct (into_file_preview (into_head f u) u) as (f1 & ok1). destruct ok1; [|discriminate].
  destruct (P eq_refl) as (P1 & _). cbn [fst negb] in *. pose proof (metadata_part f1 u) as M. destruct (into_file_metadata f1 u) as (f2 & ok2). destruct ok2; [|discriminate].
  specialize (M eq_refl). cbn [fst negb] in *. cbv zeta. rewrite M, P1. reflexivity.
Qed.
(** every field but the types *)
Lemma data_part_fields h u : let d := match find_below (s2z "file") (s2z "data") u with Some d => into_data_part false h d | None => into_data_part true h u end in
  let r := into_file_data h u in
  f_name r = f_name h /\ f_date r = f_date h /\ f_id r = f_id h /\ f_unique_id r = f_unique_id h /\ f_parent_id r = f_parent_id h /\ f_preview r = f_preview h /\
  f_file_format r = f_file_format h /\ f_metadata r = f_metadata h /\ f_checksum r = fd_checksum d /\ f_size r = fd_size d /\
  f_start_frame r = fd_sf d /\ f_start_byte r = fd_sb d /\ f_end_frame r = fd_ef d /\ f_end_byte r = fd_eb d.
Proof.
  cbv zeta. unfold into_file_data. destruct (find_below _ _ u) as [d|]; [repeat split; reflexivity|].
  cbv zeta. destruct (present u (s2z "size") || present u (s2z "start") || present u (s2z "end")); destruct (file_is_valid _); repeat split; reflexivity.
Qed.
(** what the parts before the data do to the other fields *)
Lemma parts_fields (h : toc_file) (p : option (option preview)) (m : option (option fmetadata)) :
  let h1 := match p with None => h | Some x => with_preview (set_types h (Z.lor (f_types h) TYPE_PREVIEW)) x end in
  let h2 := match m with None => h1 | Some x => with_metadata h1 x end in
  f_name h2 = f_name h /\ f_date h2 = f_date h /\ f_id h2 = f_id h /\ f_unique_id h2 = f_unique_id h /\ f_parent_id h2 = f_parent_id h /\
  f_file_format h2 = f_file_format h /\ f_size h2 = f_size h /\
  f_start_frame h2 = f_start_frame h /\ f_start_byte h2 = f_start_byte h /\ f_end_frame h2 = f_end_frame h /\ f_end_byte h2 = f_end_byte h /\
  f_preview h2 = match p with None => f_preview h | Some x => x end /\ f_metadata h2 = match m with None => f_metadata h | Some x => x end.
Proof. cbv zeta. destruct p, m; repeat split; reflexivity. Qed.
Lemma file_fields f t : snd (into_file f t) = true -> exists u, at_or_below (s2z "file") t = Some u /\
  let h := into_head f u in let r := fst (into_file f t) in
  let d := match find_below (s2z "file") (s2z "data") u with Some d => into_data_part false f d | None => into_data_part true f u end in
  f_name r = f_name h /\ f_date r = f_date h /\ f_id r = f_id h /\ f_unique_id r = f_unique_id h /\ f_parent_id r = f_parent_id h /\
  f_file_format r = f_file_format h /\ f_checksum r = fd_checksum d /\ f_size r = fd_size d /\
  f_start_frame r = fd_sf d /\ f_start_byte r = fd_sb d /\ f_end_frame r = fd_ef d /\ f_end_byte r = fd_eb d /\
  f_preview r = match find_elem (s2z "preview") u with None => f_preview f | Some x => load_preview x end /\
  f_metadata r = match find_elem (s2z "metadata") u with None => f_metadata f | Some x => load_fmetadata x end.
Proof.
  intro H. apply file_result in H. destruct H as (u & E & R). exists u. split; [exact E|]. cbv zeta in R |- *. rewrite R. clear R.
  pose proof (parts_fields (into_head f u) (option_map load_preview (find_elem (s2z "preview") u)) (option_map load_fmetadata (find_elem (s2z "metadata") u))) as P.
  cbv zeta in P.
  replace (match find_elem (s2z "metadata") u with
   | Some x => with_metadata match find_elem (s2z "preview") u with Some x0 => with_preview (set_types (into_head f u) (Z.lor (f_types (into_head f u)) TYPE_PREVIEW)) (load_preview x0) | None => into_head f u end (load_fmetadata x)
   | None => match find_elem (s2z "preview") u with Some x => with_preview (set_types (into_head f u) (Z.lor (f_types (into_head f u)) TYPE_PREVIEW)) (load_preview x) | None => into_head f u end end)
   with (match option_map load_fmetadata (find_elem (s2z "metadata") u) with
      | Some x => with_metadata match option_map load_preview (find_elem (s2z "preview") u) with Some x0 => with_preview (set_types (into_head f u) (Z.lor (f_types (into_head f u)) TYPE_PREVIEW)) x0 | None => into_head f u end x
      | None => match option_map load_preview (find_elem (s2z "preview") u) with Some x => with_preview (set_types (into_head f u) (Z.lor (f_types (into_head f u)) TYPE_PREVIEW)) x | None => into_head f u end end)
   by (destruct (find_elem (s2z "metadata") u), (find_elem (s2z "preview") u); reflexivity).
  match type of P with f_name ?x = _ /\ _ => generalize dependent x; intros h2 P end.
  pose proof (data_part_fields h2 u) as D. cbv zeta in D. generalize dependent (into_file_data h2 u). intros r D.
  destruct P as (P1 & P2 & P3 & P4 & P5 & P6 & P7 & P8 & P9 & P10 & P11 & P12 & P13).
  destruct D as (D1 & D2 & D3 & D4 & D5 & D6 & D7 & D8 & D9 & D10 & D11 & D12 & D13 & D14).
  assert (Q : forall v x, into_data_part v h2 x = into_data_part v f x).
  { intros v x. unfold into_data_part. rewrite P7, P8, P9, P10, P11. reflexivity. }
  destruct (find_below (s2z "file") (s2z "data") u) as [d|]; rewrite Q in *;
   (split; [congruence|]; split; [congruence|]; split; [congruence|]; split; [congruence|]; split; [congruence|]; split; [congruence|]; split; [exact D9|]; split; [exact D10|];
    split; [exact D11|]; split; [exact D12|]; split; [exact D13|]; split; [exact D14|]; split; [rewrite D6, P12; destruct (find_elem (s2z "preview") u); reflexivity|rewrite D8, P13; destruct (find_elem (s2z "metadata") u); reflexivity]).
Qed.
(** Fields that a field of the result is a function [g] of the old field and the file element. *)
Lemma file_kept {B} (f : toc_file -> B) (g : node -> B -> B) :
  (forall a t, snd (into_file a t) = true -> exists u, at_or_below (s2z "file") t = Some u /\ f (fst (into_file a t)) = g u (f a)) ->
  (forall u, (forall x, g u x = x) \/ (exists v, forall x, g u x = v)) -> kept_or_set into_file f.
Proof.
  intros R G t. destruct (at_or_below (s2z "file") t) as [u|] eqn:E.
  - destruct (G u) as [K|(v & K)]; [left|right; exists v]; intros a H; apply R in H; destruct H as (u' & E' & ->); assert (u' = u) by congruence; subst u'; apply K.
  - left. intros a H. apply R in H. destruct H as (u & E' & _). congruence.
Qed.
Lemma part_kept v n k u : (forall x, keep_part v x n k u = x) \/ (exists z, forall x, keep_part v x n k u = z).
Proof.
  unfold keep_part. destruct (find_elem n u) as [y|]; [|now left]. destruct v; [unfold get_int; destruct (int_elem y k) as [z|]|unfold get_iattr; destruct (int_attr y k) as [z|]];
    ((right; exists z; reflexivity) || now left).
Qed.
Lemma below_part v n k : forall u, (forall x, (match find_below (s2z "file") (s2z "data") u with Some d => keep_part false x n k d | None => keep_part v x n k u end) = x) \/
  (exists z, forall x, (match find_below (s2z "file") (s2z "data") u with Some d => keep_part false x n k d | None => keep_part v x n k u end) = z).
Proof. intro u. destruct (find_below _ _ u); apply part_kept. Qed.
Lemma text_kept n u : (forall x, keep_text u n x = x) \/ (exists v, forall x, keep_text u n x = v).
Proof. unfold keep_text. destruct (find_elem n u) as [y|]; [right; exists (node_text y); reflexivity|now left]. Qed.
Ltac field_of k := intros a t H; apply file_fields in H; destruct H as (u & E & H); exists u; split; [exact E|]; cbv zeta in H;
  destruct H as (H1 & H2 & H3 & H4 & H5 & H6 & H7 & H8 & H9 & H10 & H11 & H12 & H13 & H14);
  first [rewrite H1; reflexivity|rewrite H2; reflexivity|rewrite H3; reflexivity|rewrite H4; reflexivity|rewrite H13; reflexivity|rewrite H14; reflexivity
        |(first [rewrite H8|rewrite H9|rewrite H10|rewrite H11|rewrite H12]); destruct (find_below (s2z "file") (s2z "data") u); reflexivity].
Ltac file_det := let H := fresh in let H' := fresh in intros a b t H H'; apply file_fields in H; apply file_fields in H'; destruct H as (u & E & H); destruct H' as (u' & E' & H');
  assert (u' = u) by congruence; subst u'; cbv zeta in H, H';
  destruct H as (H1 & H2 & H3 & H4 & H5 & H6 & H7 & H8 & _); destruct H' as (K1 & K2 & K3 & K4 & K5 & K6 & K7 & K8 & _);
  first [rewrite H5, K5; reflexivity|rewrite H6, K6; reflexivity|rewrite H7, K7; destruct (find_below (s2z "file") (s2z "data") u); reflexivity].
Theorem C55_file_fields :
  determined into_file f_parent_id /\ determined into_file f_file_format /\ determined into_file f_checksum /\
  kept_or_set into_file f_name /\ kept_or_set into_file f_date /\ kept_or_set into_file f_id /\ kept_or_set into_file f_unique_id /\
  kept_or_set into_file f_size /\ kept_or_set into_file f_start_frame /\ kept_or_set into_file f_start_byte /\ kept_or_set into_file f_end_frame /\ kept_or_set into_file f_end_byte /\
  kept_or_set into_file f_preview /\ kept_or_set into_file f_metadata.
Proof.
  repeat match goal with |- _ /\ _ => split end; [file_det|file_det|file_det|..].
  - apply (file_kept f_name (fun u x => keep_text u (s2z "name") x)); [field_of 0|intro u; apply text_kept].
  - apply (file_kept f_date (fun u x => keep_text u (s2z "date") x)); [field_of 0|intro u; apply text_kept].
  - apply (file_kept f_id (fun u x => get_int x (s2z "id") u)); [field_of 0|intro u]. unfold get_int. destruct (int_elem u (s2z "id")) as [z|]; [right; exists z; reflexivity|now left].
  - apply (file_kept f_unique_id (fun u x => keep_text u (s2z "uniqueId") x)); [field_of 0|intro u; apply text_kept].
  - apply (file_kept f_size (fun u x => match find_below (s2z "file") (s2z "data") u with Some d => keep_size x d | None => keep_size x u end)); [field_of 0|intro u].
    unfold keep_size. destruct (find_below _ _ u) as [d|]; [destruct (find_elem (s2z "size") d) as [y|]|destruct (find_elem (s2z "size") u) as [y|]];
      ((right; exists (atoll (text_safe (Some y) (s2z "0"))); reflexivity) || now left).
  - apply (file_kept f_start_frame (fun u x => match find_below (s2z "file") (s2z "data") u with Some d => keep_part false x (s2z "start") (s2z "frame") d | None => keep_part true x (s2z "start") (s2z "frame") u end)); [field_of 0|apply below_part].
  - apply (file_kept f_start_byte (fun u x => match find_below (s2z "file") (s2z "data") u with Some d => keep_part false x (s2z "start") (s2z "byte") d | None => keep_part true x (s2z "start") (s2z "byte") u end)); [field_of 0|apply below_part].
  - apply (file_kept f_end_frame (fun u x => match find_below (s2z "file") (s2z "data") u with Some d => keep_part false x (s2z "end") (s2z "frame") d | None => keep_part true x (s2z "end") (s2z "frame") u end)); [field_of 0|apply below_part].
  - apply (file_kept f_end_byte (fun u x => match find_below (s2z "file") (s2z "data") u with Some d => keep_part false x (s2z "end") (s2z "byte") d | None => keep_part true x (s2z "end") (s2z "byte") u end)); [field_of 0|apply below_part].
  - apply (file_kept f_preview (fun u x => match find_elem (s2z "preview") u with None => x | Some y => load_preview y end)); [field_of 0|intro u].
    destruct (find_elem (s2z "preview") u) as [y|]; [right; exists (load_preview y); reflexivity|now left].
  - apply (file_kept f_metadata (fun u x => match find_elem (s2z "metadata") u with None => x | Some y => load_fmetadata y end)); [field_of 0|intro u].
    destruct (find_elem (s2z "metadata") u) as [y|]; [right; exists (load_fmetadata y); reflexivity|now left].
Qed.
Print Assumptions C55_file_fields.
(** The types of a file: bits are only added, unless the file comes out invalid: then there are none. *)
Theorem C55_file_types a t : snd (into_file a t) = true ->
  let r := fst (into_file a t) in
  (exists bits, In bits [0; TYPE_DIGITAL; TYPE_PREVIEW; Z.lor TYPE_PREVIEW TYPE_DIGITAL] /\ f_types r = Z.lor (f_types a) bits) \/
  f_types r = TYPE_UNDEFINED /\ exists u, at_or_below (s2z "file") t = Some u /\ find_below (s2z "file") (s2z "data") u = None.
Proof.
  intro H. apply file_result in H. destruct H as (u & E & R). cbv zeta in R |- *. rewrite R. clear R.
  set (h1 := match find_elem (s2z "preview") u with None => into_head a u | Some x => _ end).
  assert (T1 : f_types h1 = f_types a \/ f_types h1 = Z.lor (f_types a) TYPE_PREVIEW).
  { subst h1. destruct (find_elem (s2z "preview") u); [right|left]; reflexivity. }
  set (h2 := match find_elem (s2z "metadata") u with None => h1 | Some x => _ end).
  assert (T2 : f_types h2 = f_types h1) by (subst h2; destruct (find_elem (s2z "metadata") u); reflexivity).
  clearbody h2. rewrite <- T2 in T1. clear T2. clearbody h1. clear h1.
  assert (L0 : f_types a = Z.lor (f_types a) 0) by (now rewrite Z.lor_0_r).
  unfold into_file_data. destruct (find_below (s2z "file") (s2z "data") u) as [d|] eqn:B.
  - left. cbn [set_types f_types with_data]. destruct T1 as [-> | ->]; [exists TYPE_DIGITAL|exists (Z.lor TYPE_PREVIEW TYPE_DIGITAL)]; cbn [In]; (split; [tauto|]); [reflexivity|now rewrite Z.lor_assoc].
  - cbv zeta. destruct (present u (s2z "size") || present u (s2z "start") || present u (s2z "end")); destruct (file_is_valid _);
      try (right; split; [reflexivity|exists u; auto]); left; cbn [set_types f_types with_data].
    + destruct T1 as [-> | ->]; [exists TYPE_DIGITAL|exists (Z.lor TYPE_PREVIEW TYPE_DIGITAL)]; cbn [In]; (split; [tauto|]); [reflexivity|now rewrite Z.lor_assoc].
    + destruct T1 as [-> | ->]; [exists 0|exists TYPE_PREVIEW]; cbn [In]; (split; [tauto|]); [exact L0|reflexivity].
Qed.
Print Assumptions C55_file_types.

(** A reel *)
Theorem C55_reel_fields : determined into_reel r_id /\ kept_or_set into_reel r_files.
Proof.
  split.
  - intros a b t. unfold into_reel. destruct (at_or_below _ t) as [u|]; [|discriminate]. destruct (find_elem (s2z "id") u) as [i|]; [|discriminate].
    destruct (find_elem (s2z "files") u) as [x|]; [destruct (into_files None x) as (v & ok)|]; reflexivity.
  - intro t. unfold into_reel. destruct (at_or_below _ t) as [u|]; [|left; reflexivity]. destruct (find_elem (s2z "id") u) as [i|]; [|left; reflexivity].
    destruct (find_elem (s2z "files") u) as [x|]; [|left; reflexivity]. destruct (into_files None x) as (v & ok). right. exists (Some v). reflexivity.
Qed.
Print Assumptions C55_reel_fields.

(** The table of contents *)
Ltac toc_parts u split :=
  destruct (opt_load (load_metadata split) (find_below (s2z "Index") (s2z "metadata") u)) as [md|]; [|try discriminate];
  [destruct (opt_load load_layout_defs (find_elem (s2z "layoutDefinitions") u)) as [ld|]; [|try discriminate];
  [destruct (opt_load load_reels (find_elem (s2z "reels") u)) as [rl|]; [|try discriminate]|..]|..].
Theorem C55_toc_fields split :
  determined (into_toc split) t_version /\ determined (into_toc split) t_reels /\ determined (into_toc split) t_metadata /\ determined (into_toc split) t_layouts /\
  kept_or_set (into_toc split) t_index_type /\ kept_or_set (into_toc split) t_job_id /\ kept_or_set (into_toc split) t_reel_id.
Proof.
  repeat match goal with |- _ /\ _ => split end.
  1-4: intros a b t; unfold into_toc; destruct (at_or_below _ t) as [u|]; [|discriminate]; cbv zeta; toc_parts u split; reflexivity.
  all: intro t; unfold into_toc; destruct (at_or_below _ t) as [u|]; [|left; reflexivity]; cbv zeta;
    match goal with |- (forall a, _ -> ?f _ = _) \/ _ =>
      let k n := (destruct (text_kept n u) as [K|(v & K)]; [left; intros a; toc_parts u split; intros _; cbn [fst f]; apply K|right; exists v; intros a; toc_parts u split; intros _; cbn [fst f]; apply K]) in
      first [k (s2z "indexType")|k (s2z "jobId")|k (s2z "reelId")] end.
Qed.
Print Assumptions C55_toc_fields.

(** The technical metadata *)
Theorem C55_technical_fields : determined into_tech te_format /\ kept_or_set into_tech te_tocs /\ kept_or_set into_tech te_applications.
Proof.
  repeat match goal with |- _ /\ _ => split end.
  - intros a b t. unfold into_tech. destruct (find_elem _ t) as [u|]; [|discriminate]. destruct (find_elem (s2z "BoxerFormat") u) as [i|]; [|discriminate]. cbv zeta.
    destruct (opt_load load_files (find_elem (s2z "Tocs") u)) as [v|]; [|discriminate]. destruct (find_elem (s2z "Applications") u); reflexivity.
  - intro t. unfold into_tech. destruct (find_elem _ t) as [u|]; [|left; reflexivity]. destruct (find_elem (s2z "BoxerFormat") u) as [i|]; [|left; reflexivity]. cbv zeta.
    destruct (opt_load load_files (find_elem (s2z "Tocs") u)) as [ [v| ] | ]; [right; exists (Some v)|left|left; discriminate];
      destruct (find_elem (s2z "Applications") u); reflexivity.
  - intro t. unfold into_tech. destruct (find_elem _ t) as [u|]; [|left; reflexivity]. destruct (find_elem (s2z "BoxerFormat") u) as [i|]; [|left; reflexivity]. cbv zeta.
    destruct (opt_load load_files (find_elem (s2z "Tocs") u)) as [v|]; [|left; discriminate].
    destruct (find_elem (s2z "Applications") u) as [x|]; [right; exists (load_files x)|left]; reflexivity.
Qed.
Print Assumptions C55_technical_fields.

(** One document, three old objects: the ids are those of the document and the default, the format
    stays, and the text goes only where there was none. *)
Example C55_fields_witness :
  let t := doc "<source fileId=""3""/>" in let u := doc "<source fileId=""3""><data formatId=""x"">new</data></source>" in
  into_fsource (mkFsource (Some (s2z "old")) (Some (s2z "f")) 1 2) t = (mkFsource (Some (s2z "old")) (Some (s2z "f")) 3 (-1), true) /\
  into_fsource (mkFsource (Some (s2z "old")) (Some (s2z "f")) 1 2) u = (mkFsource (Some (s2z "old")) (Some (s2z "x")) 3 (-1), true) /\
  into_fsource (mkFsource None None 1 2) u = (mkFsource (Some (s2z "new")) (Some (s2z "x")) 3 (-1), true) /\
  into_reel (mkReel (Some (s2z "r")) (Some None)) (doc "<reel><id>7</id></reel>") = (mkReel (Some (s2z "7")) (Some None), true).
Proof. vm_compute. repeat split; reflexivity. Qed.
