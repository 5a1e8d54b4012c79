(** What the code does where the claims of C13 and C46 need a side condition. *)
From Verif Require Import CBase CBaseProofs TocModel SpecToc TocProofs2 ImageModel SpecImage PropToc2 PropImage.
From Verif Require Import BoxModel BoxProofs ControlModel FormatModel SpecFormat PropFormat.

(** * C13: every section, also one whose right or lower edge is beyond 2^32 *)
(** Both edges, modulo 2^32, lie inside the image. *)
Definition edges_inside (s : section) (im : image) : bool :=
  ((s_x s + s_width s) mod 2^32 <=? im_width im) && ((s_y s + s_height s) mod 2^32 <=? im_height im).
Lemma extract_loop_all crop rotate d im l : forall i e, def_sections d = firstn (Z.to_nat i) (def_sections d) ++ l -> 0 <= i <= Z.of_nat (List.length (def_sections d)) ->
  0 <= e -> e + Z.of_nat (List.length l) < 2^32 ->
  extract_loop crop rotate d im i (List.length l) e =
    (map (fun s => if edges_inside s im then rotate (crop im (s_x s) (s_y s) (s_width s) (s_height s)) (s_rotation s) else None) l,
     e + Z.of_nat (List.length (filter (fun s => edges_inside s im) l))).
Proof.
  induction l as [|s l IH]; intros i e D I P B.
  - cbn. f_equal. lia.
  - cbn [List.length extract_loop map]. assert (G : layout_def_get_section d i = Some s).
    { rewrite C43_section_by_index by lia. rewrite D. rewrite nth_error_app2 by (rewrite firstn_length; lia).
      rewrite firstn_length. replace (Z.to_nat i - _)%nat with 0%nat by lia. reflexivity. }
    assert (L : Z.of_nat (List.length (def_sections d)) = i + 1 + Z.of_nat (List.length l)).
    { rewrite D, app_length, firstn_length. cbn [List.length]. lia. }
    rewrite G. cbn [List.length] in B. unfold extract1. change (u32 (s_x s + s_width s)) with ((s_x s + s_width s) mod 2^32). change (u32 (s_y s + s_height s)) with ((s_y s + s_height s) mod 2^32).
    fold (edges_inside s im). cbn [filter]. destruct (edges_inside s im); (rewrite IH; [| |lia| |]).
    + cbn [List.length]. f_equal. rewrite u32_small by lia. lia.
    + rewrite D at 1. replace (Z.to_nat (i + 1)) with (S (Z.to_nat i)) by lia.
      assert (X : firstn (S (Z.to_nat i)) (def_sections d) = firstn (Z.to_nat i) (def_sections d) ++ [s]).
      { rewrite D at 1. rewrite firstn_app, firstn_firstn, firstn_length. replace (Nat.min (S (Z.to_nat i)) (Z.to_nat i)) with (Z.to_nat i) by lia.
        replace (S (Z.to_nat i) - _)%nat with 1%nat by lia. reflexivity. }
      rewrite X, <- app_assoc. reflexivity.
    + rewrite u32_small by lia. lia.
    + rewrite u32_small by lia. lia.
    + reflexivity.
    + rewrite D at 1. replace (Z.to_nat (i + 1)) with (S (Z.to_nat i)) by lia.
      assert (X : firstn (S (Z.to_nat i)) (def_sections d) = firstn (Z.to_nat i) (def_sections d) ++ [s]).
      { rewrite D at 1. rewrite firstn_app, firstn_firstn, firstn_length. replace (Nat.min (S (Z.to_nat i)) (Z.to_nat i)) with (Z.to_nat i) by lia.
        replace (S (Z.to_nat i) - _)%nat with 1%nat by lia. reflexivity. }
      rewrite X, <- app_assoc. reflexivity.
    + lia.
    + lia.
Qed.
(** The image of a section is the rotated crop exactly when its edges, modulo 2^32, lie inside the image; nothing otherwise. The crop is asked for a part
    that reaches outside the image exactly when an edge is beyond 2^32 and comes back inside. *)
Theorem C13_exact crop rotate d im : def_sections d <> [] -> Z.of_nat (List.length (def_sections d)) < 2^31 ->
  extract crop rotate (Some d) (Some im) =
    (Some (map (fun s => if edges_inside s im then rotate (crop im (s_x s) (s_y s) (s_width s) (s_height s)) (s_rotation s) else None) (def_sections d)),
     Z.of_nat (List.length (filter (fun s => edges_inside s im) (def_sections d)))) /\
  forall s, section_range s -> complete im -> (inside s im -> edges_inside s im = true) /\ (edges_inside s im = true -> ~ inside s im -> ~ edges_fit s).
Proof.
  intros N B. set (l := def_sections d) in *. split.
  - assert (S : layout_def_section_count d = Z.of_nat (List.length l)).
    { unfold layout_def_section_count, l, def_sections, vec_size, vec_list in *. destruct (ld_sections d) as [[l0|]|]; try reflexivity. apply u32_small. lia. }
    assert (P : 0 < Z.of_nat (List.length l)) by (destruct l; [congruence|cbn [List.length]; lia]).
    unfold extract. rewrite S, Nat2Z.id. rewrite (extract_loop_all crop rotate d im l 0 0); try lia; [|reflexivity].
    replace (0 <? Z.of_nat (List.length l)) with true by lia. f_equal. rewrite Z.add_0_l. apply i32_small.
    assert (List.length (filter (fun s => edges_inside s im) l) <= List.length l)%nat by (clear; induction l as [|a l IH]; cbn; [lia|destruct (edges_inside a im); cbn; lia]). unfold is_i32. lia.
  - intros s (X & Y & W & H) (Wi & He & _). unfold is_u32, inside, edges_inside, edges_fit in *. split.
    + intros (I1 & I2). rewrite !Z.mod_small by lia. lia.
    + intros E I (F1 & F2). rewrite !Z.mod_small in E by lia. apply I. lia.
Qed.
Print Assumptions C13_exact.
(** * C46: clones and sizes without side conditions *)
(** A clone differs from its original exactly when the configuration names a format but no frame can be built from it. *)
Theorem C46_clone_exact L c f : lawful L -> given L c f -> exists g b, format_clone L f = Ok g /\ format_equal L f g = Ok b /\
  (b = false <-> exists k n, c = Some k /\ lib_frame L k = None /\ lib_property L k (s2z "FormatInfo") (s2z "name") = Some n).
Proof.
  intros Lw G. 
  assert (H : (exists k n, c = Some k /\ lib_frame L k = None /\ lib_property L k (s2z "FormatInfo") (s2z "name") = Some n) \/
              (forall k, c = Some k -> lib_frame L k = None -> lib_property L k (s2z "FormatInfo") (s2z "name") = None)).
  { destruct c as [k|]; [|right; discriminate]. destruct (lib_frame L k) eqn:Fr; [right; congruence|]. destruct (lib_property L k (s2z "FormatInfo") (s2z "name")) as [n|] eqn:P; [left; exists k, n; auto|right].
    intros k' E _. now injection E as <-. }
  destruct H as [(k & n & -> & Fr & P)|H].
  - destruct (C46_clone_refuted L k n f Lw G Fr P) as (g & E1 & E2). exists g, false. split; [exact E1|]. split; [exact E2|]. split; [intros _; exists k, n; auto|reflexivity].
  - destruct (C46_clone_partial L c f Lw G H) as (g & E1 & E2 & _). exists g, true. split; [exact E1|]. split; [exact E2|]. split; [discriminate|].
    intros (k & n & E & Fr & P). rewrite (H k E Fr) in P. discriminate.
Qed.
Print Assumptions C46_clone_exact.
(** The bytes per frame are the whole bytes of capacity times bits modulo 2^32: right exactly while the product is below 2^32. *)
Theorem C46_sizes_exact L c f fr : lawful L -> given L (Some c) f -> lib_frame L c = Some fr -> 1 <= fr_levels fr < 2^31 -> 0 <= fr_capacity fr < 2^31 ->
  exists d, fo_derived f = Some d /\ d_bytes d = (fr_capacity fr * d_bits d) mod 2^32 / 8 /\
    (d_bytes d = fr_capacity fr * d_bits d / 8 <-> fr_capacity fr * d_bits d < 2^32).
Proof.
  intros Lw G Fr Lv Cp. destruct (given_fields _ _ _ Lw G) as (_ & d & D & I). exists d. split; [exact D|].
  cbn [init_derived] in I. rewrite Fr in I. destruct (bits_per_pixel_spec (fr_levels fr) Lv) as (b & Eb & B & B1 & B2 & B3 & _). rewrite Eb in I.
  injection I as <-. cbn [d_bits d_bytes]. unfold bytes_per_frame. rewrite (u32_small (fr_capacity fr)) by lia.
  change (u32 (fr_capacity fr * b)) with ((fr_capacity fr * b) mod 2^32). split; [reflexivity|]. set (x := fr_capacity fr * b). assert (X : 0 <= x) by (unfold x; nia). clearbody x.
  split; [|intro H; now rewrite Z.mod_small by lia]. intro E. destruct (Z.lt_ge_cases x (2^32)) as [|Ge]; [assumption|exfalso].
  pose proof (Z.mod_pos_bound x (2^32) ltac:(lia)). pose proof (Z.div_mod x (2^32) ltac:(lia)).
  assert (x mod 2^32 + 2^32 <= x) by (assert (1 <= x / 2^32) by (apply Z.div_le_lower_bound; lia); lia).
  assert (x mod 2^32 / 8 + 2^29 <= x / 8) by (rewrite <- (Z.div_add (x mod 2^32) (2^29) 8) by lia; apply Z.div_le_mono; lia). lia.
Qed.
Print Assumptions C46_sizes_exact.
