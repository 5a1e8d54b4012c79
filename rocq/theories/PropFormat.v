(** C46: boxing formats - equality, clones and derived quantities. *)
From Verif Require Import CBase CBaseProofs BoxModel BoxProofs ControlModel FormatModel SpecFormat.

Lemma field_equal_iff a b : field_equal a b = true <-> a = b.
Proof. destruct a, b; cbn; try (split; congruence). rewrite str_eqb_eq. split; congruence. Qed.
Definition derived_eqb (x y : derived) : bool :=
  field_equal (d_name x) (d_name y) && (d_bytes x =? d_bytes y) && (d_data_bytes x =? d_data_bytes y) &&
  (d_stripe x =? d_stripe y) && (d_scaling x =? d_scaling y) && (d_width x =? d_width y) && (d_height x =? d_height y) &&
  (d_data_width x =? d_data_width y) && (d_data_height x =? d_data_height y) && (d_bits x =? d_bits y) && (d_symbols x =? d_symbols y).
Lemma derived_eqb_iff x y : derived_eqb x y = true <-> x = y.
Proof.
  unfold derived_eqb. rewrite !andb_true_iff, !Z.eqb_eq, field_equal_iff. destruct x, y; cbn. split; [intuition congruence|].
  intro E. injection E as -> -> -> -> -> -> -> -> -> -> ->. tauto.
Qed.
Lemma format_equal_iff L a b x y : fo_derived a = Some x -> fo_derived b = Some y ->
  format_equal L a b = Ok (lib_equal L (fo_config a) (fo_config b) && derived_eqb x y).
Proof. intros A B. unfold format_equal. rewrite A, B. destruct (lib_equal L (fo_config a) (fo_config b)); reflexivity. Qed.
Lemma init_same L a b : lawful L -> lib_equal L a b = true -> init_derived L a = init_derived L b /\ get_name L a = get_name L b.
Proof.
  intros (R & Sy & T & N & C & Q) E. destruct a as [a|], b as [b|]; auto.
  - destruct (Q a b E) as (Qf & Qs & Qp & Qk). split; [|cbn; apply Qp].
    unfold init_derived. rewrite Qf. destruct (lib_frame L b) as [fr|]; [|reflexivity]. destruct (bits_per_pixel 31 (fr_levels fr)); [|reflexivity].
    rewrite Qs, Qk. cbn [get_name]. rewrite (proj1 (Qp _ _)). unfold get_scaling.
    destruct (Qp (s2z "FrameRaster") (s2z "scalingFactor")) as (_ & -> & -> & _). destruct (Qp (s2z "BaseBuilder") (s2z "scalingFactor")) as (_ & -> & _ & ->). reflexivity.
  - rewrite Sy, N in E. discriminate.
  - rewrite N in E. discriminate.
Qed.
Lemma clone_same L c : lawful L -> lib_equal L (option_map (lib_clone L) c) c = true.
Proof. intros (R & Sy & T & N & C & Q). destruct c; cbn; [apply C|apply R]. Qed.
(** A format that was given a configuration holds an equal one, and its fields are those of it. *)
Lemma given_fields L c f : lawful L -> given L c f -> lib_equal L (fo_config f) c = true /\ exists d, fo_derived f = Some d /\ init_derived L c = Some d.
Proof.
  intros Lw G.
  assert (K : forall f, format_create2 L c = Some f -> lib_equal L (fo_config f) c = true /\ exists d, fo_derived f = Some d /\ init_derived L c = Some d).
  { intros f0 E. unfold format_create2, format_of in E. pose proof (clone_same L c Lw) as Ec. destruct (init_same L _ _ Lw Ec) as (Ei & _).
    rewrite Ei in E. destruct (init_derived L c) as [d|]; [|discriminate]. injection E as <-. cbn. split; [exact Ec|eauto]. }
  destruct G as [(-> & E)|[E|(g & E)]].
  - injection E as <-. cbn. split; [apply Lw|eauto].
  - now apply K.
  - now apply K.
Qed.
Lemma held_written L f : lawful L -> held L f -> exists d, fo_derived f = Some d.
Proof.
  intros Lw H. induction H as [c f G|f g H (d & IH) E].
  - destruct (given_fields L c f Lw G) as (_ & d & E & _). eauto.
  - unfold format_clone in E. rewrite IH in E. injection E as <-. cbn. eauto.
Qed.
(** Two formats that were given configurations are equal exactly when the configurations are. *)
Theorem C46_equal_iff L c1 c2 f1 f2 : lawful L -> given L c1 f1 -> given L c2 f2 ->
  format_equal L f1 f2 = Ok (lib_equal L c1 c2).
Proof.
  intros Lw G1 G2. destruct (given_fields _ _ _ Lw G1) as (E1 & d1 & D1 & I1). destruct (given_fields _ _ _ Lw G2) as (E2 & d2 & D2 & I2).
  rewrite (format_equal_iff L f1 f2 d1 d2 D1 D2). f_equal. pose proof Lw as (R & Sy & T & _).
  destruct (lib_equal L c1 c2) eqn:E.
  - assert (d1 = d2) as -> by (destruct (init_same L c1 c2 Lw E) as (Ei & _); congruence).
    replace (derived_eqb d2 d2) with true by (symmetry; now apply derived_eqb_iff). rewrite andb_true_r.
    apply (T _ c1); [exact E1|]. apply (T _ c2); [exact E|]. now rewrite Sy.
  - destruct (lib_equal L (fo_config f1) (fo_config f2)) eqn:E'; [|reflexivity]. rewrite <- E. symmetry. exfalso.
    assert (lib_equal L c1 c2 = true); [|congruence]. apply (T _ (fo_config f1)); [now rewrite Sy|]. now apply (T _ (fo_config f2)).
Qed.
Print Assumptions C46_equal_iff.
(** On all formats a client can hold, comparing is safe and an equivalence. *)
Theorem C46_equivalence L : lawful L ->
  (forall a b, held L a -> held L b -> exists r, format_equal L a b = Ok r) /\
  (forall a, held L a -> format_equal L a a = Ok true) /\
  (forall a b, held L a -> held L b -> format_equal L a b = format_equal L b a) /\
  (forall a b c, held L a -> held L b -> held L c -> format_equal L a b = Ok true -> format_equal L b c = Ok true -> format_equal L a c = Ok true).
Proof.
  intro Lw. pose proof Lw as (R & Sy & T & _).
  assert (W : forall a, held L a -> exists d, fo_derived a = Some d) by (intros; eapply held_written; eauto).
  split; [|split; [|split]].
  - intros a b A B. destruct (W a A) as (x & X), (W b B) as (y & Y). rewrite (format_equal_iff L a b x y X Y). eauto.
  - intros a A. destruct (W a A) as (x & X). rewrite (format_equal_iff L a a x x X X), R. cbn. f_equal. now apply derived_eqb_iff.
  - intros a b A B. destruct (W a A) as (x & X), (W b B) as (y & Y). rewrite (format_equal_iff L a b x y X Y), (format_equal_iff L b a y x Y X), Sy. do 2 f_equal.
    apply Bool.eq_iff_eq_true. rewrite !derived_eqb_iff. split; congruence.
  - intros a b c A B C. destruct (W a A) as (x & X), (W b B) as (y & Y), (W c C) as (z & Z).
    rewrite (format_equal_iff L a b x y X Y), (format_equal_iff L b c y z Y Z), (format_equal_iff L a c x z X Z).
    intros E1 E2. injection E1 as E1. injection E2 as E2. apply andb_true_iff in E1, E2. destruct E1 as (E1 & F1), E2 as (E2 & F2).
    rewrite derived_eqb_iff in F1, F2. subst. rewrite (T _ _ _ E1 E2). cbn. f_equal. now apply derived_eqb_iff.
Qed.
Print Assumptions C46_equivalence.
(** A clone is equal to its original when a frame can be built from the configuration, or the
    configuration names no format. *)
Theorem C46_clone_partial L c f : lawful L -> given L c f ->
  (forall k, c = Some k -> lib_frame L k = None -> lib_property L k (s2z "FormatInfo") (s2z "name") = None) ->
  exists g, format_clone L f = Ok g /\ format_equal L f g = Ok true /\ fo_derived g = fo_derived f.
Proof.
  intros Lw G H. destruct (given_fields _ _ _ Lw G) as (E & d & D & I).
  assert (Nm : get_name L (option_map (lib_clone L) (fo_config f)) = d_name d).
  { pose proof (clone_same L (fo_config f) Lw) as Ec. destruct (init_same L _ _ Lw Ec) as (_ & ->). destruct (init_same L _ _ Lw E) as (_ & ->).
    destruct c as [k|]; [|injection I as <-; reflexivity]. cbn [init_derived] in I. destruct (lib_frame L k) as [fr|] eqn:Fr.
    - destruct (bits_per_pixel 31 (fr_levels fr)); [|discriminate]. injection I as <-. reflexivity.
    - injection I as <-. cbn. now apply H. }
  unfold format_clone. rewrite D. eexists. split; [reflexivity|]. rewrite Nm.
  assert (Eq : forall x, mkDerived (d_name x) (d_bytes x) (d_data_bytes x) (d_stripe x) (d_scaling x) (d_width x) (d_height x) (d_data_width x) (d_data_height x) (d_bits x) (d_symbols x) = x) by (intros []; reflexivity).
  rewrite Eq. split; [|reflexivity].
  erewrite format_equal_iff; [|exact D|reflexivity]. cbn [fo_config]. pose proof Lw as (R & Sy & _). rewrite Sy, clone_same by exact Lw.
  cbn. f_equal. now apply derived_eqb_iff.
Qed.
Print Assumptions C46_clone_partial.
(** Otherwise the clone has a name where the original has none, and differs. *)
Theorem C46_clone_refuted L k n f : lawful L -> given L (Some k) f -> lib_frame L k = None ->
  lib_property L k (s2z "FormatInfo") (s2z "name") = Some n ->
  exists g, format_clone L f = Ok g /\ format_equal L f g = Ok false.
Proof.
  intros Lw G Fr P. destruct (given_fields _ _ _ Lw G) as (E & d & D & I). cbn [init_derived] in I. rewrite Fr in I. injection I as <-.
  unfold format_clone. rewrite D. eexists. split; [reflexivity|]. erewrite format_equal_iff; [|exact D|reflexivity]. cbn [fo_config].
  pose proof (clone_same L (fo_config f) Lw) as Ec. destruct (init_same L _ _ Lw Ec) as (_ & ->). destruct (init_same L _ _ Lw E) as (_ & ->).
  cbn [get_name]. rewrite P. destruct Lw as (_ & Sy & _). rewrite Sy, Ec. reflexivity.
Qed.
Print Assumptions C46_clone_refuted.
(** A format initialised by afs_boxing_format_init has fields that were never written. *)
Theorem C46_init_refuted L : lawful L -> format_clone L format_init = UB /\ format_equal L format_init format_init = UB.
Proof. intros (R & _). split; [reflexivity|]. unfold format_equal. cbn. now rewrite R. Qed.
Print Assumptions C46_init_refuted.
(** Every configuration whose frame, if any, has at least one level gives a format; without frame all
    quantities are 0 and no file needs any frames. *)
Theorem C46_created L c : lawful L -> (forall k fr, c = Some k -> lib_frame L k = Some fr -> 1 <= fr_levels fr < 2^31) ->
  exists f, given L c f /\
    ((c = None \/ exists k, c = Some k /\ lib_frame L k = None) -> exists d, fo_derived f = Some d /\
       d_name d = None /\ d_bytes d = 0 /\ d_data_bytes d = 0 /\ d_stripe d = 0 /\ d_scaling d = 0 /\ d_width d = 0 /\ d_height d = 0 /\
       d_data_width d = 0 /\ d_data_height d = 0 /\ d_bits d = 0 /\ d_symbols d = 0 /\ forall size, get_data_frames (d_bytes d) size = 0).
Proof.
  intros Lw H. pose proof (clone_same L c Lw) as Ec. destruct (init_same L _ _ Lw Ec) as (Ei & _).
  assert (X : exists d, init_derived L c = Some d).
  { destruct c as [k|]; [|cbn; eauto]. cbn [init_derived]. destruct (lib_frame L k) as [fr|] eqn:Fr; [|eauto].
    destruct (bits_per_pixel_spec (fr_levels fr) (H k fr eq_refl Fr)) as (b & -> & _). eauto. }
  destruct X as (d & X). exists (mkBoxing (option_map (lib_clone L) c) (Some d)). split.
  - right. left. unfold format_create2. now rewrite Ei, X.
  - intros N. exists empty_derived. split; [|repeat (split; [reflexivity|]); reflexivity]. cbn [fo_derived]. rewrite <- X. destruct N as [-> | (k & -> & N)]; [reflexivity|]. cbn. now rewrite N.
Qed.
Print Assumptions C46_created.
(** The sizes: bits per pixel is the least number of bits for the levels of a symbol, symbols per pixel
    2 to it, and the bytes of a frame are the bits of its symbols in whole bytes - while capacity
    times bits stays below 2^32. *)
Theorem C46_sizes_partial L c f fr : lawful L -> given L (Some c) f -> lib_frame L c = Some fr -> 1 <= fr_levels fr < 2^31 -> 0 <= fr_capacity fr < 2^31 ->
  exists d, fo_derived f = Some d /\
    fr_levels fr <= 2 ^ d_bits d /\ (forall b, 0 <= b -> fr_levels fr <= 2 ^ b -> d_bits d <= b) /\
    (2 <= fr_levels fr -> d_symbols d = 2 ^ d_bits d) /\
    (fr_capacity fr * d_bits d < 2^32 -> 8 * d_bytes d <= fr_capacity fr * d_bits d < 8 * d_bytes d + 8) /\
    d_width d = u32 (fr_width fr) /\ d_height d = u32 (fr_height fr) /\ d_data_width d = u32 (fr_data_width fr) /\ d_data_height d = u32 (fr_data_height fr) /\
    d_name d = lib_property L c (s2z "FormatInfo") (s2z "name") /\ d_data_bytes d = lib_packet L (fr_capacity fr) (2 ^ d_bits d) c /\
    d_stripe d = u32 (lib_stripe L c) /\
    (lib_is_set L c (s2z "FrameRaster") (s2z "scalingFactor") = true -> d_scaling d = u32 (lib_int L c (s2z "FrameRaster") (s2z "scalingFactor"))) /\
    (lib_is_set L c (s2z "FrameRaster") (s2z "scalingFactor") = false -> lib_is_set L c (s2z "BaseBuilder") (s2z "scalingFactor") = true ->
       d_scaling d = lib_uint L c (s2z "BaseBuilder") (s2z "scalingFactor")) /\
    (lib_is_set L c (s2z "FrameRaster") (s2z "scalingFactor") = false -> lib_is_set L c (s2z "BaseBuilder") (s2z "scalingFactor") = false -> d_scaling d = 1).
Proof.
  intros Lw G Fr Lv Cp. destruct (given_fields _ _ _ Lw G) as (_ & d & D & I). exists d. split; [exact D|].
  cbn [init_derived] in I. rewrite Fr in I. destruct (bits_per_pixel_spec (fr_levels fr) Lv) as (b & Eb & B & B1 & B2 & B3 & _). rewrite Eb in I.
  injection I as <-. cbn [d_bits d_symbols d_bytes d_width d_height d_data_width d_data_height d_name d_data_bytes d_stripe d_scaling].
  split; [exact B1|]. split; [exact B2|]. split; [exact B3|]. split; [|repeat (split; [reflexivity|]); unfold get_scaling; split; [intros ->; reflexivity|split; intros -> ->; reflexivity]].
  intro H. unfold bytes_per_frame. rewrite (u32_small (fr_capacity fr)) by lia. rewrite u32_small by nia.
  pose proof (Z.div_mod (fr_capacity fr * b) 8 ltac:(lia)). pose proof (Z.mod_pos_bound (fr_capacity fr * b) 8 ltac:(lia)). lia.
Qed.
Print Assumptions C46_sizes_partial.
(** Beyond that the product wraps: a frame of 2^30 symbols of 16 levels has 2^29 bytes, not 0. *)
Theorem C46_sizes_refuted L c f fr : lawful L -> given L (Some c) f -> lib_frame L c = Some fr -> fr_levels fr = 16 -> fr_capacity fr = 2^30 ->
  exists d, fo_derived f = Some d /\ d_bytes d = 0 /\ 8 * 2^29 = fr_capacity fr * d_bits d.
Proof.
  intros Lw G Fr Lv Cp. destruct (given_fields _ _ _ Lw G) as (_ & d & D & I). exists d. split; [exact D|].
  cbn [init_derived] in I. rewrite Fr, Lv, Cp in I. change (bits_per_pixel 31 16) with (Some 4) in I. injection I as <-. rewrite Cp. vm_compute. auto.
Qed.
Print Assumptions C46_sizes_refuted.

(** * Witness: a library in which a configuration with a class "frame" has a frame *)
Definition ex_frame (c : config) : option frame :=
  match lookup (s2z "frame") (cf_groups c) with
  | Some ps => match lookup (s2z "big") ps with Some _ => Some (mkBoxFrame 4096 2160 4000 2000 (2^30) 16) | None => Some (mkBoxFrame 4096 2160 4000 2000 8000000 4) end
  | None => None
  end.
Definition ex_property (c : config) (cls key : cstr) : option cstr := match lookup cls (cf_groups c) with Some ps => lookup key ps | None => None end.
Fixpoint table_same {V} (e : V -> V -> bool) (a b : table V) : bool :=
  match a, b with [], [] => true | (k, v) :: a', (l, w) :: b' => str_eqb k l && e v w && table_same e a' b' | _, _ => false end.
Definition ex_equal (a b : option config) : bool :=
  match a, b with
  | None, None => true
  | Some x, Some y => table_same (table_same str_eqb) (cf_groups x) (cf_groups y) && table_same str_eqb (cf_aliases x) (cf_aliases y)
  | _, _ => false
  end.
Lemma table_same_iff {V} (e : V -> V -> bool) : (forall x y, e x y = true <-> x = y) -> forall a b, table_same e a b = true <-> a = b.
Proof.
  intros H a. induction a as [|(k, v) a IH]; intros [|(l, w) b]; cbn; try (split; congruence).
  rewrite !andb_true_iff, str_eqb_eq, H, IH. split; [intuition congruence|]. intro E. injection E as -> -> ->. tauto.
Qed.
Lemma ex_equal_iff a b : ex_equal a b = true <-> a = b.
Proof.
  destruct a as [[g1 a1]|], b as [[g2 a2]|]; cbn; try (split; congruence).
  rewrite andb_true_iff, (table_same_iff (table_same str_eqb)), (table_same_iff str_eqb).
  - split; [intuition congruence|]. intro E. injection E as -> ->. tauto.
  - exact str_eqb_eq.
  - apply table_same_iff. exact str_eqb_eq.
Qed.
Definition ex_library : library :=
  mkLibrary ex_frame ex_property (fun c cls key => match ex_property c cls key with Some _ => true | None => false end)
    (fun c cls key => match ex_property c cls key with Some s => atoi s | None => 0 end)
    (fun c cls key => match ex_property c cls key with Some s => u32 (atoi s) | None => 0 end)
    (fun c => 188) (fun cap levels c => cap / 10) ex_equal (fun c => c).
Definition ex_config (big : bool) : config :=
  mkConfig [(s2z "FormatInfo", [(s2z "name", s2z "4k")]); (s2z "frame", if big then [(s2z "big", s2z "1")] else [])] [].
Definition ex_frameless : config := mkConfig [(s2z "FormatInfo", [(s2z "name", s2z "4k")])] [].
Example C46_witness : lawful ex_library /\
  (exists f, given ex_library (Some (ex_config false)) f /\ fo_derived f = Some (mkDerived (Some (s2z "4k")) 2000000 800000 188 1 4096 2160 4000 2000 2 4)) /\
  (exists f, given ex_library (Some (ex_config true)) f) /\ ex_frame (ex_config true) = Some (mkBoxFrame 4096 2160 4000 2000 (2^30) 16) /\
  (exists f, given ex_library (Some ex_frameless) f) /\ ex_frame ex_frameless = None /\ ex_property ex_frameless (s2z "FormatInfo") (s2z "name") = Some (s2z "4k").
Proof.
  split.
  { split; [intro a; now apply ex_equal_iff|]. split; [intros a b; apply Bool.eq_iff_eq_true; cbn; rewrite !ex_equal_iff; split; congruence|].
    split; [intros a b c; cbn; rewrite !ex_equal_iff; congruence|]. split; [reflexivity|]. split; [intro a; now apply ex_equal_iff|].
    intros a b E. apply ex_equal_iff in E. injection E as ->. repeat split. }
  split; [eexists; split; [right; left; vm_compute; reflexivity|reflexivity]|].
  split; [eexists; right; left; vm_compute; reflexivity|]. split; [reflexivity|].
  split; [eexists; right; left; vm_compute; reflexivity|]. split; reflexivity.
Qed.
