(** Chosen files that cannot be recovered. *)
From Verif Require Import CBase CBaseProofs XmlModel TocModel TocXmlModel BuildModel FileModel ImageModel ShaModel SpecSha ControlModel LoadModel SpecLoad LoadProofs ToolModel SpecTool SpecTool2 ToolProofs ToolProofs2 ToolProofs3 ToolProofs5 ToolProofs6 PropTool.
Notation length := List.length.
Local Open Scope Z_scope.

Definition left_by (d d' : disk) (job : cstr * option (list Z)) : Prop := d' (fst job) = match snd job with Some bytes => Some bytes | None => d (fst job) end.
Lemma attempt_spec lib p d outs f job dcur : reads_well lib -> attempt lib p d outs f job -> In (fst job) outs -> (forall n, ~ In n outs -> dcur n = d n) ->
  exists d' r, unbox_file lib p f dcur = Ok (d', r) /\ left_by dcur d' job /\ only_changes dcur d' (fst job) /\ (damaged lib p d outs f (fst job) (match snd job with Some b => b | None => [] end) -> r <> 0).
Proof.
  intros RW A I EQ.
  assert (DM : forall out bytes, In out outs -> damaged lib p d outs f out bytes -> exists d' r, unbox_file lib p f dcur = Ok (d', r) /\ d' out = Some bytes /\ only_changes dcur d' out /\ r <> 0).
  { intros out bytes Io (template & dec & images & empty & frames & c & R & P & C & F2 & M & Fe & FR & FM & FS & FL & W & N1 & -> & CK & BAD).
    destruct (C60_exact lib p f dcur template dec out images empty frames c) as (d' & r & content & H1 & H2 & H3 & H4 & H5 & H6); auto.
    - revert F2. apply Forall2_weaken. intros i im (name & Q1 & Q2 & Q3). exists name. split; [exact Q1|]. split; [intros ->; contradiction|]. rewrite <- Q3. apply read_input_ext. now apply EQ.
    - apply H4 in N1. subst content. exists d', r. split; [exact H1|]. split; [exact H2|]. split; [exact H3|].
      destruct (str_eqb_spec c (hexadecimal (SHA1 (placed_bytes frames (f_start_byte f) (f_end_byte f))))) as [E|E]; [|rewrite (H6 E); lia].
      rewrite (H5 E). destruct BAD as [B|B]; [contradiction|exact B]. }
  destruct A as [out bytes R|out bytes D0|out P C]; cbn [fst snd] in *.
  - destruct (recover lib p d outs f out bytes dcur RW R I EQ) as (d' & H1 & H2 & H3). exists d', 0. split; [exact H1|]. split; [exact H2|]. split; [exact H3|].
    intros D0. destruct (DM out bytes I D0) as (d2 & r & U & _ & _ & Z0). congruence.
  - destruct (DM out bytes I D0) as (d2 & r & U & B & O & Z0). exists d2, r. auto.
  - assert (U : unbox_file lib p f dcur = Ok (dcur, -1)).
    { unfold unbox_file. destruct (pr_input p) as [[|t0 ts]|]; [reflexivity| |reflexivity]. destruct (pr_format p) as [cf|]; [|reflexivity]. destruct (_ || _); [reflexivity|]. rewrite P. cbn [obind]. now rewrite C. }
    exists dcur, (-1). split; [exact U|]. split; [reflexivity|]. split; [now intros n Nn|]. lia.
Qed.
Lemma files_loop_attempts lib p v d numbers jobs outs : reads_well lib ->
  Forall2 (fun n job => 0 <= n < 2 ^ 32 /\ exists f, vec_get (Some v) n = Some f /\ attempt lib p d outs f job) numbers jobs ->
  NoDup (map fst jobs) -> incl (map fst jobs) outs ->
  forall dcur, (forall n, ~ In n outs -> dcur n = d n) ->
  exists d', files_loop lib p v numbers dcur = Ok d' /\ Forall (left_by dcur d') jobs /\ (forall n, ~ In n (map fst jobs) -> d' n = dcur n).
Proof.
  intros RW F. induction F as [|n job numbers jobs (B & f & G & R) F IH]; intros ND IN dcur EQ.
  - exists dcur. split; [reflexivity|]. split; [constructor|reflexivity].
  - cbn [files_loop map]. unfold files_get. rewrite u32_small by exact B. rewrite G. cbn [map] in ND, IN. inversion ND as [|? ? N1 N2]; subst.
    destruct (attempt_spec lib p d outs f job dcur RW R) as (d1 & r & E1 & E2 & E3 & _); [apply IN; now left|exact EQ|].
    rewrite E1. cbn [obind fst]. destruct (IH N2) with (dcur := d1) as (d' & H1 & H2 & H3).
    + intros x X. apply IN. now right.
    + intros x X. rewrite (E3 x); [now apply EQ|]. intros ->. apply X. apply IN. now left.
    + exists d'. split; [exact H1|]. split.
      * constructor.
        -- unfold left_by in *. rewrite H3 by exact N1. exact E2.
        -- apply Forall_forall. intros j J. rewrite Forall_forall in H2. specialize (H2 j J). unfold left_by in *. rewrite H2. destruct (snd j); [reflexivity|]. apply E3. intro X. apply N1. rewrite <- X. now apply in_map.
      * intros x X. cbn [map In] in X. rewrite H3 by tauto. apply E3. intros ->. apply X. now left.
Qed.
