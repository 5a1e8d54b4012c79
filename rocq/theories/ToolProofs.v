(** Names and frames of the recovery tool. *)
From Verif Require Import CBase CBaseProofs TocModel FileModel ImageModel ToolModel SpecTool.
Local Open Scope nat_scope.

Lemma is_separator_spec c : is_separator c = true <-> separator c.
Proof. unfold is_separator, separator. rewrite orb_true_iff, !Z.eqb_eq. tauto. Qed.
Lemma not_separator c : is_separator c = false <-> ~ separator c.
Proof. rewrite <- is_separator_spec. destruct (is_separator c); split; congruence. Qed.
Definition starts_at (path : list Z) (i b : nat) : Prop :=
  b <= S i /\ (b = 0 \/ exists j, b = S j /\ separator (nth j path 0%Z)) /\ forall k, b <= k <= i -> ~ separator (nth k path 0%Z).
Lemma begin_loop_spec path fin i : 0 < fin -> starts_at path i (begin_loop path fin i 0).
Proof.
  intro F. induction i as [|i IH]; cbn [begin_loop].
  - destruct (is_separator (nth 0 path 0%Z)) eqn:E.
    + split; [lia|]. split; [right; exists 0; split; [reflexivity|now apply is_separator_spec]|intros; lia].
    + split; [lia|]. split; [now left|]. intros k H. assert (k = 0) by lia. subst. now apply not_separator.
  - destruct (is_separator (nth (S i) path 0%Z)) eqn:E.
    + destruct fin; [lia|]. cbn [Nat.eqb negb andb].
      split; [lia|]. split; [right; exists (S i); split; [reflexivity|now apply is_separator_spec]|intros; lia].
    + cbn [Nat.eqb negb andb]. destruct IH as (H1 & H2 & H3). split; [lia|]. split; [exact H2|]. intros k H.
      destruct (Nat.eq_dec k (S i)) as [-> |N]; [now apply not_separator|apply H3; lia].
Qed.
Lemma name_loop_spec path i fin : i < fin -> let (b, e) := name_loop path i 0 fin in
  starts_at path i b /\ b <= e <= fin /\ (forall k, b <= k < e -> k <= i -> nth k path 0%Z <> 46%Z) /\ (e = fin \/ e <= i /\ nth e path 0%Z = 46%Z).
Proof.
  revert fin. induction i as [|i IH]; intros fin F; cbn [name_loop].
  - destruct (Z.eqb_spec (nth 0 path 0%Z) 46) as [D|D].
    + rewrite D. change (is_separator 46) with false. cbv iota. split.
      * split; [lia|]. split; [now left|]. intros k H. assert (k = 0) by lia. subst. rewrite D. now apply not_separator.
      * split; [lia|]. split; [intros; lia|right; auto].
    + destruct (is_separator (nth 0 path 0%Z)) eqn:E.
      * split; [|split; [lia|split; [intros; lia|now left]]]. split; [lia|]. split; [right; exists 0; split; [reflexivity|now apply is_separator_spec]|intros; lia].
      * split; [|split; [lia|split; [|now left]]].
        -- split; [lia|]. split; [now left|]. intros k H. assert (k = 0) by lia. subst. now apply not_separator.
        -- intros k H1 H2. assert (k = 0) by lia. now subst.
  - destruct (Z.eqb_spec (nth (S i) path 0%Z) 46) as [D|D].
    + rewrite D. change (is_separator 46) with false. cbv iota. cbn [Nat.eqb negb andb].
      specialize (IH (S i) ltac:(lia)). destruct (name_loop path i 0 (S i)) as (b, e). destruct IH as ((H1 & H2 & H3) & H4 & H5 & H6). split; [|split; [lia|split]].
      * split; [lia|]. split; [exact H2|]. intros k H. destruct (Nat.eq_dec k (S i)) as [-> |N]; [rewrite D; now apply not_separator|apply H3; lia].
      * intros k K1 K2. apply H5; lia.
      * right. destruct H6 as [-> |(H6 & H7)]; split; auto; lia.
    + destruct (is_separator (nth (S i) path 0%Z)) eqn:E.
      * destruct fin; [lia|]. cbn [Nat.eqb negb andb].
        split; [|split; [lia|split; [intros; lia|now left]]]. split; [lia|]. split; [right; exists (S i); split; [reflexivity|now apply is_separator_spec]|intros; lia].
      * destruct fin; [lia|]. cbn [Nat.eqb negb andb]. specialize (IH (S fin) ltac:(lia)). destruct (name_loop path i 0 (S fin)) as (b, e).
        destruct IH as ((H1 & H2 & H3) & H4 & H5 & H6). split; [|split; [lia|split]].
        -- split; [lia|]. split; [exact H2|]. intros k H. destruct (Nat.eq_dec k (S i)) as [-> |N]; [now apply not_separator|apply H3; lia].
        -- intros k K1 K2. destruct (Nat.eq_dec k (S i)) as [-> |N]; [exact D|apply H5; lia].
        -- destruct H6 as [-> |(H6 & H7)]; [now left|right; split; auto; lia].
Qed.
Lemma nth_skipn' {A} (n : nat) (l : list A) k d : nth k (skipn n l) d = nth (n + k) l d.
Proof. revert l. induction n as [|n IH]; intros l; [reflexivity|]. destruct l; [now destruct k|]. cbn [skipn]. apply IH. Qed.
Lemma skipn_plus {A} n m (l : list A) : skipn n (skipn m l) = skipn (m + n) l.
Proof. revert l. induction m as [|m IH]; intros [|x l]; cbn [skipn Nat.add]; try reflexivity; [now rewrite skipn_nil|apply IH]. Qed.
Lemma in_index {A} (x : A) l d : In x l -> exists k, k < length l /\ nth k l d = x.
Proof. intro H. apply (In_nth l x d) in H. destruct H as (k & H1 & H2). eauto. Qed.
Lemma starts_last path b : path <> [] -> starts_at path (length path - 1) b -> last_part path (skipn b path).
Proof.
  intros N (H1 & H2 & H3). exists (firstn b path). split; [symmetry; apply firstn_skipn|]. split.
  - destruct H2 as [-> |(j & -> & H2)]; [now left|]. right. exists (firstn j path), (nth j path 0%Z). split; [|exact H2].
    assert (L : j < length path) by (destruct path; [congruence|cbn [List.length] in *; lia]). clear -L. revert path L. induction j as [|j IH]; intros [|x path] L; cbn [length] in L; try lia; [reflexivity|].
    cbn [firstn nth app]. f_equal. apply IH. lia.
  - intro E. apply Exists_exists in E. destruct E as (x & I & Sx). destruct (in_index x _ 0%Z I) as (k & K1 & K2). rewrite nth_skipn' in K2.
    rewrite skipn_length in K1. apply (H3 (b + k)); [lia|]. now rewrite K2.
Qed.
(** The two functions that take the name out of a path. *)
Lemma with_extension_spec path : path <> [] -> exists name, get_file_name_with_extension_from_path path = Ok name /\ last_part path name.
Proof.
  intro N. assert (L : 1 <= length path) by (destruct path; [congruence|cbn [List.length]; lia]).
  pose proof (begin_loop_spec path (length path) (length path - 1) ltac:(lia)) as B.
  exists (skipn (begin_loop path (length path) (length path - 1) 0) path). split; [|now apply starts_last].
  assert (G : get_file_name_with_extension_from_path path = between path (begin_loop path (length path) (length path - 1) 0) (length path)) by (destruct path; [congruence|reflexivity]).
  rewrite G. unfold between. destruct B as (B & _). destruct (Nat.ltb_spec (length path) (begin_loop path (length path) (length path - 1) 0)); [lia|].
  f_equal. apply firstn_all2. rewrite skipn_length. lia.
Qed.
Lemma from_path_spec path : path <> [] -> exists name stem, get_file_name_from_path path = Ok stem /\ last_part path name /\ before_dot name stem.
Proof.
  intro N. assert (L : 1 <= length path) by (destruct path; [congruence|cbn; lia]).
  pose proof (name_loop_spec path (length path - 1) (length path) ltac:(lia)) as B.
  assert (G : get_file_name_from_path path = let (begin, fin) := name_loop path (length path - 1) 0 (length path) in between path begin fin) by (destruct path; [congruence|reflexivity]).
  rewrite G. destruct (name_loop path (length path - 1) 0 (length path)) as (b, e) eqn:Q. destruct B as (B & H1 & H2 & H3).
  exists (skipn b path), (firstn (e - b) (skipn b path)). split; [|split; [now apply starts_last|]].
  - unfold between. destruct (Nat.ltb_spec e b); [lia|reflexivity].
  - split.
    + intro I. destruct (in_index 46%Z _ 0%Z I) as (k & K1 & K2). rewrite firstn_length, skipn_length in K1.
      assert (nth k (firstn (e - b) (skipn b path)) 0%Z = nth k (skipn b path) 0%Z).
      { rewrite <- (firstn_skipn (e - b) (skipn b path)) at 2. rewrite app_nth1; [reflexivity|]. rewrite firstn_length, skipn_length. lia. }
      rewrite H in K2. rewrite nth_skipn' in K2. apply (H2 (b + k)); [lia|lia|exact K2].
    + destruct H3 as [-> |(H3 & H4)].
      * left. symmetry. apply firstn_all2. rewrite skipn_length. lia.
      * right. exists (skipn (S e) path). rewrite <- (firstn_skipn (e - b) (skipn b path)) at 1. f_equal.
        rewrite skipn_plus. replace (b + (e - b)) with e by lia. assert (X : e < length path) by lia. clear -H4 X.
        revert path H4 X. induction e as [|e IH]; intros [|x path] H4 X; cbn [length] in X; try lia; cbn [nth] in H4; [now subst|]. cbn [skipn]. apply IH; [exact H4|lia].
Qed.
Lemma starts_with_spec p s : starts_with p s = true <-> exists r, s = p ++ r.
Proof.
  revert s. induction p as [|x p IH]; intros s; cbn [starts_with].
  - split; [intros _; now exists s|reflexivity].
  - destruct s as [|y s].
    + split; [discriminate|intros (r & H); discriminate].
    + rewrite andb_true_iff, Z.eqb_eq, IH. split.
      * intros (-> & r & ->). now exists r.
      * intros (r & H). cbn [app] in H. injection H as -> ->. split; [reflexivity|now exists r].
Qed.
Lemma check_tar_spec s : check_tar_format s = true <-> exists r, s = Some (s2z "afs/tar" ++ r).
Proof.
  unfold check_tar_format. destruct s as [s|]; [|split; [discriminate|intros (r & H); discriminate]].
  destruct (Nat.ltb_spec (length s) (length (s2z "afs/tar"))) as [L|L].
  - split; [discriminate|]. intros (r & H). assert (H' : s = s2z "afs/tar" ++ r) by congruence. rewrite H', app_length in L. lia.
  - rewrite starts_with_spec. split; intros (r & H); exists r; congruence.
Qed.
