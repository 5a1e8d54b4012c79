(** C66: the names of the frame files. *)
From Verif Require Import CBase CBaseProofs TocModel FileModel ImageModel ToolModel SpecTool SpecTool2 ToolProofs5 ToolProofs7.
Notation length := List.length.
Local Open Scope Z_scope.

(** "*d" stands for the number of the frame, "*0<w>d" for the number with zeros in front up to [w] characters. *)
Theorem C66_number prefix suffix n : plain prefix -> plain suffix -> 0 <= n < 2 ^ 31 ->
  exists s, get_input_file_name (prefix ++ s2z "*d" ++ suffix) n = Ok (prefix ++ s ++ suffix) /\ padded s n 0.
Proof. intros P S0 N. exists (print_dec n). split; [now apply name_plain|]. apply print_plain_padded. lia. Qed.
Theorem C66_padded prefix suffix w n : plain prefix -> plain suffix -> digits w -> value w <= 12 + Z.of_nat (length w) -> 0 <= n < 2 ^ 31 ->
  exists s, get_input_file_name (prefix ++ s2z "*0" ++ w ++ s2z "d" ++ suffix) n = Ok (prefix ++ s ++ suffix) /\ padded s n (value w).
Proof.
  intros P S0 W V N. exists (print_dec_pad (Z.to_nat (value w)) n). split; [apply name_padded; auto; apply W|]. apply print_padded; [lia|now apply value_nonneg].
Qed.
(** A wider number does not fit into the buffer of strlen(template) + 10 bytes. *)
Theorem C66_wide_refuted prefix suffix w n : plain prefix -> plain suffix -> digits w -> 12 + Z.of_nat (length w) < value w -> 0 <= n < 2 ^ 31 ->
  get_input_file_name (prefix ++ s2z "*0" ++ w ++ s2z "d" ++ suffix) n = UB.
Proof. intros P S0 W V N. apply name_wide; auto. apply W. Qed.
(** Different frames have different names. *)
Theorem C66_distinct prefix suffix w n m : plain prefix -> plain suffix -> digits w -> value w <= 12 + Z.of_nat (length w) -> 0 <= n < 2 ^ 31 -> 0 <= m < 2 ^ 31 -> n <> m ->
  get_input_file_name (prefix ++ s2z "*0" ++ w ++ s2z "d" ++ suffix) n <> get_input_file_name (prefix ++ s2z "*0" ++ w ++ s2z "d" ++ suffix) m /\
  get_input_file_name (prefix ++ s2z "*d" ++ suffix) n <> get_input_file_name (prefix ++ s2z "*d" ++ suffix) m.
Proof.
  intros P S0 W V N M D. assert (G : forall s t a b, padded s n a -> padded t m b -> Ok (prefix ++ s ++ suffix) <> Ok (prefix ++ t ++ suffix)).
  { intros s t a b (_ & Vs & _) (_ & Vt & _) E. apply D. assert (X : prefix ++ s ++ suffix = prefix ++ t ++ suffix) by congruence. apply app_inv_head, app_inv_tail in X. congruence. }
  split.
  - destruct (C66_padded prefix suffix w n P S0 W V N) as (s & -> & Hs). destruct (C66_padded prefix suffix w m P S0 W V M) as (t & -> & Ht). eapply G; eassumption.
  - destruct (C66_number prefix suffix n P S0 N) as (s & -> & Hs). destruct (C66_number prefix suffix m P S0 M) as (t & -> & Ht). eapply G; eassumption.
Qed.
(** The example of the help text. *)
Example C66_witness : get_input_file_name (s2z "..\testdata\reel3\*010d.raw") 12 = Ok (s2z "..\testdata\reel3\0000000012.raw") /\
  plain (s2z "..\testdata\reel3\") /\ digits (s2z "10") /\ value (s2z "10") <= 12 + Z.of_nat (length (s2z "10")) /\
  get_input_file_name (s2z "*020d") 12 = UB.
Proof.
  split; [reflexivity|]. split; [|split; [apply is_digit_spec; reflexivity|split; [vm_compute; discriminate|reflexivity]]].
  apply Forall_forall. intros x I. assert (forallb (fun c => negb (c =? 37) && negb (c =? 42)) (s2z "..\testdata\reel3\") = true) as F by reflexivity. rewrite forallb_forall in F. specialize (F x I). lia.
Qed.
Print Assumptions C66_number.
Print Assumptions C66_padded.
Print Assumptions C66_wide_refuted.
Print Assumptions C66_distinct.
