(** What saved control data looks like after it is loaded again. Independent of save and load. *)
From Verif Require Import CBase TocModel SpecToc XmlModel SpecXml TocXmlModel SpecTocXml ControlModel.

(** Two tables hold the same entries, in whatever order. *)
Definition same_table {V} (a b : table V) : Prop := forall k, lookup k a = lookup k b.
(** Two configurations have the same classes, and every class the same properties. *)
Definition same_config (a b : config) : Prop :=
  (forall cls, lookup cls (cf_groups a) = None <-> lookup cls (cf_groups b) = None) /\
  (forall cls pa pb, lookup cls (cf_groups a) = Some pa -> lookup cls (cf_groups b) = Some pb -> same_table pa pb).
Definition both {A} (R : A -> A -> Prop) (a b : option A) : Prop :=
  match a, b with None, None => True | Some x, Some y => R x y | _, _ => False end.
(** The contract of boxing_config_is_equal. *)
Definition compares (config_equal : option config -> option config -> bool) : Prop :=
  forall a b, config_equal a b = true <-> both same_config a b.

(** A string field of the administrative metadata: missing stays missing, empty stays empty, and
    only outer blanks are lost. *)
Definition field_back (s : option cstr) : option cstr := option_map strip s.
Definition admin_back (a : admin) : admin :=
  mkAdmin (field_back (ad_reel_id a)) (field_back (ad_print_reel_id a)) (field_back (ad_title a))
          (field_back (ad_description a)) (field_back (ad_creator a)) (field_back (ad_creation_date a)).
Definition admin_carried (a : admin) : Prop :=
  carried (ad_reel_id a) /\ carried (ad_print_reel_id a) /\ carried (ad_title a) /\
  carried (ad_description a) /\ carried (ad_creator a) /\ carried (ad_creation_date a).
Definition admin_clean (a : admin) : Prop :=
  clean (ad_reel_id a) /\ clean (ad_print_reel_id a) /\ clean (ad_title a) /\
  clean (ad_description a) /\ clean (ad_creator a) /\ clean (ad_creation_date a).

(** A hash table has every key once. *)
Definition is_table {V} (l : table V) : Prop := NoDup (map fst l).
Definition config_carried (c : config) : Prop :=
  is_table (cf_groups c) /\
  Forall (fun g => is_text (fst g) /\ is_table (snd g) /\ Forall (fun p => is_text (fst p) /\ is_text (snd p)) (snd g)) (cf_groups c).
(** Nothing is lost: no aliases, no class or property without name, no class without properties,
    no property without value (except the version). *)
Definition config_clean (c : config) : Prop :=
  cf_aliases c = [] /\
  Forall (fun g => fst g <> [] /\ snd g <> [] /\ Forall (fun p => fst p <> [] /\ (snd p <> [] \/ fst p = VERSION)) (snd g)) (cf_groups c).
(** What comes back: the version first, then the properties that have a name and a value; classes
    without name or without such properties are lost. *)
Definition props_back (ps : table cstr) : table cstr :=
  match lookup VERSION ps with Some v => [(VERSION, v)] | None => [] end ++
  filter (fun p => negb (str_eqb (fst p) VERSION) && negb (str_eqb (fst p) []) && negb (str_eqb (snd p) [])) ps.
Definition config_back (c : config) : config :=
  mkConfig (filter (fun g => match snd g with [] => false | _ => true end)
             (map (fun g => (fst g, props_back (snd g))) (filter (fun g => negb (str_eqb (fst g) [])) (cf_groups c)))) [].

Definition format_carried (f : bformat) : Prop := forall c, bf_config f = Some c -> config_carried c /\ cf_aliases c = [].
Definition format_clean (f : bformat) : Prop := forall c, bf_config f = Some c -> config_clean c.
Definition format_back (f : bformat) : bformat := mkFormat (option_map config_back (bf_config f)).

Definition list_of (v : option files) : list toc_file := match v with Some (Some l) => l | _ => [] end.
Definition named_files_carried (v : option files) : Prop :=
  files_carried (list_of v) /\ Forall (fun f => file_is_valid f = true) (list_of v).
Definition named_files_back (v : option files) : option files :=
  match v with None => None | Some _ => Some (back_list file_back (list_of v)) end.
Definition named_files_clean (v : option files) : Prop := v <> Some (Some []) /\ Forall file_clean (list_of v).
Definition tech_carried (t : tech) : Prop :=
  (exists f, te_format t = Some f /\ format_carried f) /\ named_files_carried (te_tocs t) /\ named_files_carried (te_applications t).
Definition tech_back (t : tech) : tech :=
  mkTech (option_map format_back (te_format t)) (named_files_back (te_tocs t)) (named_files_back (te_applications t)).
Definition tech_clean (t : tech) : Prop :=
  (forall f, te_format t = Some f -> format_clean f) /\ named_files_clean (te_tocs t) /\ named_files_clean (te_applications t).

(** Whatever the indentation and the final line feed: the whole document is saved (with its XML
    declaration) as UTF-8 text, and loading the text gives [x]. *)
Definition document_round_trips {A} (saved : list node * bool) (load : node -> option A) (x : A) : Prop :=
  forall ws nl, indenting ws -> exists s, save_object true saved ws nl = Some s /\ load_object load s = Ok (Some x) /\ is_text s.
