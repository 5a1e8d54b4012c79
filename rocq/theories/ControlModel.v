(** Control data: src/administrativemetadata.c, src/technicalmetadata.c, src/controldata.c and the
    configuration part of src/controlframe/boxingformat.c, with their XML forms.

    The boxing configuration (boxing_config, GHashTable, g_variant) belongs to the boxing library,
    which is not in the repository. It is modelled by what this code does with it: a table of
    classes, each a table of string properties, and a table of aliases. The order of a list stands
    for the order in which the hash table is walked, so statements over all lists cover all orders.
    The CONFIG_XML names are those of the configuration files in conf/. *)
From Verif Require Import CBase TocModel XmlModel TocXmlModel.

(** * src/administrativemetadata.c *)
(** inc/administrativemetadata.h; 78-131 create, create2 *)
Record admin := mkAdmin {
  ad_reel_id : option cstr; ad_print_reel_id : option cstr; ad_title : option cstr;
  ad_description : option cstr; ad_creator : option cstr; ad_creation_date : option cstr }.
Definition admin_create : admin := mkAdmin None None None None None None.
(** 176-193 *)
Definition admin_clone (a : admin) : admin :=
  mkAdmin (ad_reel_id a) (ad_print_reel_id a) (ad_title a) (ad_description a) (ad_creator a) (ad_creation_date a).
(** 244-249: one field, equal pointers (both NULL) or equal strings *)
Definition field_equal (a b : option cstr) : bool :=
  match a, b with None, None => true | Some x, Some y => str_eqb x y | _, _ => false end.
(** 232-255, for two objects; [ptr_equal] adds the NULL cases of 234-242 *)
Definition admin_equal (a b : admin) : bool :=
  field_equal (ad_reel_id a) (ad_reel_id b) && field_equal (ad_print_reel_id a) (ad_print_reel_id b) &&
  field_equal (ad_title a) (ad_title b) && field_equal (ad_description a) (ad_description b) &&
  field_equal (ad_creator a) (ad_creator b) && field_equal (ad_creation_date a) (ad_creation_date b).
(** 709-731: the tags in order, with the fields they stand for *)
Definition admin_tags (a : admin) : list (cstr * option cstr) :=
  [(s2z "ReelId", ad_reel_id a); (s2z "PrintReelId", ad_print_reel_id a); (s2z "Title", ad_title a);
   (s2z "Description", ad_description a); (s2z "Creator", ad_creator a); (s2z "CreationDate", ad_creation_date a)].
(** 537-561 *)
Definition save_admin (a : option admin) : list node * bool :=
  match a with
  | None => ([], false)
  | Some a => ([Elem (s2z "AdministrativeMetadata") [] (flat_map (fun p => text_node (fst p) (snd p)) (admin_tags a))], true)
  end.
(** 678-691 *)
Definition load_field (t : node) (tag : cstr) : option cstr :=
  match find_elem tag t with
  | None => None
  | Some x => Some (match node_text x with Some s => s | None => [] end)
  end.
(** 659-697: the object after the call and its result, for a freshly created object. *)
Definition load_admin (t : node) : admin * bool :=
  match find_elem (s2z "AdministrativeMetadata") t with
  | None => (admin_create, false)
  | Some x => (mkAdmin (load_field x (s2z "ReelId")) (load_field x (s2z "PrintReelId")) (load_field x (s2z "Title"))
                       (load_field x (s2z "Description")) (load_field x (s2z "Creator")) (load_field x (s2z "CreationDate")), true)
  end.

(** * The configuration table *)
Definition table (V : Type) := list (cstr * V).
Fixpoint lookup {V} (k : cstr) (l : table V) : option V :=
  match l with [] => None | (k', v) :: l' => if str_eqb k' k then Some v else lookup k l' end.
Fixpoint put {V} (k : cstr) (v : V) (l : table V) : table V :=
  match l with [] => [(k, v)] | (k', v') :: l' => if str_eqb k' k then (k', v) :: l' else (k', v') :: put k v l' end.
Record config := mkConfig { cf_groups : table (table cstr); cf_aliases : table cstr }.
(** boxing_config_set_property for a key other than the alias key: replace, or add the class and
    the property (contract of the boxing library). *)
Definition set_property (c : table (table cstr)) (cls key value : cstr) : table (table cstr) :=
  put cls (put key value (match lookup cls c with Some ps => ps | None => [] end)) c.

(** * src/controlframe/boxingformat.c *)
(** inc/boxingformat.h; the fields computed by initialize_instance 845 are modelled in FormatModel.v
    and left out here: they are a function of the configuration (C46). *)
Record bformat := mkFormat { bf_config : option config }.
(** 720-742 *)
Fixpoint get_key_by_value (l : table cstr) (v : cstr) : option cstr :=
  match l with [] => None | (k, x) :: l' => if str_eqb x v then Some k else get_key_by_value l' v end.
Definition VERSION := s2z "version".
(** 802-814 *)
Definition save_property (p : cstr * cstr) : list node :=
  if str_eqb (fst p) VERSION then []
  else [Elem (s2z "property") [(s2z "key", Some (fst p)); (s2z "value", Some (snd p))] []].
(** 745-754, 777-815 *)
Definition save_class (aliases : table cstr) (g : cstr * table cstr) : node :=
  let attrs := (s2z "key", Some (fst g)) :: match lookup VERSION (snd g) with Some v => [(VERSION, Some v)] | None => [] end in
  Elem (s2z "class") attrs
    (match get_key_by_value aliases (fst g) with
     | Some a => [Elem (s2z "property") [(s2z "key", Some (s2z "alias")); (s2z "value", Some a)] []]
     | None => flat_map save_property (snd g)
     end).
(** 757-819 *)
Definition save_config (c : config) : node :=
  Elem (s2z "work") [(VERSION, Some (s2z "1.0.0.0"))] (map (save_class (cf_aliases c)) (cf_groups c)).
(** 358-373 *)
Definition save_format (f : option bformat) : list node * bool :=
  match f with
  | None => ([], false)
  | Some f => ([match bf_config f with None => Elem (s2z "NULL") [] [] | Some c => save_config c end], true)
  end.
(** 651-672: one child of a class; the parts behind [&&] are the tests for NULL and emptiness *)
Definition nonempty (s : option cstr) : option cstr := match s with Some (c :: l) => Some (c :: l) | _ => None end.
Definition load_property (cls : cstr) (c : table (table cstr)) (t : node) : table (table cstr) :=
  if named (s2z "property") t then
    match nonempty (node_attr t (s2z "key")) with
    | Some k => match nonempty (node_attr t (s2z "value")) with Some v => set_property c cls k v | None => c end
    | None => c
    end
  else c.
(** 636-677 *)
Definition load_class (c : table (table cstr)) (t : node) : table (table cstr) :=
  if named (s2z "class") t then
    match nonempty (node_attr t (s2z "key")) with
    | None => c
    | Some cls =>
        let c1 := match node_attr t VERSION with Some v => set_property c cls VERSION v | None => c end in
        fold_left (load_property cls) (node_kids t) c1
    end
  else c.
(** 432-475: mxmlGetFirstChild and mxmlWalkNext(MXML_NO_DESCEND) visit the children in order
    (WalkModel.v). None: the call fails. The aliases of the loaded table are not modelled. *)
Definition load_format (t : node) : option bformat :=
  match find_elem (s2z "NULL") t with
  | Some _ => Some (mkFormat None)
  | None => match find_elem (s2z "work") t with
            | None => None
            | Some w => Some (mkFormat (Some (mkConfig (fold_left load_class (node_kids w) []) [])))
            end
  end.

(** * src/technicalmetadata.c *)
(** inc/technicalmetadata.h; 73-121 *)
Record tech := mkTech { te_format : option bformat; te_tocs : option files; te_applications : option files }.
Definition tech_create : tech := mkTech None None None.
(** 158-170; afs_boxing_format_create2 copies the configuration *)
Definition tech_clone (t : tech) : tech :=
  mkTech (option_map (fun f => mkFormat (bf_config f)) (te_format t)) (option_map files_clone (te_tocs t))
         (option_map files_clone (te_applications t)).
Section Technical.
(** boxing_config_is_equal of the boxing library *)
Variable config_equal : option config -> option config -> bool.
(** 223-245 *)
Definition format_equal (a b : bformat) : bool := config_equal (bf_config a) (bf_config b).
Definition tech_equal (a b : tech) : bool :=
  ptr_equal format_equal (te_format a) (te_format b) && ptr_equal files_equal (te_tocs a) (te_tocs b) &&
  ptr_equal files_equal (te_applications a) (te_applications b).
End Technical.
(** 393-406: a list of files inside an element of its own *)
Definition save_named_files (n : cstr) (v : option files) : list node * bool :=
  match v with
  | None => ([], true)
  | Some _ => let (k, ok) := save_files v in ([Elem n [] k], ok)
  end.
(** 376-408 *)
Definition save_tech (t : option tech) : list node * bool :=
  match t with
  | None => ([], false)
  | Some t =>
      let el k := [Elem (s2z "TechnicalMetadata") [] k] in
      let (k1, ok1) := save_format (te_format t) in
      let bf := [Elem (s2z "BoxerFormat") [] k1] in
      if negb ok1 then (el bf, false)
      else let (k2, ok2) := save_named_files (s2z "Tocs") (te_tocs t) in
           if negb ok2 then (el (bf ++ k2), false)
           else let (k3, ok3) := save_named_files (s2z "Applications") (te_applications t) in
                (el (bf ++ k2 ++ k3), ok3)
  end.
(** 506-574: the object after the call and its result, for a freshly created object. *)
Definition load_tech (t : node) : tech * bool :=
  match find_elem (s2z "TechnicalMetadata") t with
  | None => (tech_create, false)
  | Some x =>
      match find_elem (s2z "BoxerFormat") x with
      | None => (tech_create, false)
      | Some b =>
          let f := load_format b in
          match opt_load load_files (find_elem (s2z "Tocs") x) with
          | None => (tech_create, false)
          | Some tocs =>
              match find_elem (s2z "Applications") x with
              | None => (mkTech f tocs None, true)
              | Some a => (mkTech f tocs (load_files a), true)
              end
          end
      end
  end.
(** 279-361: save_file and save_string also need the file list and the format *)
Definition save_tech_string (t : option tech) : list node * bool :=
  match t with
  | Some (mkTech (Some _) (Some _) _) => save_tech t
  | _ => ([], false)
  end.

(** * src/controldata.c *)
(** inc/controldata.h; 74-114 *)
Record control := mkControl { cd_admin : option admin; cd_tech : option tech }.
(** 153-166 *)
Definition control_clone (c : control) : control := mkControl (option_map admin_clone (cd_admin c)) (option_map tech_clone (cd_tech c)).
(** 205-224 *)
Definition control_equal (config_equal : option config -> option config -> bool) (a b : control) : bool :=
  ptr_equal admin_equal (cd_admin a) (cd_admin b) && ptr_equal (tech_equal config_equal) (cd_tech a) (cd_tech b).
(** 353-368 *)
Definition save_control (c : control) : list node * bool :=
  let (k1, ok1) := save_admin (cd_admin c) in
  if negb ok1 then (k1, false) else let (k2, ok2) := save_tech (cd_tech c) in (k1 ++ k2, ok2).
(** 240-338: save_file and save_string refuse a missing part before anything is written *)
Definition save_control_string (c : control) : list node * bool :=
  match cd_admin c, cd_tech c with Some _, Some _ => save_control c | _, _ => ([], false) end.
(** 466-502: the results of the two inner loads are ignored. *)
Definition load_control (t : node) : option control :=
  match find_elem (s2z "AdministrativeMetadata") t with
  | None => None
  | Some _ => match find_elem (s2z "TechnicalMetadata") t with
              | None => None
              | Some _ => Some (mkControl (Some (fst (load_admin t))) (Some (fst (load_tech t))))
              end
  end.
