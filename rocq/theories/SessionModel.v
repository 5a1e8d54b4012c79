(** Sessions: a program edits a table of contents, saves it and loads it, in any order, on a disk.

    Simplifications: the loads are made into the object that is being edited. A load that fails after a
    document was found may have changed that object; here such a step has no result (UB), and the
    theorems show that it is not reached. A load from a file that does not exist leaves the object as it
    is (src/tocdata.c 1343-1353). *)
From Verif Require Import CBase TocModel BuildModel XmlModel TocXmlModel FileModel WriterModel.

(** What the program does: a call that edits the object; saving it to a string and loading the string;
    saving it to a file; loading it from a file. [nl] is the decision of the writer about the final
    line feed (FileModel.v). *)
Inductive act := Edit (o : op) | Reparse (compact : bool) | SaveAs (compact nl : bool) (name : cstr) | LoadFrom (name : cstr).
Definition loaded (d : disk) (r : outcome (option toc_data)) : outcome ((toc_data * disk) * bool) :=
  obind r (fun x => match x with Some t => Ok ((t, d), true) | None => UB end).
(** afs_toc_data_save_string 1223-1264 and afs_toc_data_load_string 1383-1420, afs_toc_data_save_file
    1165-1208, afs_toc_data_load_file 1333-1368 of src/tocdata.c; a NULL string is not loaded. *)
Definition step (split : cstr -> list cstr) (p : toc_data * disk) (a : act) : outcome ((toc_data * disk) * bool) :=
  let (t, d) := p in
  match a with
  | Edit o => obind (call t o) (fun q => Ok ((fst q, d), snd q))
  | Reparse compact => obind (toc_to_string t compact) (fun r =>
      match r with Some s => loaded d (load_object (load_toc split t) s) | None => Ok ((t, d), false) end)
  | SaveAs compact nl name => obind (toc_to_file t compact nl true d name) (fun q => Ok ((t, fst q), snd q))
  | LoadFrom name => match d name with None => Ok ((t, d), false) | Some _ => loaded d (fetch (load_toc split t) true d name) end
  end.
Fixpoint steps (split : cstr -> list cstr) (p : toc_data * disk) (l : list act) : outcome ((toc_data * disk) * list bool) :=
  match l with
  | [] => Ok (p, [])
  | a :: l' => obind (step split p a) (fun q => obind (steps split (fst q) l') (fun r => Ok (fst r, snd q :: snd r)))
  end.
