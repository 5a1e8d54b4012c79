(** What saving to and loading from files must do, and UTF-16. Independent of the reader. *)
From Verif Require Import CBase XmlModel SpecXml TocXmlModel FileModel.

(** Saving writes exactly the named file, and loading that file gives [x]. For every previous content
    of the disk, compact or indented, and with whatever decision about the final line feed. *)
Definition file_round_trips {A} (to_file : bool -> bool -> bool -> disk -> cstr -> outcome (disk * bool)) (load : node -> option A) (x : A) : Prop :=
  forall compact nl d name, exists d',
    to_file compact nl true d name = Ok (d', true) /\ (forall n, n <> name -> d' n = d n) /\ fetch load true d' name = Ok (Some x).
Definition compact_file_round_trips {A} (to_file : bool -> bool -> bool -> disk -> cstr -> outcome (disk * bool)) (load : node -> option A) (x : A) : Prop :=
  forall nl d name, exists d',
    to_file true nl true d name = Ok (d', true) /\ (forall n, n <> name -> d' n = d n) /\ fetch load true d' name = Ok (Some x).
(** A save that reports failure leaves every file as it was. *)
Definition failure_harmless (to_file : bool -> bool -> bool -> disk -> cstr -> outcome (disk * bool)) : Prop :=
  forall compact nl can_open d name d', to_file compact nl can_open d name = Ok (d', false) -> d' = d.
(** A save touches no file but the named one, whatever its result. *)
Definition touches_only (to_file : bool -> bool -> bool -> disk -> cstr -> outcome (disk * bool)) : Prop :=
  forall compact nl can_open d name d' b, to_file compact nl can_open d name = Ok (d', b) -> forall n, n <> name -> d' n = d n.
(** A file that cannot be opened makes the save fail and changes nothing. *)
Definition needs_file (to_file : bool -> bool -> bool -> disk -> cstr -> outcome (disk * bool)) : Prop :=
  forall compact nl d name, to_file compact nl false d name = Ok (d, false).

(** * UTF-16 (RFC 2781) *)
Definition rfc_utf16 (c : Z) : list Z :=
  if c <? 65536 then [c] else [55296 + (c - 65536) / 1024; 56320 + (c - 65536) mod 1024].
Definition utf16be (cps : list Z) : list Z := 254 :: 255 :: flat_map (fun w => [w / 256; w mod 256]) (flat_map rfc_utf16 cps).
Definition utf16le (cps : list Z) : list Z := 255 :: 254 :: flat_map (fun w => [w mod 256; w / 256]) (flat_map rfc_utf16 cps).
(** Characters UTF-16 can encode: no surrogates. *)
Definition scalar (c : Z) : Prop := ~ 55296 <= c <= 57343.
(** The reader takes the last second surrogate, DFFF, for an error. *)
Definition readable16 (c : Z) : Prop := c < 65536 \/ c mod 1024 <> 1023.
