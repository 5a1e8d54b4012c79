(** What an indented save must do. *)
From Verif Require Import CBase XmlModel SpecXml TocXmlModel WsModel.
(** The indented save of either kind succeeds, and its text loads as the compact one. *)
Definition indented_round_trips {A} (decl : bool) (saved : list node * bool) (cb : checked_cb) (load : node -> option A) (x : A) : Prop :=
  forall nl, exists s, save_indented decl saved cb nl = Ok (Some s) /\ load_object load s = Ok (Some x) /\ is_text s.
