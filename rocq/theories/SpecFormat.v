(** What is asked of the boxing library, and how a client gets a boxing format. *)
From Verif Require Import CBase ControlModel FormatModel.

(** boxing_config_is_equal is an equivalence, a clone equals its original, and equal configurations
    give the same frame and the same answers. *)
Definition lawful (L : library) : Prop :=
  (forall a, lib_equal L a a = true) /\
  (forall a b, lib_equal L a b = lib_equal L b a) /\
  (forall a b c, lib_equal L a b = true -> lib_equal L b c = true -> lib_equal L a c = true) /\
  (forall a, lib_equal L None (Some a) = false) /\
  (forall a, lib_equal L (Some (lib_clone L a)) (Some a) = true) /\
  (forall a b, lib_equal L (Some a) (Some b) = true ->
     lib_frame L a = lib_frame L b /\ lib_stripe L a = lib_stripe L b /\
     (forall cls key, lib_property L a cls key = lib_property L b cls key /\ lib_is_set L a cls key = lib_is_set L b cls key /\
        lib_int L a cls key = lib_int L b cls key /\ lib_uint L a cls key = lib_uint L b cls key) /\
     (forall x y, lib_packet L x y a = lib_packet L x y b)).
(** A format given a configuration by creation or by the setter. *)
Definition given (L : library) (c : option config) (f : boxing_format) : Prop :=
  (c = None /\ format_create L = Some f) \/ format_create2 L c = Some f \/ exists g, format_set_config L g c = Some f.
(** Any format a client can hold, except one made by afs_boxing_format_init. *)
Inductive held (L : library) : boxing_format -> Prop :=
| held_given c f : given L c f -> held L f
| held_clone f g : held L f -> format_clone L f = Ok g -> held L g.
