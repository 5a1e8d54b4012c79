(** Boxing formats: src/controlframe/boxingformat.c, with the quantities derived from the
    configuration. The boxing library (frame factory, codecs, configuration) is not in the
    repository: what this code asks of it is the record [library]. *)
From Verif Require Import CBase BoxModel ControlModel.

(** What the code reads from a boxing_frame: frame->size, container->dimension, container->capasity,
    frame->levels_per_symbol. *)
Record frame := mkBoxFrame { fr_width : Z; fr_height : Z; fr_data_width : Z; fr_data_height : Z; fr_capacity : Z; fr_levels : Z }.
Record library := mkLibrary {
  (* boxing_generic_frame_factory_create: NULL when no frame can be built *)
  lib_frame : config -> option frame;
  (* boxing_config_property *)
  lib_property : config -> cstr -> cstr -> option cstr;
  (* boxing_config_is_set, boxing_config_property_int, boxing_config_property_uint *)
  lib_is_set : config -> cstr -> cstr -> bool;
  lib_int : config -> cstr -> cstr -> Z;
  lib_uint : config -> cstr -> cstr -> Z;
  (* boxing_codecdispatcher_get_stripe_size *)
  lib_stripe : config -> Z;
  (* boxing_codecdispatcher_create(capacity, levels, config, "DataCodingScheme") followed by
     boxing_codecdispatcher_get_decoded_packet_size *)
  lib_packet : Z -> Z -> config -> Z;
  (* boxing_config_is_equal, boxing_config_clone (NULL for NULL) *)
  lib_equal : option config -> option config -> bool;
  lib_clone : config -> config }.
(** inc/boxingformat.h without the reference count. *)
Record derived := mkDerived {
  d_name : option cstr; d_bytes : Z; d_data_bytes : Z; d_stripe : Z; d_scaling : Z; d_width : Z; d_height : Z;
  d_data_width : Z; d_data_height : Z; d_bits : Z; d_symbols : Z }.
(** [None] for the derived fields: never written. *)
Record boxing_format := mkBoxing { fo_config : option config; fo_derived : option derived }.
(** 822-842 *)
Definition empty_derived : derived := mkDerived None 0 0 0 0 0 0 0 0 0 0.
(** 882-895 *)
Definition get_name (L : library) (c : option config) : option cstr :=
  match c with None => None | Some c => lib_property L c (s2z "FormatInfo") (s2z "name") end.
(** 937-961; the names behind FRAME_BUILDER_SCALINGFACTOR are the library's *)
Definition get_scaling (L : library) (c : config) : Z :=
  if lib_is_set L c (s2z "FrameRaster") (s2z "scalingFactor") then u32 (lib_int L c (s2z "FrameRaster") (s2z "scalingFactor"))
  else if negb (lib_is_set L c (s2z "BaseBuilder") (s2z "scalingFactor")) then 1
  else lib_uint L c (s2z "BaseBuilder") (s2z "scalingFactor").
(** 845-879. None: the loop of get_bits_per_pixel (1023, see C07) does not end; 31 rounds are enough
    for every int that is positive. [1 << bits_per_pixel] in 918 is 2^bits. *)
Definition init_derived (L : library) (c : option config) : option derived :=
  match c with
  | None => Some empty_derived
  | Some c =>
    match lib_frame L c with
    | None => Some empty_derived
    | Some fr =>
      match bits_per_pixel 31 (fr_levels fr) with
      | None => None
      | Some bits =>
        Some (mkDerived (get_name L (Some c))
                (bytes_per_frame (fr_capacity fr) bits)
                (lib_packet L (fr_capacity fr) (2 ^ bits) c)
                (u32 (lib_stripe L c)) (get_scaling L c)
                (u32 (fr_width fr)) (u32 (fr_height fr)) (u32 (fr_data_width fr)) (u32 (fr_data_height fr))
                bits (symbol_per_pixel bits))
      end
    end
  end.
(** 83-93, 108-113 with 150-161, 329-343 (the format afterwards): None when the call does not end. *)
Definition format_of (c : option config) (d : option derived) : option boxing_format :=
  match d with Some d => Some (mkBoxing c (Some d)) | None => None end.
Definition format_create (L : library) : option boxing_format := format_of None (init_derived L None).
Definition format_create2 (L : library) (c : option config) : option boxing_format :=
  let c' := option_map (lib_clone L) c in format_of c' (init_derived L c').
Definition format_set_config (L : library) (f : boxing_format) (c : option config) : option boxing_format :=
  let c' := option_map (lib_clone L) c in format_of c' (init_derived L c').
(** 126-136 *)
Definition format_init : boxing_format := mkBoxing None None.
(** 201-224; reading a field that was never written is undefined. *)
Definition format_clone (L : library) (f : boxing_format) : outcome boxing_format :=
  let c' := option_map (lib_clone L) (fo_config f) in
  match fo_derived f with
  | None => UB
  | Some d => Ok (mkBoxing c' (Some (mkDerived (get_name L c') (d_bytes d) (d_data_bytes d) (d_stripe d) (d_scaling d)
                    (d_width d) (d_height d) (d_data_width d) (d_data_height d) (d_bits d) (d_symbols d))))
  end.
(** 263-292 for two objects; the configurations are compared first. *)
Definition format_equal (L : library) (a b : boxing_format) : outcome bool :=
  if lib_equal L (fo_config a) (fo_config b) then
    match fo_derived a, fo_derived b with
    | Some x, Some y =>
        Ok (field_equal (d_name x) (d_name y) && (d_bytes x =? d_bytes y) && (d_data_bytes x =? d_data_bytes y) &&
            (d_stripe x =? d_stripe y) && (d_scaling x =? d_scaling y) && (d_width x =? d_width y) && (d_height x =? d_height y) &&
            (d_data_width x =? d_data_width y) && (d_data_height x =? d_data_height y) && (d_bits x =? d_bits y) && (d_symbols x =? d_symbols y))
    | _, _ => UB
    end
  else Ok false.
