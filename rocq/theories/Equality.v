(** * Derived equality ([#[derive(PartialEq)]]): the [==] of the types that have one.

    A derived [==] compares the variants and then the fields with their own [==], stopping at
    the first difference (no effect, so [&&] here). On [f32] and [f64] it is IEEE-754
    equality, modelled by Flocq's [Beqb] on the numbers with the given bit patterns. *)
From Coq Require Import ZArith.
From Flocq Require Import IEEE754.BinarySingleNaN.
From Flocq Require IEEE754.Binary IEEE754.Bits.
From Verif Require Import Base EnumModel Enums Header DataTypes Floats.
Local Open Scope bool_scope.

(** [==] on [u8], [u16], [u32], [u64]. *)
Definition uint_eqb {k} (a b : uint k) : bool := (uval a =? uval b)%N.
(** [==] on [Vec<T>]: equal lengths and equal elements. *)
Fixpoint vec_eqb {A} (eq : A -> A -> bool) (l l' : list A) : bool :=
  match l, l' with
  | [], [] => true
  | x :: t, y :: t' => eq x y && vec_eqb eq t t'
  | _, _ => false
  end.
(** [==] on the enumerations (common/enums.rs, [derive(PartialEq, Eq)]). *)
Definition enum_same {e} (a b : enum e) : bool := (code a =? code b)%N.
(** [==] on [f32] and [f64]. *)
Definition f32_eqb (a b : f32) : bool := f_eqb (f_of_bits a) (f_of_bits b).
Definition f64_of_bits (b : f64) : binary_float 53 1024 := Binary.B2BSN 53 1024 (Bits.b64_of_bits (Z.of_N (uval b))).
Definition f64_eqb (a b : f64) : bool := Beqb (f64_of_bits a) (f64_of_bits b).

(** simulation_address.rs:14. *)
Definition SimulationAddress_eqb (a b : SimulationAddress) : bool :=
  uint_eqb (SimulationAddress_site_id a) (SimulationAddress_site_id b) &&
  uint_eqb (SimulationAddress_application_id a) (SimulationAddress_application_id b).
(** entity_id.rs:13. *)
Definition EntityId_eqb (a b : EntityId) : bool :=
  SimulationAddress_eqb (EntityId_simulation_address a) (EntityId_simulation_address b) &&
  uint_eqb (EntityId_entity_id a) (EntityId_entity_id b).
(** entity_type.rs:15. *)
Definition EntityType_eqb (a b : EntityType) : bool :=
  enum_same (EntityType_kind a) (EntityType_kind b) && uint_eqb (EntityType_domain a) (EntityType_domain b) &&
  enum_same (EntityType_country a) (EntityType_country b) && uint_eqb (EntityType_category a) (EntityType_category b) &&
  uint_eqb (EntityType_subcategory a) (EntityType_subcategory b) && uint_eqb (EntityType_specific a) (EntityType_specific b) &&
  uint_eqb (EntityType_extra a) (EntityType_extra b).
(** vector3_float.rs:11. *)
Definition Vector3Float_eqb (a b : Vector3Float) : bool :=
  f32_eqb (Vector3Float_x a) (Vector3Float_x b) && f32_eqb (Vector3Float_y a) (Vector3Float_y b) &&
  f32_eqb (Vector3Float_z a) (Vector3Float_z b).
(** pdu_header.rs:28: the bitfield is one byte. *)
Definition PduStatusRecord_eqb (a b : PduStatusRecord) : bool := uint_eqb (status_byte a) (status_byte b).
(** pdu_header.rs:136. *)
Definition PduHeader_eqb (a b : PduHeader) : bool :=
  enum_same (protocol_version a) (protocol_version b) && uint_eqb (exercise_id a) (exercise_id b) &&
  enum_same (pdu_type a) (pdu_type b) && enum_same (protocol_family a) (protocol_family b) &&
  uint_eqb (timestamp a) (timestamp b) && uint_eqb (header_length a) (header_length b) &&
  PduStatusRecord_eqb (status_record a) (status_record b) && uint_eqb (header_padding a) (header_padding b).
(** live_entity_pdu_header.rs:15. *)
Definition LiveEntityPduHeader_eqb (a b : LiveEntityPduHeader) : bool :=
  enum_same (le_protocol_version a) (le_protocol_version b) && uint_eqb (le_exercise_id a) (le_exercise_id b) &&
  enum_same (le_pdu_type a) (le_pdu_type b) && enum_same (le_protocol_family a) (le_protocol_family b) &&
  uint_eqb (le_timestamp a) (le_timestamp b) && uint_eqb (le_length a) (le_length b) &&
  enum_same (le_subprotocol_number a) (le_subprotocol_number b) && uint_eqb (le_padding a) (le_padding b).
(** grid_axis_descriptor.rs:13. *)
Definition GridAxisType_eqb (a b : GridAxisType) : bool :=
  match a, b with
  | FixedSpacing n i, FixedSpacing n' i' => uint_eqb n n' && uint_eqb i i'
  | VariableSpacing n i s o xs p, VariableSpacing n' i' s' o' xs' p' =>
      uint_eqb n n' && uint_eqb i i' && f64_eqb s s' && f64_eqb o o' && vec_eqb uint_eqb xs xs' && vec_eqb uint_eqb p p'
  | _, _ => false
  end.
(** grid_data_record.rs:13. *)
Definition DataRepresentationType_eqb (a b : DataRepresentationType) : bool :=
  match a, b with
  | Type0 n d p, Type0 n' d' p' => uint_eqb n n' && vec_eqb uint_eqb d d' && vec_eqb uint_eqb p p'
  | Type1 s o n d p, Type1 s' o' n' d' p' =>
      f32_eqb s s' && f32_eqb o o' && uint_eqb n n' && vec_eqb uint_eqb d d' && vec_eqb uint_eqb p p'
  | Type2 n p d, Type2 n' p' d' => uint_eqb n n' && uint_eqb p p' && vec_eqb f32_eqb d d'
  | _, _ => false
  end.
