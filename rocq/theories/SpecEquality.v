(** * Specification vocabulary for equality (C59). *)
From Verif Require Import Base DataTypes.

(** Bit patterns of NaNs and zeros (IEEE 754: the sign is the top bit). *)
Definition nan32 (x : f32) : Prop := 0x7F800000 < uval x mod 2 ^ 31.
Definition zero32 (x : f32) : Prop := uval x mod 2 ^ 31 = 0.
Definition nan64 (x : f64) : Prop := 0x7FF0000000000000 < uval x mod 2 ^ 63.
Definition zero64 (x : f64) : Prop := uval x mod 2 ^ 63 = 0.
(** The same number: no NaN, and the same bits or two zeros. *)
Definition same32 (x y : f32) : Prop := ~ nan32 x /\ ~ nan32 y /\ (x = y \/ zero32 x /\ zero32 y).
Definition same64 (x y : f64) : Prop := ~ nan64 x /\ ~ nan64 y /\ (x = y \/ zero64 x /\ zero64 y).

(** [==] decides identity, and identity of the encodings. *)
Definition decides_encoding {T} (eq : T -> T -> bool) (enc : T -> bytes) : Prop :=
  forall a b, (eq a b = true <-> a = b) /\ (eq a b = true <-> enc a = enc b).
(** The contract of [PartialEq]: symmetric and transitive. *)
Definition partial_equality {T} (eq : T -> T -> bool) : Prop :=
  (forall a b, eq a b = true -> eq b a = true) /\ (forall a b c, eq a b = true -> eq b c = true -> eq a c = true).

Definition vector_components (v : Vector3Float) : list f32 := [Vector3Float_x v; Vector3Float_y v; Vector3Float_z v].
(** The floats in a grid axis and in grid data. *)
Definition axis_floats (v : GridAxisType) : list f64 :=
  match v with FixedSpacing _ _ => [] | VariableSpacing _ _ s o _ _ => [s; o] end.
Definition data_floats (v : DataRepresentationType) : list f32 :=
  match v with Type0 _ _ _ => [] | Type1 s o _ _ _ => [s; o] | Type2 _ _ d => d end.
(** The same value up to the floats, which are the same numbers. *)
Definition same_axis (a b : GridAxisType) : Prop :=
  match a, b with
  | FixedSpacing n i, FixedSpacing n' i' => n = n' /\ i = i'
  | VariableSpacing n i s o xs p, VariableSpacing n' i' s' o' xs' p' =>
      n = n' /\ i = i' /\ same64 s s' /\ same64 o o' /\ xs = xs' /\ p = p'
  | _, _ => False
  end.
Definition same_data (a b : DataRepresentationType) : Prop :=
  match a, b with
  | Type0 n d p, Type0 n' d' p' => n = n' /\ d = d' /\ p = p'
  | Type1 s o n d p, Type1 s' o' n' d' p' => same32 s s' /\ same32 o o' /\ n = n' /\ d = d' /\ p = p'
  | Type2 n p d, Type2 n' p' d' => n = n' /\ p = p' /\ Forall2 same32 d d'
  | _, _ => False
  end.
