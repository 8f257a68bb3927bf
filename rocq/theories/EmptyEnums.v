(** * The three enumerations without variants (enums.rs). *)
From Verif Require Import Base.

(** enums.rs:9465-9473. *)
Inductive GriddedDataFieldNumber : Set := .
Definition GriddedDataFieldNumber_deserialize : reader GriddedDataFieldNumber := rfail NotImplemented.
(** enums.rs:14148-14155. *)
Inductive CivilianSubmarineSubcategories : Set := .
Definition CivilianSubmarineSubcategories_deserialize : reader CivilianSubmarineSubcategories := rfail NotImplemented.
(** enums.rs:14158-14165. *)
Inductive CivilianSubmersibleSubcategories : Set := .
Definition CivilianSubmersibleSubcategories_deserialize : reader CivilianSubmersibleSubcategories := rfail NotImplemented.
