(** * Specification vocabulary for sets of flags (C84): how a program may build a value, which
    flags are then in it, and the appearance fields of the standard. *)
From Coq Require Import String.
From Verif Require Import Base Bitflags Flags.

Record flag_type := mk_flag_type { ft_name : string; ft_bytes : nat; ft_all : N; ft_flags : list (string * N) }.
Definition flag_types : list flag_type := [
  mk_flag_type "FrozenBehavior" 1 FrozenBehavior_declared FrozenBehavior_flags;
  mk_flag_type "ObjectStateAppearanceGeneral" 2 ObjectStateAppearanceGeneral_declared ObjectStateAppearanceGeneral_flags;
  mk_flag_type "LandPlatformAppearance" 4 LandPlatformAppearance_declared LandPlatformAppearance_flags
].
Definition ft_value (t : flag_type) : Type := flags (ft_bytes t) (ft_all t).

(** Expressions over named flags. [Raw] is [from_bits_truncate]. *)
Inductive fexpr (t : flag_type) :=
| Named (name : string) | Nothing | Everything | Raw (b : uint (ft_bytes t))
| Union (a b : fexpr t) | Inter (a b : fexpr t) | Minus (a b : fexpr t) | Toggle (a b : fexpr t)
| Not (a : fexpr t) | SetTo (a b : fexpr t) (v : bool).
Arguments Named {t}. Arguments Nothing {t}. Arguments Everything {t}. Arguments Raw {t}. Arguments Union {t}.
Arguments Inter {t}. Arguments Minus {t}. Arguments Toggle {t}. Arguments Not {t}. Arguments SetTo {t}.

Definition bit_of (t : flag_type) (name : string) : option N :=
  option_map snd (find (fun p => String.eqb (fst p) name) (ft_flags t)).
(** Only names that exist (others do not compile). *)
Fixpoint well_named {t} (e : fexpr t) : Prop :=
  match e with
  | Named n => In n (map fst (ft_flags t))
  | Nothing | Everything | Raw _ => True
  | Union a b | Inter a b | Minus a b | Toggle a b => well_named a /\ well_named b
  | Not a => well_named a
  | SetTo a b _ => well_named a /\ well_named b
  end.
Fixpoint value_of {t} (e : fexpr t) : ft_value t :=
  match e with
  | Named n => match bit_of t n with Some b => flag b | None => flags_empty end
  | Nothing => flags_empty
  | Everything => flags_all
  | Raw b => from_bits_truncate b
  | Union a b => f_union (value_of a) (value_of b)
  | Inter a b => f_intersection (value_of a) (value_of b)
  | Minus a b => f_difference (value_of a) (value_of b)
  | Toggle a b => f_symmetric_difference (value_of a) (value_of b)
  | Not a => f_complement (value_of a)
  | SetTo a b v => f_set (value_of a) (value_of b) v
  end.
(** The set of names the expression stands for. *)
Fixpoint member {t} (e : fexpr t) (name : string) : bool :=
  match e with
  | Named n => String.eqb n name
  | Nothing => false
  | Everything => true
  | Raw b => match bit_of t name with Some i => N.testbit (uval b) i | None => false end
  | Union a b => member a name || member b name
  | Inter a b => member a name && member b name
  | Minus a b => member a name && negb (member b name)
  | Toggle a b => xorb (member a name) (member b name)
  | Not a => negb (member a name)
  | SetTo a b v => if member b name then v else member a name
  end.

(** Fields of the standard's appearance records (SISO-REF-010 UID 31 and 229), bits [lo] to
    [lo + w - 1]. *)
Definition field_at (lo w raw : N) : N := raw / 2 ^ lo mod 2 ^ w.
Definition land_damage := field_at 3 2.
Definition land_dust := field_at 7 2.
Definition land_hatch := field_at 9 3.
Definition land_camouflage := field_at 17 2.
Definition land_unused_bit := field_at 20 1.
Definition object_percent_complete := field_at 0 8.
Definition object_damage := field_at 8 2.
Definition object_unused_bit := field_at 15 1.
