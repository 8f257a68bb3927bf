(** * Bit-flag types of [src/common/enums.rs] (declared with [bitflags!]).

    A [bitflags!] value is a transparent wrapper around its integer; [from_bits]
    (of the bitflags crate) accepts an integer iff all its bits are declared.
    Values holding undeclared bits exist as well ([from_bits_retain]), so the
    model's values are arbitrary integers of the declared width. *)
From Verif Require Import Base Header PduMacro.

Record flags (k : nat) (declared : N) := mk_flags { bits : uint k }.
Arguments mk_flags {k declared} bits.
Arguments bits {k declared} f.

(** [bitflags::Flags::empty], [from_bits]. *)
Definition flags_empty {k d} : flags k d := mk_flags (as_uint k 0).
Definition flags_from_bits {k} (d : N) (b : uint k) : option (flags k d) :=
  if N.ldiff (uval b) d =? 0 then Some (mk_flags b) else None.
Definition flags_or_default {k d} (o : option (flags k d)) : flags k d :=
  match o with Some f => f | None => flags_empty end.

(** enums.rs:3649-3657: [1 << 0], [1 << 1], [1 << 2]. *)
Definition FrozenBehavior_declared : N := N.shiftl 1 0 + N.shiftl 1 1 + N.shiftl 1 2.
Definition FrozenBehavior := flags 1 FrozenBehavior_declared.
(** enums.rs:3659-3663 [Default]. *)
Definition FrozenBehavior_default : FrozenBehavior := flags_empty.
(** enums.rs:3665-3675. *)
Definition FrozenBehavior_as_u8 (v : FrozenBehavior) : u8 := bits v.
Definition FrozenBehavior_from_u8 (b : u8) : option FrozenBehavior := flags_from_bits _ b.
(** enums.rs:3677-3694: field traits. *)
Definition FrozenBehavior_codec : codec FrozenBehavior :=
  mk_codec (fun v => Ok (put_u8 (FrozenBehavior_as_u8 v)))
           (let* b := get_u8 in ret (flags_or_default (FrozenBehavior_from_u8 b)))
           (fun _ => 1).

(** enums.rs:9414-9426: bits 0, 8, 10, 11, 12, 13, 14. *)
Definition ObjectStateAppearanceGeneral_declared : N :=
  N.shiftl 1 0 + N.shiftl 1 8 + N.shiftl 1 10 + N.shiftl 1 11 + N.shiftl 1 12 + N.shiftl 1 13 + N.shiftl 1 14.
Definition ObjectStateAppearanceGeneral := flags 2 ObjectStateAppearanceGeneral_declared.
(** enums.rs:9428-9432 [Default]. *)
Definition ObjectStateAppearanceGeneral_default : ObjectStateAppearanceGeneral := flags_empty.
(** enums.rs:9434-9444. *)
Definition ObjectStateAppearanceGeneral_as_u16 (v : ObjectStateAppearanceGeneral) : u16 := bits v.
Definition ObjectStateAppearanceGeneral_from_u16 (b : u16) : option ObjectStateAppearanceGeneral := flags_from_bits _ b.
(** enums.rs:9446-9463: field traits. *)
Definition ObjectStateAppearanceGeneral_codec : codec ObjectStateAppearanceGeneral :=
  mk_codec (fun v => Ok (put_u16 (ObjectStateAppearanceGeneral_as_u16 v)))
           (let* b := get_u16 in ret (flags_or_default (flags_from_bits _ b)))
           (fun _ => 2).

(** enums.rs:1346-1378. *)
Definition LandPlatformAppearance_declared : N :=
  fold_right (fun b acc => N.shiftl 1 b + acc) 0
    [0; 1; 2; 3; 5; 6; 7; 9; 12; 13; 14; 15; 16; 17; 19; 21; 22; 23; 24; 25; 26; 27; 28; 29; 30; 31].
Definition LandPlatformAppearance := flags 4 LandPlatformAppearance_declared.
(** enums.rs:1380-1384 [Default], 1386-1396. *)
Definition LandPlatformAppearance_default : LandPlatformAppearance := flags_empty.
Definition LandPlatformAppearance_as_u32 (v : LandPlatformAppearance) : u32 := bits v.
Definition LandPlatformAppearance_from_u32 (b : u32) : option LandPlatformAppearance := flags_from_bits _ b.
