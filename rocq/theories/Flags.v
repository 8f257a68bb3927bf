(** * The set operations of the [bitflags!] types.

    [bitflags!] (crate bitflags 2.5, Cargo.toml:16) gives the three types of [Bitflags] named
    constants and set operations; modelled from that crate's documentation (its source is not
    in the repository). *)
From Coq Require Import String.
From Verif Require Import Base PduMacro Bitflags.

(** [Flags::all().bits()] is [declared]; values are [flags k declared]. *)
Section ops.
Context {k : nat} {d : N}.
Definition flag (b : N) : flags k d := mk_flags (as_uint k (N.shiftl 1 b)).
Definition flags_all : flags k d := mk_flags (as_uint k d).
Definition from_bits_truncate (b : uint k) : flags k d := mk_flags (as_uint k (N.land (uval b) d)).
Definition from_bits_retain (b : uint k) : flags k d := mk_flags b.
Definition f_union (a b : flags k d) : flags k d := mk_flags (as_uint k (N.lor (uval (bits a)) (uval (bits b)))).
Definition f_intersection (a b : flags k d) : flags k d := mk_flags (as_uint k (N.land (uval (bits a)) (uval (bits b)))).
Definition f_difference (a b : flags k d) : flags k d := mk_flags (as_uint k (N.ldiff (uval (bits a)) (uval (bits b)))).
Definition f_symmetric_difference (a b : flags k d) : flags k d := mk_flags (as_uint k (N.lxor (uval (bits a)) (uval (bits b)))).
(** [from_bits_truncate(!bits)]. *)
Definition f_complement (a : flags k d) : flags k d :=
  from_bits_truncate (as_uint k (N.lnot (uval (bits a)) (8 * N.of_nat k))).
(** [set(other, value)]: insert or remove. *)
Definition f_set (a b : flags k d) (v : bool) : flags k d := if v then f_union a b else f_difference a b.
Definition f_contains (a b : flags k d) : bool := N.land (uval (bits a)) (uval (bits b)) =? uval (bits b).
Definition f_intersects (a b : flags k d) : bool := negb (N.land (uval (bits a)) (uval (bits b)) =? 0).
Definition f_is_empty (a : flags k d) : bool := uval (bits a) =? 0.
Definition f_is_all (a : flags k d) : bool := N.lor d (uval (bits a)) =? uval (bits a).
End ops.

(** The named constants: name and bit. enums.rs:3652-3654. *)
Definition FrozenBehavior_flags : list (string * N) :=
  [("RunSimulationClock", 0); ("TransmitUpdates", 1); ("ProcessUpdates", 2)]%string.
(** enums.rs:9417-9424. *)
Definition ObjectStateAppearanceGeneral_flags : list (string * N) :=
  [("PercentComplete", 0); ("Damage", 8); ("Predistributed", 10); ("State", 11); ("IsSmoking", 12); ("IsFlaming", 13);
   ("IEDPresent", 14)]%string.
(** enums.rs:1349-1376. *)
Definition LandPlatformAppearance_flags : list (string * N) :=
  [("PaintScheme", 0); ("MobilityKilled", 1); ("FirePowerKilled", 2); ("Damage", 3); ("IsSmokeEmanating", 5);
   ("IsEngineEmittingSmoke", 6); ("TrailingDustCloud", 7); ("PrimaryHatch", 9); ("HeadLightsOn", 12); ("TailLightsOn", 13);
   ("BrakeLightsOn", 14); ("IsFlaming", 15); ("LauncherOperational", 16); ("CamouflageType", 17); ("ConcealedPosition", 19);
   ("IsFrozen", 21); ("PowerPlantOn", 22); ("State", 23); ("TentExtended", 24); ("RampExtended", 25); ("BlackoutLightsOn", 26);
   ("BlackoutBrakeLightsOn", 27); ("SpotSearchLight1On", 28); ("InteriorLightsOn", 29); ("OccupantsSurrendered", 30);
   ("MaskedCloaked", 31)]%string.
