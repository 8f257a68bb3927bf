(** * The datagram of a fresh PDU. Vocabulary for C57 (specification only). *)
From Verif Require Import Base EnumModel Enums Header PduMacro DataTypes Pdus Spec SpecTables Wire.

(** Offsets, in the datagram, of the simulation addresses (site and application, 2 bytes
    each) that a fresh PDU of the class holds; most classes start with two identifiers of 6
    bytes. *)
Definition address_table : list (string * list nat) := [
  ("DesignatorPdu", [12; 20]); ("SupplementalEmissionPdu", [12]); ("EntityStatePdu", [12]);
  ("CollisionPdu", [12; 18; 24]); ("CollisionElasticPdu", [12; 18; 24]); ("EntityStateUpdatePdu", [12]);
  ("AttributePdu", [12]); ("AggregateStatePdu", []); ("IsGroupOfPdu", [12]);
  ("TransferOwnershipPdu", [12; 18; 30]); ("InformationOperationsReportPdu", [12; 22; 28]);
  ("InformationOperationsActionPdu", [12; 18; 40; 46]); ("MinefieldStatePdu", [12]); ("TransmitterPdu", [12]);
  ("SignalPdu", [12]); ("ReceiverPdu", [12; 28]); ("IntercomSignalPdu", [12]); ("IntercomControlPdu", [14; 26]);
  ("EnvironmentalProcessPdu", [12]); ("GriddedDataPdu", [12]); ("PointObjectStatePdu", [12; 18; 76; 80]);
  ("LinearObjectStatePdu", [12; 18; 28; 32]); ("ArealObjectStatePdu", [12; 18; 40; 44]);
  ("FirePdu", [12; 18; 24; 30]); ("DetonationPdu", [12; 18; 24; 30]); ("EntityDamageStatusPdu", [12])]%string%nat.
Definition address_offsets (name : string) : list nat :=
  match assoc name address_table with Some l => l | None => [12; 18]%nat end.

(** Every fresh address is site 1, application 1; the flag of a fresh acknowledgement is 1;
    all else is zero. *)
Definition fresh_byte (name : string) (i : nat) : N :=
  if existsb (fun o => (i =? o + 1)%nat || (i =? o + 3)%nat) (address_offsets name) then 1
  else if (String.eqb name "AcknowledgePdu" || String.eqb name "AcknowledgeReliablePdu") && (i =? 25)%nat then 1
  else 0.

(** Total bytes, given the size in bits of the table. *)
Definition fresh_size (name : string) (bits : N) : nat :=
  if String.eqb name "EntityStatePdu" then 133%nat else N.to_nat (bits / 8).

(** Version 7, exercise 1, type, family, timestamp, length, status 0, padding 0, fields. *)
Definition fresh_datagram (name : string) (t f bits ts : N) : bytes :=
  map B [7; 1; t; f] ++ big_endian 4 ts ++ big_endian 2 (bits / 8) ++ map B [0; 0] ++
  map (fun i => B (fresh_byte name i)) (seq 12 (fresh_size name bits - 12)).

(** ** Length-delimited records (C58) *)
(** The reader [r] takes [n] bytes: with [n = 0] it returns [empty] and reads nothing;
    otherwise it returns the next [n] bytes wrapped by [mk], panicking when fewer are there
    or when [n] exceeds [limit]. *)
Definition takes {T} (n limit : N) (mk : bytes -> T) (empty : T) (r : reader T) : Prop := forall bs : bytes,
  (n = 0 -> r bs = Ok (empty, bs)) /\
  (0 < n <= limit -> n <= N.of_nat (length bs) -> r bs = Ok (mk (firstn (N.to_nat n) bs), skipn (N.to_nat n) bs)) /\
  (0 < n <= limit -> N.of_nat (length bs) < n -> r bs = Panic Underflow) /\
  (limit < n -> r bs = Panic ExpectFailed).
