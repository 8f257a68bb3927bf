(** * Generated methods of the PDU status record and of its enumerations (pdu_header.rs:27-36, enums.rs)

    [#[bitfield(bits = 8)]] generates for every public field, next to the getter and the setter of
    Header.v, the methods [x_or_err], [set_x_checked], [with_x] and [with_x_checked], and for the
    record [into_bytes] and [from_bytes]; [#[derive(Specifier)]] with [#[bits = w]] gives an
    enumeration [Specifier::into_bytes] and [Specifier::from_bytes]. They are generated by the crate
    modular-bitfield 0.13 (Cargo.toml:19), whose source is not part of /repo: this file transcribes its
    documented behaviour. *)
From Verif Require Import Base EnumModel Enums Header.

(** enums.rs:10325-12085: the enumerations with [#[derive(Specifier)]] and their [#[bits = w]]. *)
Definition specifier_enums : list (enum_spec * N) := [
  (TransferredEntityIndicator_spec, 1);        (* enums.rs:10325-10331 *)
  (LVCIndicator_spec, 2);                      (* enums.rs:10341-10349 *)
  (CoupledExtensionIndicator_spec, 1);         (* enums.rs:10359-10365 *)
  (FireTypeIndicator_spec, 1);                 (* enums.rs:10375-10381 *)
  (DetonationTypeIndicator_spec, 2);           (* enums.rs:10391-10398 *)
  (RadioAttachedIndicator_spec, 2);            (* enums.rs:10424-10431 *)
  (IntercomAttachedIndicator_spec, 2);         (* enums.rs:10457-10464 *)
  (PduStatusIFFSimulationMode_spec, 1);        (* enums.rs:10490-10496 *)
  (ActiveInterrogationIndicator_spec, 1)       (* enums.rs:12084-12090 *)
].
(** [Specifier::into_bytes]: [Ok(v as u8)]. *)
Definition Specifier_into_bytes {e} (v : enum e) : result u8 unit := ROk (as_u8 (code v)).
(** [Specifier::from_bytes]: the variant with this discriminant, or [InvalidBitPattern { invalid_bytes }]. *)
Definition Specifier_from_bytes (e : enum_spec) (b : u8) : result (enum e) u8 :=
  match enum_from e (uval b) with Some v => ROk v | None => RErr b end.

(** [x_or_err] of an enumeration field. *)
Definition bits_or_err (e : enum_spec) (off w : N) (s : PduStatusRecord) : result (enum e) u8 :=
  Specifier_from_bytes e (as_u8 (bits_get off w (status_byte s))).
Definition sr_tei_or_err : PduStatusRecord -> result TransferredEntityIndicator u8 := bits_or_err _ 0 1.
Definition sr_lvc_or_err : PduStatusRecord -> result LVCIndicator u8 := bits_or_err _ 1 2.
Definition sr_cei_or_err : PduStatusRecord -> result CoupledExtensionIndicator u8 := bits_or_err _ 3 1.
(** [with_x]: the setter on an owned record, which it returns. *)
Definition sr_with_tei (s : PduStatusRecord) (x : TransferredEntityIndicator) : PduStatusRecord := sr_set_tei x s.
Definition sr_with_lvc (s : PduStatusRecord) (x : LVCIndicator) : PduStatusRecord := sr_set_lvc x s.
Definition sr_with_cei (s : PduStatusRecord) (x : CoupledExtensionIndicator) : PduStatusRecord := sr_set_cei x s.
Definition sr_with_bit4_5 (s : PduStatusRecord) (v : u8) : outcome PduStatusRecord := sr_set_bit4_5 v s.
(** [set_bit4_5_checked]: [Err(OutOfBounds)], and the record as it was, when the value needs more than 2 bits. *)
Definition sr_set_bit4_5_checked (v : u8) (s : PduStatusRecord) : result unit unit * PduStatusRecord :=
  if uval v <? 4 then (ROk tt, mk_status (bits_set 4 2 (uval v) (status_byte s))) else (RErr tt, s).
(** [into_bytes] and [from_bytes]: the one byte. *)
Definition sr_into_bytes (s : PduStatusRecord) : bytes := [status_byte s].
Definition sr_from_bytes (b : byte) : PduStatusRecord := mk_status b.
