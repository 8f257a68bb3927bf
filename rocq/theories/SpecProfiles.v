(** * Specification vocabulary for build profiles (C60). *)
From Verif Require Import Base Header PduMacro DataTypes Pdus PduFields Spec SpecDatum.

(** A debug build ([Checked]) gives exactly the outcome of a release build ([Wrapping]), or
    panics with an arithmetic overflow. *)
Definition agree {A} (debug release : outcome A) : Prop :=
  match debug with
  | Panic ArithOverflow => True
  | _ => release = debug
  end.
(** The same PDU value in a build of the other profile (same header, same fields). *)
Definition in_release {f : profile -> pdu_class} (same : values (cls_fields (f Checked)) -> values (cls_fields (f Wrapping)))
  (p : pdu (f Checked)) : pdu (f Wrapping) := mk_pdu (header p) (same (body p)).
Definition transfer_in_release : pdu (TransferOwnershipPdu Checked) -> pdu (TransferOwnershipPdu Wrapping) :=
  in_release (f := TransferOwnershipPdu) (fun b => b).
Definition set_record_in_release : pdu (SetRecordReliablePdu Checked) -> pdu (SetRecordReliablePdu Wrapping) :=
  in_release (f := SetRecordReliablePdu) (fun b => b).

(** Renaming the PDU type in results. *)
Definition sent_as {A B} (f : A -> B) (o : outcome (result unit DISError * A * bytes)) : outcome (result unit DISError * B * bytes) :=
  match o with Ok (r, p, buf) => Ok (r, f p, buf) | Panic e => Panic e end.
Definition received_as {A B} (f : A -> B) (o : outcome (result A DISError * bytes)) : outcome (result B DISError * bytes) :=
  match o with
  | Ok (ROk p, rest) => Ok (ROk (f p), rest)
  | Ok (RErr e, rest) => Ok (RErr e, rest)
  | Panic e => Panic e
  end.
