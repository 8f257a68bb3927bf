(** * Specification vocabulary for exercises (C76): programs that send and receive PDUs over an
    unreliable datagram network. Nothing here models code; the actions call the modelled API. *)
From Verif Require Import Base EnumModel Enums Header PduMacro DataTypes Pdus PduFields Spec SpecDatum SpecSpecial Wire WireMaps SpecFaults.

(** A receiving program: [PduHeader::get_pdu_type], then [deserialize] of the class of that
    type, if there is one. [None]: not a PDU it can decode. *)
Definition receive (m : profile) (bs : bytes) : outcome (option any_pdu) :=
  match PduHeader_get_pdu_type bs with
  | Panic e => Panic e
  | Ok None => Ok None
  | Ok (Some t) =>
      match find (fun c => enum_eqb (cls_type c) t) (all_pdus m) with
      | None => Ok None
      | Some c =>
          match deserialize c bs with
          | Ok (ROk p, _) => Ok (Some (existT _ c p))
          | Ok (RErr _, _) => Ok None
          | Panic e => Panic e
          end
      end
  end.

(** What happens in an exercise: somebody serializes a PDU into an empty buffer and sends the
    result; or the network hands datagram number [i] to somebody whose receive buffer holds
    [size] bytes (the rest of the datagram is cut off, as by UDP). The network may deliver
    any datagram sent so far, in any order, any number of times, or never. *)
Inductive action := Send (p : any_pdu) | Deliver (i size : nat).
(** What can be observed. *)
Inductive happening :=
| WasSent (p p' : any_pdu) (datagram : bytes)   (* [p'] is [p] as [serialize] left it *)
| NotSent (p : any_pdu) (e : DISError)
| SenderCrashed (p : any_pdu)
| Received (datagram : bytes) (size : nat) (result : outcome (option any_pdu))
| NothingThere.
Fixpoint exercise (m : profile) (acts : list action) (air : list bytes) : list happening :=
  match acts with
  | [] => []
  | Send (existT _ c p) :: acts' =>
      match serialize c p [] with
      | Ok (ROk _, p', d) => WasSent (existT _ c p) (existT _ c p') d :: exercise m acts' (air ++ [d])
      | Ok (RErr e, _, _) => NotSent (existT _ c p) e :: exercise m acts' air
      | Panic _ => SenderCrashed (existT _ c p) :: exercise m acts' air
      end
  | Deliver i size :: acts' =>
      match nth_error air i with
      | Some d => Received d size (receive m (firstn size d)) :: exercise m acts' air
      | None => NothingThere :: exercise m acts' air
      end
  end.
Definition sends (acts : list action) : list any_pdu := flat_map (fun a => match a with Send p => [p] | Deliver _ _ => [] end) acts.

(** The PDUs of the library, with right counts in the four classes that decode a counted
    record (whose decoder otherwise reads past or short of it). *)
Inductive sendable (m : profile) : any_pdu -> Prop :=
| sendable_plain c (p : pdu c) : In c (all_pdus m) ->
    ~ In (cls_name c) ["TransferOwnershipPdu"; "SetRecordReliablePdu"; "InformationOperationsActionPdu"; "InformationOperationsReportPdu"]%string ->
    sendable m (existT _ c p)
| sendable_transfer (p : pdu (TransferOwnershipPdu m)) :
    specification_exact m (TransferOwnershipPdu_record_information p) -> sendable m (existT _ _ p)
| sendable_set_record (p : pdu (SetRecordReliablePdu m)) :
    specification_exact m (SetRecordReliablePdu_record_sets p) -> sendable m (existT _ _ p)
| sendable_action (p : pdu InformationOperationsActionPdu) :
    counted_StandardVariableSpecification (InformationOperationsActionPdu_io_records p) -> sendable m (existT _ _ p)
| sendable_report (p : pdu InformationOperationsReportPdu) :
    counted_StandardVariableSpecification (InformationOperationsReportPdu_io_records p) -> sendable m (existT _ _ p).

(** A PDU of the same class whose numbers, header included, are those of [p] (after what
    decoding makes of them). *)
Definition same_numbers (m : profile) (p q : any_pdu) : Prop :=
  exists x (p' q' : pdu (pm_class x)), In x (wire_maps m) /\ p = existT _ _ p' /\ q = existT _ _ q' /\
    Forall (fun e => en_get e q' = en_norm e (en_put e p')) (datagram_entries x).

(** What the receiver of the first [size] bytes of the datagram of [p] experiences. *)
Definition experience (m : profile) (p : any_pdu) (datagram : bytes) (size : nat) (r : outcome (option any_pdu)) : Prop :=
  ((size < 12)%nat /\ r = Ok None) \/
  ((12 <= size < bytes_needed (class_of p) datagram)%nat /\ r = Panic Underflow) \/
  ((bytes_needed (class_of p) datagram <= size)%nat /\ exists q, r = Ok (Some q) /\ same_numbers m p q).
