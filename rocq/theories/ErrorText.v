(** * Error values and their texts: src/common/dis_error.rs.
    [Display] is derived by thiserror from the [#[error("...")]] attributes; [{x}] in a
    format string is the [Display] text of [x], [{x:?}] its derived [Debug] text, i.e. the
    variant name of a field-less enumeration. *)
From Coq Require Import String DecimalString.
From Verif Require Import Base EnumModel Enums Header.
Local Open Scope string_scope.
Local Open Scope list_scope.

(** Variant names of [PduType] (enums.rs:41-116) and of [ProtocolVersion] (enums.rs:20-30), in
    the order of their discriminants 0..72 and 0..7. *)
Definition PduType_names : list string := [
  "Other"; "EntityState"; "Fire"; "Detonation"; "Collision"; "ServiceRequest"; "ResupplyOffer";
  "ResupplyReceived"; "ResupplyCancel"; "RepairComplete"; "RepairResponse"; "CreateEntity";
  "RemoveEntity"; "StartResume"; "StopFreeze"; "Acknowledge"; "ActionRequest"; "ActionResponse";
  "DataQuery"; "SetData"; "Data"; "EventReport"; "Comment"; "ElectromagneticEmission";
  "Designator"; "Transmitter"; "Signal"; "Receiver"; "IFF"; "UnderwaterAcoustic";
  "SupplementalEmission"; "IntercomSignal"; "IntercomControl"; "AggregateState"; "IsGroupOf";
  "TransferOwnership"; "IsPartOf"; "MinefieldState"; "MinefieldQuery"; "MinefieldData";
  "MinefieldResponseNack"; "EnvironmentalProcess"; "GriddedData"; "PointObjectState";
  "LinearObjectState"; "ArealObjectState"; "TimeSpacePositionInformation"; "Appearance";
  "ArticulatedParts"; "LiveEntityFire"; "LiveEntityDetonation"; "CreateEntityReliable";
  "RemoveEntityReliable"; "StartResumeReliable"; "StopFreezeReliable"; "AcknowledgeReliable";
  "ActionRequestReliable"; "ActionResponseReliable"; "DataQueryReliable"; "SetDataReliable";
  "DataReliable"; "EventReportReliable"; "CommentReliable"; "RecordReliable"; "SetRecordReliable";
  "RecordQueryReliable"; "CollisionElastic"; "EntityStateUpdate"; "DirectedEnergyFire";
  "EntityDamageStatus"; "InformationOperationsAction"; "InformationOperationsReport"; "Attribute"].
Definition ProtocolVersion_names : list string := [
  "Other"; "DIS_PDUv1"; "IEEE1278_1993"; "DIS_PDUv2_Third_Draft"; "DIS_PDUv2_Fourth_Draft_Revised";
  "IEEE1278_1_1995"; "IEEE1278_1A_1998"; "IEEE1278_1_2012"].
(** [derive(Debug)] on them (enums.rs:19 and 40). *)
Definition PduType_debug (t : PduType) : string := nth (N.to_nat (code t)) PduType_names "".
Definition ProtocolVersion_debug (v : ProtocolVersion) : string := nth (N.to_nat (code v)) ProtocolVersion_names "".

(** dis_error.rs:12-18, with its derived [Debug]. *)
Inductive PduState := Uninitialized | HeaderValid | BodyValid | Complete.
Definition PduState_debug (s : PduState) : string :=
  match s with Uninitialized => "Uninitialized" | HeaderValid => "HeaderValid" | BodyValid => "BodyValid" | Complete => "Complete" end.

(** dis_error.rs:20-70: all nine variants. The [source] of the first three is left out (it does
    not occur in the text, and the library always passes [None]); the wrapped
    [std::io::Error] of [NetworkError] is represented by its own text. *)
Inductive dis_error :=
| EInvalidHeader (reason : string)
| EDeserializationError (msg : string)
| ESerializationError (msg : string)
| EInvalidStateTransition (current_state target_state : PduState)
| EProtocolVersionMismatch (expected got : ProtocolVersion)
| EInvalidFieldValue (field value reason : string)
| EBufferUnderflow (attempted available : N)
| ENetworkError (text : string)
| EPduSizeExceeded (size max_size : N).

(** [Display] of [usize]. *)
Definition decimal (n : N) : string := NilZero.string_of_uint (N.to_uint n).

Local Notation "a +++ b" := (String.append a b) (at level 60, right associativity).
(** The [#[error("...")]] attributes, dis_error.rs:23-69. *)
Definition display (e : dis_error) : string :=
  match e with
  | EInvalidHeader reason => "Invalid PDU header: " +++ reason
  | EDeserializationError msg => "PDU deserialization error: " +++ msg
  | ESerializationError msg => "PDU serialization error: " +++ msg
  | EInvalidStateTransition c t => "Invalid PDU state transition: " +++ PduState_debug c +++ " -> " +++ PduState_debug t
  | EProtocolVersionMismatch e g =>
      "Protocol version mismatch: expected " +++ ProtocolVersion_debug e +++ ", got " +++ ProtocolVersion_debug g
  | EInvalidFieldValue f v r => "Invalid field value: " +++ f +++ " = " +++ v +++ ", " +++ r
  | EBufferUnderflow a v =>
      "Buffer underflow: tried to read " +++ decimal a +++ " bytes, but only " +++ decimal v +++ " bytes remain"
  | ENetworkError t => "Network error: " +++ t
  | EPduSizeExceeded s m => "PDU size exceeds maximum allowed: " +++ decimal s +++ " > " +++ decimal m
  end.

(** Constructor functions, dis_error.rs:72-130 (without the [source] arguments). *)
Definition invalid_header (reason : string) : dis_error := EInvalidHeader reason.
Definition deserialization_error (msg : string) : dis_error := EDeserializationError msg.
Definition serialization_error (msg : string) : dis_error := ESerializationError msg.
Definition invalid_field (field value reason : string) : dis_error := EInvalidFieldValue field value reason.
Definition buffer_underflow (attempted available : N) : dis_error := EBufferUnderflow attempted available.
Definition pdu_size_exceeded (size max_size : N) : dis_error := EPduSizeExceeded size max_size.

(** The value behind the two errors of [Header.DISError]: pdu_macro.rs:331-334 formats the two
    types into the reason; pdu_header/calculate_length pass the sizes on. *)
Definition full_error (e : DISError) : dis_error :=
  match e with
  | InvalidHeader expected got =>
      invalid_header ("Expected PDU type " +++ PduType_debug expected +++ ", got " +++ PduType_debug got)
  | Header.PduSizeExceeded size max_size => pdu_size_exceeded size max_size
  end.
