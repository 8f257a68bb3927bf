(** * Vocabulary for the complete specification of decoding (specification only). *)
From Verif Require Import Base EnumModel Enums Header PduMacro DataTypes Bitflags Pdus PduFields Spec SpecDatum Wire WireMaps SpecFaults SpecLayout SpecSpecial.

(** Classes whose decoded values consist of fixed numbers and (unread) lists: all but seven. *)
Definition irregular_pdus : list string := [
  "EntityStatePdu"; "TransmitterPdu"; "AggregateStatePdu"; "TransferOwnershipPdu"; "SetRecordReliablePdu";
  "InformationOperationsActionPdu"; "InformationOperationsReportPdu"]%string.
Definition regular (c : pdu_class) : Prop := mem_string (cls_name c) irregular_pdus = false.
