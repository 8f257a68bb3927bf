(** * Specification vocabulary, independent of the proofs.

    Everything a property statement uses besides the model's own API functions
    (serialize, deserialize, ...) is defined here or in [SpecTables]. *)
From Verif Require Import Base EnumModel Header PduMacro.
From Verif Require Export SpecTables.

(** Table lookup by class name. *)
Fixpoint assoc {A} (k : string) (t : list (string * A)) : option A :=
  match t with
  | [] => None
  | (k', a) :: t' => if String.eqb k k' then Some a else assoc k t'
  end.

(** Names of the list fields of a class ([[]] when it has none). *)
Definition list_fields (c : pdu_class) : list string :=
  match assoc (cls_name c) list_fields_table with Some l => l | None => [] end.

(** Size in bytes of a default PDU of the class: the header and all fields that are
    always present. *)
Definition default_size (c : pdu_class) : N :=
  match assoc (cls_name c) pdu_table with Some (_, _, bits) => bits / 8 | None => 0 end.

Definition mem_string (s : string) (l : list string) : bool := existsb (String.eqb s) l.

(** The same body with the named fields replaced by their defaults (the empty list for
    list fields). *)
Fixpoint reset_fields (names : list string) (fs : list field) : values fs -> values fs :=
  match fs return values fs -> values fs with
  | [] => fun v => v
  | f :: fs' => fun v =>
      (if mem_string (f_name f) names then f_default f else fst v, reset_fields names fs' (snd v))
  end.

(** The PDU with all its list fields emptied. *)
Definition clear_lists {c} (p : pdu c) : pdu c :=
  mk_pdu (header p) (reset_fields (list_fields c) (cls_fields c) (body p)).

(** [h'] is [h] with type, family and length replaced; everything else is kept. *)
Definition stamped (t : PduType) (f : ProtocolFamily) (len : u16) (h h' : PduHeader) : Prop :=
  protocol_version h' = protocol_version h /\ exercise_id h' = exercise_id h /\
  timestamp h' = timestamp h /\ status_record h' = status_record h /\ header_padding h' = header_padding h /\
  pdu_type h' = t /\ protocol_family h' = f /\ header_length h' = len.

(** A byte given by its number, and the number at position [i] of a byte string. *)
Definition B (n : N) : byte := as_u8 n.
Definition byte_at (bs : bytes) (i : nat) : N := uval (nth i bs (B 0)).

(** Big-endian numbers at position [i]. *)
Definition be2_at (bs : bytes) (i : nat) : N := 256 * byte_at bs i + byte_at bs (i + 1).
Definition be4_at (bs : bytes) (i : nat) : N :=
  16777216 * byte_at bs i + 65536 * byte_at bs (i + 1) + 256 * byte_at bs (i + 2) + byte_at bs (i + 3).

(** The PDU type number carried by a datagram: its third byte, or 0 (Other) when that is
    not one of the numbers 0..72 assigned by the standard. *)
Definition wire_type (bs : bytes) : N := if byte_at bs 2 <=? 72 then byte_at bs 2 else 0.

(** Big-endian bytes of a number below 256^2 and 256^4, written out. *)
Definition be2 (n : N) : bytes := [B (n / 256); B (n mod 256)].
Definition be4 (n : N) : bytes := [B (n / 16777216); B (n / 65536 mod 256); B (n / 256 mod 256); B (n mod 256)].

(** Bit fields of the status byte: the [w] bits starting at bit [lo] (bit 0 is the least
    significant), and "only these bits differ". *)
Definition bits_of (s : PduStatusRecord) (lo w : N) : N := (uval (status_byte s) / 2 ^ lo) mod 2 ^ w.
Definition only_bits (lo w : N) (s s' : PduStatusRecord) : Prop :=
  forall i, ~ (lo <= i < lo + w) -> N.testbit (uval (status_byte s')) i = N.testbit (uval (status_byte s)) i.

(** The bytes [b] are the encodings of the field values [v], one after the other in
    declaration order. *)
Inductive written : forall fs : list field, values fs -> bytes -> Prop :=
| written_nil : written [] tt []
| written_cons f fs (x : f_type f) (xs : values fs) b bs :
    c_ser (f_codec f) x = Ok b -> written fs xs bs -> written (f :: fs) (x, xs) (b ++ bs).

(** Fields that [serialize] computes itself. *)
Definition auto_len_fields (c : pdu_class) : list string :=
  if String.eqb (cls_name c) "TransmitterPdu" then ["modulation_parameter_length"%string] else [].

(** Classes with fields that are neither of fixed size nor plain trailing lists, or that
    do not survive the wire; they have theorems of their own. *)
Definition special_pdus : list string := [
  "EntityStatePdu";                  (* entity marking *)
  "TransmitterPdu";                  (* length-annotated modulation parameters *)
  "AggregateStatePdu";               (* a count field after the lists *)
  "TransferOwnershipPdu";            (* record specification *)
  "SetRecordReliablePdu";            (* record specification *)
  "InformationOperationsActionPdu";  (* standard variable specification *)
  "InformationOperationsReportPdu";  (* standard variable specification *)
  "StopFreezePdu";                   (* bit flags *)
  "StopFreezeReliablePdu";           (* bit flags *)
  "ArealObjectStatePdu"]%string.     (* bit flags *)
Definition ordinary (c : pdu_class) : Prop := mem_string (cls_name c) special_pdus = false.
(** Classes all of whose fields have a fixed size. *)
Definition fixed_layout (c : pdu_class) : Prop := ordinary c /\ list_fields c = [].

(** Classes with a field whose declared length can differ from the bytes it emits. *)
Definition inexact_length_pdus : list string := [
  "EntityStatePdu";                                     (* entity marking *)
  "GriddedDataPdu";                                     (* grid data records *)
  "TransferOwnershipPdu"; "SetRecordReliablePdu";       (* record specification *)
  (* variable datum records: *)
  "AggregateStatePdu"; "ActionRequestPdu"; "ActionResponsePdu"; "DataQueryPdu"; "SetDataPdu";
  "DataPdu"; "EventReportPdu"; "CommentPdu"; "ActionRequestReliablePdu"; "ActionResponseReliablePdu";
  "SetDataReliablePdu"; "DataReliablePdu"; "EventReportReliablePdu"; "CommentReliablePdu"]%string.
Definition exact_length (c : pdu_class) : Prop := mem_string (cls_name c) inexact_length_pdus = false.

(** Size of a PDU as the sum of its declared field lengths. *)
Definition declared_size {c} (p : pdu c) : N := 12 + body_len (cls_fields c) (body p).

(** PDUs of any class, and streams of them. [None]: some call panicked or returned an error. *)
Definition any_pdu : Type := { c : pdu_class & pdu c }.
Fixpoint serialize_all (ps : list any_pdu) (buf : bytes) : option (list any_pdu * bytes) :=
  match ps with
  | [] => Some ([], buf)
  | existT _ c p :: ps' =>
      match serialize c p buf with
      | Ok (ROk _, p', buf') =>
          match serialize_all ps' buf' with
          | Some (qs, buf'') => Some (existT _ c p' :: qs, buf'')
          | None => None
          end
      | _ => None
      end
  end.
Fixpoint deserialize_all (cs : list pdu_class) (bs : bytes) : option (list any_pdu * bytes) :=
  match cs with
  | [] => Some ([], bs)
  | c :: cs' =>
      match deserialize c bs with
      | Ok (ROk p, rest) =>
          match deserialize_all cs' rest with
          | Some (qs, rest') => Some (existT _ c p :: qs, rest')
          | None => None
          end
      | _ => None
      end
  end.
Definition class_of (p : any_pdu) : pdu_class := projT1 p.
(** [q] is [p] with its header stamped by [serialize]. *)
Definition sent_as (p q : any_pdu) : Prop :=
  exists c (a b : pdu c), p = existT _ c a /\ q = existT _ c b /\ body b = body a /\
    stamped (cls_type c) (cls_family c) (as_u16 (default_size c)) (header a) (header b).

(** ** Counted records: every count field equals the number of elements it counts. *)
From Verif Require Import DataTypes.

Definition counts {k A} (n : uint k) (l : list A) : Prop := uval n = N.of_nat (length l).

Definition counted_AttributeRecord (v : AttributeRecord) : Prop :=
  counts (AttributeRecord_record_length v) (AttributeRecord_record_specific_fields v).
Definition counted_AttributeRecordSet (v : AttributeRecordSet) : Prop :=
  counts (AttributeRecordSet_number_of_attribute_records v) (AttributeRecordSet_attribute_records v) /\
  Forall counted_AttributeRecord (AttributeRecordSet_attribute_records v).
Definition counted_StandardVariableRecords (v : StandardVariableRecords) : Prop :=
  counts (StandardVariableRecords_record_length v) (StandardVariableRecords_record_specific_fields v).
Definition counted_StandardVariableSpecification (v : StandardVariableSpecification) : Prop :=
  counts (StandardVariableSpecification_number_of_standard_variable_records v)
         (StandardVariableSpecification_standard_variable_records v) /\
  Forall counted_StandardVariableRecords (StandardVariableSpecification_standard_variable_records v).
Definition counted_EmissionBeamData (v : ElectromagneticEmissionBeamData) : Prop :=
  counts (ElectromagneticEmissionBeamData_number_of_track_jam_targets v)
         (ElectromagneticEmissionBeamData_track_jam_targets v).
Definition counted_EmissionSystemData (v : ElectromagneticEmissionSystemData) : Prop :=
  counts (ElectromagneticEmissionSystemData_number_of_beams v)
         (ElectromagneticEmissionSystemData_beam_data_records v) /\
  Forall counted_EmissionBeamData (ElectromagneticEmissionSystemData_beam_data_records v).
Definition counted_AcousticEmitterSystemData (v : AcousticEmitterSystemData) : Prop :=
  counts (AcousticEmitterSystemData_number_of_beams v) (AcousticEmitterSystemData_beam_records v).

(** A record-specification element holds record_length * record_count value bytes. The
    product is a 16-bit multiplication. *)
Definition element_product (v : RecordSpecificationElement) : N :=
  uval (RecordSpecificationElement_record_length v) * uval (RecordSpecificationElement_record_count v).
Definition counted_RecordSpecificationElement (v : RecordSpecificationElement) : Prop :=
  element_product v < 65536 /\
  element_product v = N.of_nat (length (RecordSpecificationElement_record_values v)).
Definition counted_RecordSpecification (v : RecordSpecification) : Prop :=
  counts (RecordSpecification_number_of_record_sets v) (RecordSpecification_record_sets v) /\
  Forall counted_RecordSpecificationElement (RecordSpecification_record_sets v).
