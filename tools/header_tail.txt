(** Equality of enumeration values ([derive(PartialEq)]). *)
Definition enum_eqb {e} (a b : enum e) : bool := code a =? code b.

(** ** The PDU status record (pdu_header.rs:27-36)

    [#[bitfield(bits = 8)]] of the modular-bitfield crate: fields are packed from
    the least significant bit: tei bit 0, lvc bits 1-2, cei bit 3, bit4_5 bits
    4-5, two reserved bits 6-7. *)
Record PduStatusRecord := mk_status { status_byte : u8 }.

(** Generated getters/setters of modular-bitfield: [w] bits at offset [off]. *)
Definition bits_get (off w : N) (b : u8) : N := N.land (N.shiftr (uval b) off) (N.ones w).
Definition bits_set (off w x : N) (b : u8) : u8 :=
  as_u8 (N.lor (N.ldiff (uval b) (N.shiftl (N.ones w) off)) (N.shiftl x off)).

(** Generated getter for an enumeration-typed field: panics on a bit pattern
    that is no variant. *)
Definition bits_get_enum (e : enum_spec) (off w : N) (s : PduStatusRecord) : outcome (enum e) :=
  match enum_from e (bits_get off w (status_byte s)) with
  | Some v => Ok v
  | None => Panic ExpectFailed
  end.

Definition TransferredEntityIndicator : Type := enum TransferredEntityIndicator_spec.
Definition LVCIndicator : Type := enum LVCIndicator_spec.
Definition CoupledExtensionIndicator : Type := enum CoupledExtensionIndicator_spec.
Definition DetonationTypeIndicator : Type := enum DetonationTypeIndicator_spec.
Definition RadioAttachedIndicator : Type := enum RadioAttachedIndicator_spec.
Definition IntercomAttachedIndicator : Type := enum IntercomAttachedIndicator_spec.
Definition FireTypeIndicator : Type := enum FireTypeIndicator_spec.
Definition PduStatusIFFSimulationMode : Type := enum PduStatusIFFSimulationMode_spec.
Definition ActiveInterrogationIndicator : Type := enum ActiveInterrogationIndicator_spec.

(** pdu_header.rs:27-36, accessors generated by [#[bitfield]]. *)
Definition sr_tei (s : PduStatusRecord) : outcome TransferredEntityIndicator := bits_get_enum _ 0 1 s.
Definition sr_set_tei (x : TransferredEntityIndicator) (s : PduStatusRecord) := mk_status (bits_set 0 1 (code x) (status_byte s)).
Definition sr_lvc (s : PduStatusRecord) : outcome LVCIndicator := bits_get_enum _ 1 2 s.
Definition sr_set_lvc (x : LVCIndicator) (s : PduStatusRecord) := mk_status (bits_set 1 2 (code x) (status_byte s)).
Definition sr_cei (s : PduStatusRecord) : outcome CoupledExtensionIndicator := bits_get_enum _ 3 1 s.
Definition sr_set_cei (x : CoupledExtensionIndicator) (s : PduStatusRecord) := mk_status (bits_set 3 1 (code x) (status_byte s)).
Definition sr_bit4_5 (s : PduStatusRecord) : u8 := as_u8 (bits_get 4 2 (status_byte s)).
(** The generated setter of a [B2] field panics when the value needs more than 2 bits. *)
Definition sr_set_bit4_5 (v : u8) (s : PduStatusRecord) : outcome PduStatusRecord :=
  if uval v <? 4 then Ok (mk_status (bits_set 4 2 (uval v) (status_byte s))) else Panic ExpectFailed.

(** pdu_header.rs:39-42 [new_zero], 130-134 [Default]. *)
Definition sr_new_zero : PduStatusRecord := mk_status (as_u8 0).

(** enums.rs:10400-10408, 10433-10441, 10466-10474: [From<u8>] for the three
    two-bit indicators: [match value & 0b11 { 1 => .., 2 => .., _ => zero variant }]. *)
Definition DetonationTypeIndicator_from (v : u8) : DetonationTypeIndicator :=
  match N.land (uval v) 3 with
  | 1 => variant DetonationTypeIndicator_spec 1 eq_refl | 2 => variant DetonationTypeIndicator_spec 2 eq_refl | _ => variant DetonationTypeIndicator_spec 0 eq_refl
  end.
Definition RadioAttachedIndicator_from (v : u8) : RadioAttachedIndicator :=
  match N.land (uval v) 3 with
  | 1 => variant RadioAttachedIndicator_spec 1 eq_refl | 2 => variant RadioAttachedIndicator_spec 2 eq_refl | _ => variant RadioAttachedIndicator_spec 0 eq_refl
  end.
Definition IntercomAttachedIndicator_from (v : u8) : IntercomAttachedIndicator :=
  match N.land (uval v) 3 with
  | 1 => variant IntercomAttachedIndicator_spec 1 eq_refl | 2 => variant IntercomAttachedIndicator_spec 2 eq_refl | _ => variant IntercomAttachedIndicator_spec 0 eq_refl
  end.

(** pdu_header.rs:44-51. *)
Definition sr_get_dti (s : PduStatusRecord) := DetonationTypeIndicator_from (sr_bit4_5 s).
Definition sr_set_dti (x : DetonationTypeIndicator) (s : PduStatusRecord) := sr_set_bit4_5 (as_u8 (code x)) s.
(** pdu_header.rs:53-60. *)
Definition sr_get_rai (s : PduStatusRecord) := RadioAttachedIndicator_from (sr_bit4_5 s).
Definition sr_set_rai (x : RadioAttachedIndicator) (s : PduStatusRecord) := sr_set_bit4_5 (as_u8 (code x)) s.
(** pdu_header.rs:62-69. *)
Definition sr_get_iai (s : PduStatusRecord) := IntercomAttachedIndicator_from (sr_bit4_5 s).
Definition sr_set_iai (x : IntercomAttachedIndicator) (s : PduStatusRecord) := sr_set_bit4_5 (as_u8 (code x)) s.
(** pdu_header.rs:71-79. *)
Definition sr_get_fti (s : PduStatusRecord) : FireTypeIndicator :=
  if N.land (uval (sr_bit4_5 s)) 1 =? 0 then variant FireTypeIndicator_spec 0 eq_refl else variant FireTypeIndicator_spec 1 eq_refl.
(** pdu_header.rs:81-85. *)
Definition sr_set_fti (x : FireTypeIndicator) (s : PduStatusRecord) :=
  sr_set_bit4_5 (as_u8 (N.lor (N.land (uval (sr_bit4_5 s)) 2) (N.land (uval (as_u8 (code x))) 1))) s.
(** pdu_header.rs:87-95. Codes: PduStatusIFFSimulationMode Regeneration = 0, Interactive = 1. *)
Definition sr_get_ism (s : PduStatusRecord) : PduStatusIFFSimulationMode :=
  if N.land (uval (sr_bit4_5 s)) 1 =? 0 then variant PduStatusIFFSimulationMode_spec 0 eq_refl else variant PduStatusIFFSimulationMode_spec 1 eq_refl.
(** pdu_header.rs:97-101. *)
Definition sr_set_ism (x : PduStatusIFFSimulationMode) (s : PduStatusRecord) :=
  sr_set_bit4_5 (as_u8 (N.lor (N.land (uval (sr_bit4_5 s)) 2) (N.land (uval (as_u8 (code x))) 1))) s.
(** pdu_header.rs:103-111. *)
Definition sr_get_aii (s : PduStatusRecord) : ActiveInterrogationIndicator :=
  if N.land (N.shiftr (uval (sr_bit4_5 s)) 1) 1 =? 0 then variant ActiveInterrogationIndicator_spec 0 eq_refl else variant ActiveInterrogationIndicator_spec 1 eq_refl.
(** pdu_header.rs:113-117 ([<<] on u8 drops the bits shifted out). *)
Definition sr_set_aii (x : ActiveInterrogationIndicator) (s : PduStatusRecord) :=
  sr_set_bit4_5 (as_u8 (N.lor (N.land (uval (sr_bit4_5 s)) 1) (uval (as_u8 (N.shiftl (uval (as_u8 (code x))) 1))))) s.
(** pdu_header.rs:119-127. *)
Definition sr_to_u8 (s : PduStatusRecord) : u8 := status_byte s.
Definition sr_from_u8 (b : u8) : PduStatusRecord := mk_status b.

(** ** The PDU header (pdu_header.rs:136-154) *)
Record PduHeader := mk_PduHeader {
  protocol_version : ProtocolVersion;
  exercise_id : u8;
  pdu_type : PduType;
  protocol_family : ProtocolFamily;
  timestamp : u32;
  header_length : u16;
  status_record : PduStatusRecord;
  header_padding : u8
}.

(** pdu_header.rs:156-169 [Default]; [ts] is the value returned by
    [calculate_dis_timestamp()] (modelled in Timestamp.v). *)
Definition PduHeader_default (ts : u32) : PduHeader := {|
  protocol_version := ProtocolVersion_IEEE1278_1_2012;
  exercise_id := as_u8 1;
  pdu_type := enum_default PduType_spec;
  protocol_family := enum_default ProtocolFamily_spec;
  timestamp := ts;
  header_length := as_u16 0;
  status_record := sr_new_zero;
  header_padding := as_u8 0 |}.

(** pdu_header.rs:176-178, 184-186, 192-194: setters of [GenericHeader]. *)
Definition set_pdu_type (v : PduType) (h : PduHeader) : PduHeader := {|
  protocol_version := protocol_version h; exercise_id := exercise_id h; pdu_type := v;
  protocol_family := protocol_family h; timestamp := timestamp h; header_length := header_length h;
  status_record := status_record h; header_padding := header_padding h |}.
Definition set_protocol_family (v : ProtocolFamily) (h : PduHeader) : PduHeader := {|
  protocol_version := protocol_version h; exercise_id := exercise_id h; pdu_type := pdu_type h;
  protocol_family := v; timestamp := timestamp h; header_length := header_length h;
  status_record := status_record h; header_padding := header_padding h |}.
Definition set_length (v : u16) (h : PduHeader) : PduHeader := {|
  protocol_version := protocol_version h; exercise_id := exercise_id h; pdu_type := pdu_type h;
  protocol_family := protocol_family h; timestamp := timestamp h; header_length := v;
  status_record := status_record h; header_padding := header_padding h |}.

(** pdu_header.rs:196-205. *)
Definition PduHeader_serialize (h : PduHeader) : bytes :=
  put_u8 (as_u8 (code (protocol_version h))) ++
  put_u8 (exercise_id h) ++
  put_u8 (as_u8 (code (pdu_type h))) ++
  put_u8 (as_u8 (code (protocol_family h))) ++
  put_u32 (timestamp h) ++
  put_u16 (header_length h) ++
  put_u8 (sr_to_u8 (status_record h)) ++
  put_u8 (header_padding h).

(** pdu_header.rs:207-218. *)
Definition PduHeader_deserialize : reader PduHeader :=
  let* version := enum_deserialize ProtocolVersion_spec in
  let* exercise := get_u8 in
  let* ptype := enum_deserialize PduType_spec in
  let* family := enum_deserialize ProtocolFamily_spec in
  let* ts := get_u32 in
  let* len := get_u16 in
  let* status := get_u8 in
  let* pad := get_u8 in
  ret (mk_PduHeader version exercise ptype family ts len (sr_from_u8 status) pad).

(** pdu_header.rs:222-239 [PduHeader::new]; [ts] as for [PduHeader_default]. *)
Definition PduHeader_new (ts : u32) (t : PduType) (f : ProtocolFamily) (ex : u8) (len : u16) : PduHeader := {|
  protocol_version := ProtocolVersion_IEEE1278_1_2012;
  exercise_id := ex;
  pdu_type := t;
  protocol_family := f;
  timestamp := ts;
  header_length := len;
  status_record := sr_new_zero;
  header_padding := as_u8 0 |}.

(** pdu_header.rs:286-288 [SerializedLength]. *)
Definition PduHeader_LENGTH : N := 12.

(** pdu_header.rs:256-265 [get_pdu_type]. *)
Definition PduHeader_get_pdu_type (bs : bytes) : outcome (option PduType) :=
  if lenN bs <? PduHeader_LENGTH then Ok None
  else match PduHeader_deserialize (firstn (N.to_nat PduHeader_LENGTH) bs) with
       | Ok (h, _) => Ok (Some (pdu_type h))
       | Panic p => Panic p
       end.

(** ** Live-entity header (live_entity_pdu_header.rs:15-33) *)
Definition DISLiveEntitySubprotocolNumber : Type := enum DISLiveEntitySubprotocolNumber_spec.
Record LiveEntityPduHeader := mk_LiveEntityPduHeader {
  le_protocol_version : ProtocolVersion;
  le_exercise_id : u8;
  le_pdu_type : PduType;
  le_protocol_family : ProtocolFamily;
  le_timestamp : u32;
  le_length : u16;
  le_subprotocol_number : DISLiveEntitySubprotocolNumber;
  le_padding : u8
}.

(** live_entity_pdu_header.rs:35-48 [Default] and 100-116 [new]; [ts] is the timestamp. *)
Definition LiveEntityPduHeader_default (ts : u32) : LiveEntityPduHeader := {|
  le_protocol_version := ProtocolVersion_IEEE1278_1_2012;
  le_exercise_id := as_u8 1;
  le_pdu_type := enum_default PduType_spec;
  le_protocol_family := enum_default ProtocolFamily_spec;
  le_timestamp := ts;
  le_length := as_u16 0;
  le_subprotocol_number := enum_default DISLiveEntitySubprotocolNumber_spec;
  le_padding := as_u8 0 |}.
Definition LiveEntityPduHeader_new (ts : u32) (t : PduType) (f : ProtocolFamily) (ex : u8) (len : u16) : LiveEntityPduHeader := {|
  le_protocol_version := ProtocolVersion_IEEE1278_1_2012;
  le_exercise_id := ex;
  le_pdu_type := t;
  le_protocol_family := f;
  le_timestamp := ts;
  le_length := len;
  le_subprotocol_number := le_subprotocol_number (LiveEntityPduHeader_default ts);
  le_padding := le_padding (LiveEntityPduHeader_default ts) |}.

(** live_entity_pdu_header.rs:75-84. *)
Definition LiveEntityPduHeader_serialize (h : LiveEntityPduHeader) : bytes :=
  put_u8 (as_u8 (code (le_protocol_version h))) ++
  put_u8 (le_exercise_id h) ++
  put_u8 (as_u8 (code (le_pdu_type h))) ++
  put_u8 (as_u8 (code (le_protocol_family h))) ++
  put_u32 (le_timestamp h) ++
  put_u16 (le_length h) ++
  put_u8 (as_u8 (code (le_subprotocol_number h))) ++
  put_u8 (le_padding h).

(** live_entity_pdu_header.rs:86-97. *)
Definition LiveEntityPduHeader_deserialize : reader LiveEntityPduHeader :=
  let* version := enum_deserialize ProtocolVersion_spec in
  let* exercise := get_u8 in
  let* ptype := enum_deserialize PduType_spec in
  let* family := enum_deserialize ProtocolFamily_spec in
  let* ts := get_u32 in
  let* len := get_u16 in
  let* sub := enum_deserialize DISLiveEntitySubprotocolNumber_spec in
  let* pad := get_u8 in
  ret (mk_LiveEntityPduHeader version exercise ptype family ts len sub pad).

(** ** Errors (dis_error.rs:21-68)
    Only the two variants the library code can construct are modelled; the
    [InvalidHeader] message is represented by the two PDU types formatted into it,
    and its [source] is always [None] (pdu_macro.rs:331-334). *)
Inductive DISError :=
| InvalidHeader (expected got : PduType)
| PduSizeExceeded (size max_size : N).

(** ** Constants and helpers (constants.rs:18-30, 61-77) *)
Definition MAX_PDU_SIZE_OCTETS : N := 8192.
Definition MAX_PDU_SIZE_BITS : N := 65536.
Definition BITS_PER_BYTE : N := 8.
Definition PDU_HEADER_SIZE : N := 12.
Definition MAX_ENTITY_MARKING_LENGTH : N := 32.
Definition validate_pdu_size (size : N) : bool := size <=? MAX_PDU_SIZE_OCTETS.
(** [usize] addition; the model does not wrap at 2^64. *)
Definition total_pdu_size (payload_size : N) : N := PDU_HEADER_SIZE + payload_size.
Definition validate_marking_length (len : N) : bool := len <=? MAX_ENTITY_MARKING_LENGTH.
