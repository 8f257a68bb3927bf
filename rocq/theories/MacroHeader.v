(** * [define_pdu!] with any header type.

    The macro takes the header type as an argument ([header: $header:ty], pdu_macro.rs:220);
    [PduMacro] fixes it to [PduHeader], the only one used in the repository. Here it is an
    argument again. A header type must implement [GenericHeader], [Default],
    [SerializedLength] and [FieldDeserialize]. *)
From Verif Require Import Base EnumModel Enums Header PduMacro.

(** generic_header.rs:11-23 [GenericHeader]; serialized_length.rs:1-3; [Default] (the clock
    reading is an argument); [FieldDeserialize] (pdu_macro.rs:19-21), which
    [define_pdu!] uses to read the header. *)
Record header_type := mk_header_type {
  ht : Type;
  ht_default : u32 -> ht;
  ht_LENGTH : N;
  ht_pdu_type : ht -> PduType;
  ht_set_pdu_type : PduType -> ht -> ht;
  ht_protocol_family : ht -> ProtocolFamily;
  ht_set_protocol_family : ProtocolFamily -> ht -> ht;
  ht_length : ht -> u16;
  ht_set_length : u16 -> ht -> ht;
  ht_serialize : ht -> bytes;
  ht_deserialize : reader ht
}.

(** pdu_header.rs:156-213, 268-288. *)
Definition PduHeader_type : header_type := mk_header_type PduHeader PduHeader_default PduHeader_LENGTH
  pdu_type set_pdu_type protocol_family set_protocol_family header_length set_length
  PduHeader_serialize PduHeader_deserialize.

(** pdu_header.rs:268-284: [FieldSerialize], [FieldDeserialize] and [FieldLen] of
    [PduHeader], i.e. the header as a field of another class. *)
Definition PduHeader_codec : codec PduHeader :=
  mk_codec (fun h => Ok (PduHeader_serialize h)) PduHeader_deserialize (fun _ => PduHeader_LENGTH).

(** live_entity_pdu_header.rs:135-137. *)
Definition LiveEntityPduHeader_LENGTH : N := 12.

(** live_entity_pdu_header.rs:55-57, 63-65, 71-73: the setters. *)
Definition le_set_pdu_type (v : PduType) (h : LiveEntityPduHeader) : LiveEntityPduHeader := {|
  le_protocol_version := le_protocol_version h; le_exercise_id := le_exercise_id h; le_pdu_type := v;
  le_protocol_family := le_protocol_family h; le_timestamp := le_timestamp h; le_length := le_length h;
  le_subprotocol_number := le_subprotocol_number h; le_padding := le_padding h |}.
Definition le_set_protocol_family (v : ProtocolFamily) (h : LiveEntityPduHeader) : LiveEntityPduHeader := {|
  le_protocol_version := le_protocol_version h; le_exercise_id := le_exercise_id h; le_pdu_type := le_pdu_type h;
  le_protocol_family := v; le_timestamp := le_timestamp h; le_length := le_length h;
  le_subprotocol_number := le_subprotocol_number h; le_padding := le_padding h |}.
Definition le_set_length (v : u16) (h : LiveEntityPduHeader) : LiveEntityPduHeader := {|
  le_protocol_version := le_protocol_version h; le_exercise_id := le_exercise_id h; le_pdu_type := le_pdu_type h;
  le_protocol_family := le_protocol_family h; le_timestamp := le_timestamp h; le_length := v;
  le_subprotocol_number := le_subprotocol_number h; le_padding := le_padding h |}.

(** live_entity_pdu_header.rs:35-97, 135-137. The crate implements [FieldDeserialize] for
    [PduHeader] only, so this header cannot be used with [define_pdu!] as it stands; taken
    here is the missing implementation by its own [deserialize] (86-97), as at
    pdu_header.rs:274-278. *)
Definition LiveEntityPduHeader_type : header_type := mk_header_type LiveEntityPduHeader LiveEntityPduHeader_default LiveEntityPduHeader_LENGTH
  le_pdu_type le_set_pdu_type le_protocol_family le_set_protocol_family le_length le_set_length
  LiveEntityPduHeader_serialize LiveEntityPduHeader_deserialize.

(** The arguments of one [define_pdu!] invocation (pdu_macro.rs:217-230), header included. *)
Record own_class := mk_own_class { oc_header : header_type; oc_class : pdu_class }.
Definition oc_fields (c : own_class) : list field := cls_fields (oc_class c).

(** pdu_macro.rs:231-237. *)
Record own_pdu (c : own_class) := mk_own { own_header : ht (oc_header c); own_body : values (oc_fields c) }.
Arguments mk_own {c} own_header own_body.
Arguments own_header {c} o.
Arguments own_body {c} o.

(** pdu_macro.rs:239-249 [Default]. *)
Definition own_default (c : own_class) (ts : u32) : own_pdu c := mk_own (ht_default (oc_header c) ts) (body_default (oc_fields c)).
(** pdu_macro.rs:279-291 [calculate_length]. *)
Definition own_calculate_length (c : own_class) (p : own_pdu c) : result u16 DISError :=
  let len := ht_LENGTH (oc_header c) + body_len (oc_fields c) (own_body p) in
  match try_uint 2 len with
  | Some l => ROk l
  | None => RErr (PduSizeExceeded len MAX_PDU_SIZE_OCTETS)
  end.
(** pdu_macro.rs:301-324 [serialize]. *)
Definition own_serialize (c : own_class) (p : own_pdu c) (buf : bytes) : outcome (result unit DISError * own_pdu c * bytes) :=
  let h1 := ht_set_protocol_family (oc_header c) (cls_family (oc_class c)) (ht_set_pdu_type (oc_header c) (cls_type (oc_class c)) (own_header p)) in
  let b1 := prep_body (oc_fields c) (own_body p) in
  let p1 := mk_own h1 b1 in
  match own_calculate_length c p1 with
  | RErr e => Ok (RErr e, p1, buf)
  | ROk len =>
      let h2 := ht_set_length (oc_header c) len h1 in
      match body_serialize (oc_fields c) b1 with
      | Ok out => Ok (ROk tt, mk_own h2 b1, buf ++ ht_serialize (oc_header c) h2 ++ out)
      | Panic e => Panic e
      end
  end.
(** pdu_macro.rs:345-350 [deserialize_without_header]. *)
Definition own_deserialize_without_header (c : own_class) (bs : bytes) (h : ht (oc_header c))
  : outcome (result (own_pdu c) DISError * bytes) :=
  match body_deserialize [] (oc_fields c) bs with
  | Panic e => Panic e
  | Ok (b, rest') => Ok (ROk (mk_own h b), rest')
  end.
(** pdu_macro.rs:326-343 [deserialize]. *)
Definition own_deserialize (c : own_class) (bs : bytes) : outcome (result (own_pdu c) DISError * bytes) :=
  match ht_deserialize (oc_header c) bs with
  | Panic e => Panic e
  | Ok (h, rest) =>
      if enum_eqb (ht_pdu_type (oc_header c) h) (cls_type (oc_class c)) then own_deserialize_without_header c rest h
      else Ok (RErr (InvalidHeader (cls_type (oc_class c)) (ht_pdu_type (oc_header c) h)), rest)
  end.
(** common/pdu.rs:24-27 [finalize]. *)
Definition own_finalize (c : own_class) (p : own_pdu c) : own_pdu c :=
  let len := match own_calculate_length c p with ROk l => l | RErr _ => as_u16 0 end in
  mk_own (ht_set_length (oc_header c) len (own_header p)) (own_body p).
(** pdu_macro.rs:358-367 [new]. *)
Definition own_new (c : own_class) (ts : u32) : own_pdu c :=
  let p := own_default c ts in
  own_finalize c (mk_own (ht_set_protocol_family (oc_header c) (cls_family (oc_class c))
                           (ht_set_pdu_type (oc_header c) (cls_type (oc_class c)) (own_header p))) (own_body p)).
