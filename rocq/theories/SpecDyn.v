(** * Specification vocabulary for PDUs behind a trait object (C83). *)
From Verif Require Import Base EnumModel Enums Header PduMacro Pdus DynPdu.

(** The header last assigned through [header_mut] ([h]: the one before the history). *)
Fixpoint last_header (ks : list call) (h : PduHeader) : PduHeader :=
  match ks with
  | [] => h
  | CSet h' :: ks' => last_header ks' h'
  | _ :: ks' => last_header ks' h
  end.
(** The header fields that belong to the user; type, family and length are the library's. *)
Definition user_fields (h : PduHeader) : ProtocolVersion * u8 * u32 * PduStatusRecord * u8 :=
  (protocol_version h, exercise_id h, timestamp h, status_record h, header_padding h).
(** What the calls of [serialize] must put into the buffer: each one the datagram of the
    original fields under the header last assigned, or nothing if the PDU is too long. *)
Fixpoint must_emit (c : pdu_class) (b : values (cls_fields c)) (ks : list call) (h : PduHeader) : list bytes :=
  match ks with
  | [] => []
  | CSet h' :: ks' => must_emit c b ks' h'
  | CSerialize :: ks' =>
      match serialize c (mk_pdu h b) [] with
      | Ok (ROk _, _, out) => [out]
      | _ => []
      end ++ must_emit c b ks' h
  | _ :: ks' => must_emit c b ks' h
  end.
