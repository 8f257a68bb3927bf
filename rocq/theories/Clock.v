(** * Where the code reads the system clock.
    The rest of the model passes the timestamp as an argument. Here the calls of
    [PduHeader::default()] that read the clock are explicit: in [Default], in [new], and in
    [deserialize_body], which builds a default header only to have it overwritten. *)
From Verif Require Import Base EnumModel Enums Header PduMacro.
From Verif Require Import Floats.

(** The three readings taken by one call of [calculate_dis_timestamp] (pdu_header.rs:249-251). *)
Record clock := mk_clock { now1 : reading; now2 : reading; now3 : reading }.

(** pdu_header.rs:156-169 [Default]. *)
Definition PduHeader_default_at (m : profile) (k : clock) : outcome PduHeader :=
  match calculate_dis_timestamp m (now1 k) (now2 k) (now3 k) with
  | Panic e => Panic e
  | Ok ts => Ok (PduHeader_default ts)
  end.

(** pdu_macro.rs:239-249 [Default]: the header first, then the fields. *)
Definition pdu_default_at (m : profile) (c : pdu_class) (k : clock) : outcome (pdu c) :=
  match PduHeader_default_at m k with
  | Panic e => Panic e
  | Ok h => Ok (mk_pdu h (body_default (cls_fields c)))
  end.

(** pdu_macro.rs:358-367 [new]. *)
Definition pdu_new_at (m : profile) (c : pdu_class) (k : clock) : outcome (pdu c) :=
  match pdu_default_at m c k with
  | Panic e => Panic e
  | Ok p => Ok (finalize c (mk_pdu (set_protocol_family (cls_family c) (set_pdu_type (cls_type c) (header p))) (body p)))
  end.

(** pdu_macro.rs:252-272 [deserialize_body]: the fields, then a default header. *)
Definition deserialize_body_at (m : profile) (c : pdu_class) (k : clock) : reader (pdu c) :=
  fun bs => match body_deserialize [] (cls_fields c) bs with
  | Panic e => Panic e
  | Ok (b, rest) => match PduHeader_default_at m k with
                    | Panic e => Panic e
                    | Ok h => Ok (mk_pdu h b, rest)
                    end
  end.

(** pdu_macro.rs:326-343 [deserialize]: [body.header = header]. *)
Definition deserialize_at (m : profile) (c : pdu_class) (k : clock) (bs : bytes) : outcome (result (pdu c) DISError * bytes) :=
  match PduHeader_deserialize bs with
  | Panic e => Panic e
  | Ok (h, rest) =>
      if enum_eqb (pdu_type h) (cls_type c) then
        match deserialize_body_at m c k rest with
        | Panic e => Panic e
        | Ok (p, rest') => Ok (ROk (mk_pdu h (body p)), rest')
        end
      else Ok (RErr (InvalidHeader (cls_type c) (pdu_type h)), rest)
  end.

(** pdu_macro.rs:345-350 [deserialize_without_header]. *)
Definition deserialize_without_header_at (m : profile) (c : pdu_class) (k : clock) (bs : bytes) (h : PduHeader)
  : outcome (result (pdu c) DISError * bytes) :=
  match deserialize_body_at m c k bs with
  | Panic e => Panic e
  | Ok (p, rest') => Ok (ROk (mk_pdu h (body p)), rest')
  end.
