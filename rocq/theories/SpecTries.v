(** * Specification vocabulary for trying classes in turn (C81): two receivers that do not look
    at the PDU type. Nothing here models code; the receivers call the modelled API. *)
From Verif Require Import Base EnumModel Enums Header PduMacro Pdus Spec.

(** [for each class: if let Ok(p) = C::deserialize(&mut buf.clone()) { return Some(p) }] *)
Fixpoint tried_on_copies (cs : list pdu_class) (bs : bytes) : outcome (option any_pdu) :=
  match cs with
  | [] => Ok None
  | c :: cs' =>
      match deserialize c bs with
      | Panic e => Panic e
      | Ok (ROk p, _) => Ok (Some (existT _ c p))
      | Ok (RErr _, _) => tried_on_copies cs' bs
      end
  end.
(** [for each class: if let Ok(p) = C::deserialize(&mut buf) { return Some(p) }], that is,
    without the copy; with what is left in the buffer. *)
Fixpoint tried_in_place (cs : list pdu_class) (bs : bytes) : outcome (option any_pdu * bytes) :=
  match cs with
  | [] => Ok (None, bs)
  | c :: cs' =>
      match deserialize c bs with
      | Panic e => Panic e
      | Ok (ROk p, rest) => Ok (Some (existT _ c p), rest)
      | Ok (RErr _, rest) => tried_in_place cs' rest
      end
  end.
