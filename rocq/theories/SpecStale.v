(** * Specification vocabulary for discarding stale PDUs (C85): a sender that makes PDUs at certain
    instants, and a receiver that keeps the one with the latest timestamp. Nothing here models
    code; both call the modelled API. *)
From Verif Require Import Base EnumModel Enums Header PduMacro Floats.

(** New values of all fields at an instant; the clock may show something else at each of the three readings that [new()] makes. *)
Record update (c : pdu_class) := mk_update { at1 : reading; at2 : reading; at3 : reading; what : values (cls_fields c) }.
Arguments mk_update {c}. Arguments at1 {c}. Arguments at2 {c}. Arguments at3 {c}. Arguments what {c}.
Definition at_once {c} (r : reading) (b : values (cls_fields c)) : update c := mk_update r r r b.

(** [let mut p = C::new(); p.f = ..; p.serialize(&mut buf)] *)
Definition datagram_of (m : profile) (c : pdu_class) (u : update c) : bytes :=
  match calculate_dis_timestamp m (at1 u) (at2 u) (at3 u) with
  | Ok t => match serialize c (mk_pdu (header (pdu_new c t)) (what u)) [] with
            | Ok (ROk _, _, out) => out
            | _ => []
            end
  | Panic _ => []
  end.
(** [if let Ok(p) = C::deserialize(&mut buf) { if p.header().timestamp >= latest.header().timestamp { latest = p } }] *)
Definition consider (c : pdu_class) (latest : option (pdu c)) (bs : bytes) : outcome (option (pdu c)) :=
  match deserialize c bs with
  | Panic e => Panic e
  | Ok (RErr _, _) => Ok latest
  | Ok (ROk p, _) =>
      match latest with
      | None => Ok (Some p)
      | Some q => if uval (timestamp (header p)) <? uval (timestamp (header q)) then Ok latest else Ok (Some p)
      end
  end.
Fixpoint receive_all (c : pdu_class) (latest : option (pdu c)) (ds : list bytes) : outcome (option (pdu c)) :=
  match ds with
  | [] => Ok latest
  | d :: ds' => match consider c latest d with
                | Panic e => Panic e
                | Ok l => receive_all c l ds'
                end
  end.
