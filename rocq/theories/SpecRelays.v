(** * Specification vocabulary for exercises with relays (C77). Nothing here models code; the
    steps call the modelled API. *)
From Verif Require Import Base EnumModel Enums Header PduMacro DataTypes Pdus PduFields Spec SpecDatum SpecSpecial Wire WireMaps SpecFaults SpecExercise.

(** As in [SpecExercise], somebody serializes and sends a PDU, or a program whose receive
    buffer holds [size] bytes receives datagram number [i]. Besides, a relay may receive
    datagram [i] in the same way and, if it can decode it, serialize and send what it got;
    its datagram may be received, and relayed, like any other. *)
Inductive step := Originate (p : any_pdu) | Hand (i size : nat) | Forward (i size : nat).
Inductive event :=
| Originated (p p' : any_pdu) (datagram : bytes)   (* [p'] is [p] as [serialize] left it *)
| NotOriginated (p : any_pdu)
| Handed (datagram : bytes) (size : nat) (result : outcome (option any_pdu))
| Forwarded (datagram : bytes) (size : nat) (relayed : bytes)
| NotForwarded (datagram : bytes) (size : nat)      (* undecodable, or too large to send *)
| Crashed (datagram : bytes) (size : nat)           (* the relay panicked *)
| OriginatorCrashed (p : any_pdu)
| NothingToDo.
(** One relay: receive, serialize into an empty buffer. *)
Definition relay (m : profile) (bs : bytes) : outcome (option bytes) :=
  match receive m bs with
  | Panic e => Panic e
  | Ok None => Ok None
  | Ok (Some (existT _ c p)) =>
      match serialize c p [] with
      | Ok (ROk _, _, out) => Ok (Some out)
      | Ok (RErr _, _, _) => Ok None
      | Panic e => Panic e
      end
  end.
Fixpoint with_relays (m : profile) (steps : list step) (air : list bytes) : list event :=
  match steps with
  | [] => []
  | Originate (existT _ c p) :: steps' =>
      match serialize c p [] with
      | Ok (ROk _, p', d) => Originated (existT _ c p) (existT _ c p') d :: with_relays m steps' (air ++ [d])
      | Ok (RErr _, _, _) => NotOriginated (existT _ c p) :: with_relays m steps' air
      | Panic _ => OriginatorCrashed (existT _ c p) :: with_relays m steps' air
      end
  | Hand i size :: steps' =>
      match nth_error air i with
      | Some d => Handed d size (receive m (firstn size d)) :: with_relays m steps' air
      | None => NothingToDo :: with_relays m steps' air
      end
  | Forward i size :: steps' =>
      match nth_error air i with
      | Some d =>
          match relay m (firstn size d) with
          | Ok (Some out) => Forwarded d size out :: with_relays m steps' (air ++ [out])
          | Ok None => NotForwarded d size :: with_relays m steps' air
          | Panic _ => Crashed d size :: with_relays m steps' air
          end
      | None => NothingToDo :: with_relays m steps' air
      end
  end.
Definition origins (steps : list step) : list any_pdu :=
  flat_map (fun s => match s with Originate p => [p] | _ => [] end) steps.

(** A PDU of the same class whose numbers, with the exception of the length in the header
    (bytes 8 and 9), are those of [p], after what decoding makes of them. *)
Definition same_numbers_but_length (m : profile) (p q : any_pdu) : Prop :=
  exists x (p' q' : pdu (pm_class x)), In x (wire_maps m) /\ p = existT _ _ p' /\ q = existT _ _ q' /\
    Forall (fun e => en_off e = 8%nat \/ en_get e q' = en_norm e (en_put e p')) (datagram_entries x).
Definition experience_behind_relays (m : profile) (p : any_pdu) (datagram : bytes) (size : nat) (r : outcome (option any_pdu)) : Prop :=
  ((size < 12)%nat /\ r = Ok None) \/
  ((12 <= size < bytes_needed (class_of p) datagram)%nat /\ r = Panic Underflow) \/
  ((bytes_needed (class_of p) datagram <= size)%nat /\ exists q, r = Ok (Some q) /\ same_numbers_but_length m p q).

(** A chain of relays. *)
Fixpoint hops (m : profile) (n : nat) (bs : bytes) : outcome (option bytes) :=
  match n with
  | O => Ok (Some bs)
  | S n' => match hops m n' bs with
            | Ok (Some d) => relay m d
            | o => o
            end
  end.
