(** * The programs of the book (book/src/guides/*.md) and of the crate documentation (src/lib.rs).
    The guides are not compiled with the crate, and as printed they do not compile: [deserialize]
    takes [&mut B], not a buffer by value, and [EntityId::new] takes three arguments. Modelled
    is what they say, with that corrected. *)
From Verif Require Import Base EnumModel Enums Header PduMacro DataTypes Pdus Examples.

(** sending-pdus.md:64-68: the bytes handed to [socket.send]; the PDU is [new()] with any of its
    fields edited (creating-a-pdu.md:33-34), so it is a parameter. The [Result] of [serialize]
    is dropped. *)
Definition guide_send (p : pdu AcknowledgePdu) : outcome bytes :=
  match serialize AcknowledgePdu p [] with
  | Panic e => Panic e
  | Ok (_, _, bytes) => Ok bytes
  end.

(** receiving-pdus.md:27-33: [loop { if n > 0 { dbg!(..deserialize(..)); break; } }], stopped by
    force after [fuel] iterations ([None]). The result is the one that is then unwrapped. *)
Fixpoint guide_loop (fuel : nat) (n : nat) (buf : bytes) : option (outcome (result (pdu AcknowledgePdu) DISError)) :=
  match fuel with
  | O => None
  | S fuel' =>
      if Nat.ltb 0 n then
        Some (match deserialize AcknowledgePdu buf with
              | Panic e => Panic e
              | Ok (r, _) => Ok r
              end)
      else guide_loop fuel' n buf
  end.

(** receiving-pdus.md:25-26: a datagram received once into 1204 zero bytes. *)
Definition guide_receive (fuel : nat) (datagram : bytes) : option (outcome (result (pdu AcknowledgePdu) DISError)) :=
  let '(n, buf) := recv_into (zero_bytes 1204) datagram in guide_loop fuel n buf.

(** src/lib.rs:23-27: [default()] and then [serialize] into an empty buffer, for any class. *)
Definition doc_example (c : pdu_class) (ts : u32) : outcome bytes :=
  match serialize c (pdu_default c ts) [] with
  | Panic e => Panic e
  | Ok (_, _, bytes) => Ok bytes
  end.
