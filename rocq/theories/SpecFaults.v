(** * Specification vocabulary for corrupted datagrams (C61). *)
From Verif Require Import Base EnumModel Enums Header PduMacro Spec Wire WireMaps.

(** The header's numbers (IEEE 1278.1, bytes 0-11). *)
Definition header_entries {c : pdu_class} : list (entry (pdu c)) := [
  cod 0 1 ProtocolVersion_spec "protocol_version"%string (fun p => code (protocol_version (header p)));
  num 1 1 "exercise_id"%string (fun p => uval (exercise_id (header p)));
  cod 2 1 PduType_spec "pdu_type"%string (fun p => code (pdu_type (header p)));
  cod 3 1 ProtocolFamily_spec "protocol_family"%string (fun p => code (protocol_family (header p)));
  num 4 4 "timestamp"%string (fun p => uval (timestamp (header p)));
  num 8 2 "length"%string (fun p => uval (header_length (header p)));
  num 10 1 "status_record"%string (fun p => uval (status_byte (status_record (header p))));
  num 11 1 "padding"%string (fun p => uval (header_padding (header p)))].
(** All numbers of a datagram with the given map. *)
Definition datagram_entries (x : pdu_map) : list (entry (pdu (pm_class x))) := header_entries ++ pm_entries x.

(** Byte [j] belongs to the number. *)
Definition covers {T} (e : entry T) (j : nat) : Prop := (en_off e <= j < en_off e + en_width e)%nat.
(** [bs'] is [bs] with byte [i] (and nothing else) replaced by another value. *)
Definition corrupted_at (i : nat) (bs bs' : bytes) : Prop :=
  length bs' = length bs /\ (forall j, j <> i -> nth_error bs' j = nth_error bs j) /\ nth_error bs' i <> nth_error bs i.
