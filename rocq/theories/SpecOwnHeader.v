(** * What [define_pdu!] relies on in a header type (C75). *)
From Verif Require Import Base EnumModel Enums PduMacro MacroHeader.

(** A header of [n] bytes: every header is written as [n] bytes and read back, whatever
    follows; reading takes [n] bytes, looks at nothing else, and panics if fewer remain; the
    constant [LENGTH] is [n]; each setter sets its own value and keeps the two others. *)
Record keeps_promises (H : header_type) (n : nat) : Prop := {
  hp_LENGTH : ht_LENGTH H = N.of_nat n;
  hp_written : forall h, length (ht_serialize H h) = n;
  hp_read_back : forall h rest, ht_deserialize H (ht_serialize H h ++ rest) = Ok (h, rest);
  hp_reads : forall b, length b = n -> exists h, forall rest, ht_deserialize H (b ++ rest) = Ok (h, rest);
  hp_short : forall b, (length b < n)%nat -> ht_deserialize H b = Panic Underflow;
  hp_set_type : forall t h, let h' := ht_set_pdu_type H t h in
    ht_pdu_type H h' = t /\ ht_protocol_family H h' = ht_protocol_family H h /\ ht_length H h' = ht_length H h;
  hp_set_family : forall f h, let h' := ht_set_protocol_family H f h in
    ht_pdu_type H h' = ht_pdu_type H h /\ ht_protocol_family H h' = f /\ ht_length H h' = ht_length H h;
  hp_set_length : forall l h, let h' := ht_set_length H l h in
    ht_pdu_type H h' = ht_pdu_type H h /\ ht_protocol_family H h' = ht_protocol_family H h /\ ht_length H h' = l }.
