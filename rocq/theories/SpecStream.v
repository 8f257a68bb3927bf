(** * Specification vocabulary for PDUs over a byte stream (C80), e.g. a TCP connection.
    Nothing here models code; the receiver calls the modelled API (through [SpecBundle]). *)
From Verif Require Import Base EnumModel Enums Header PduMacro Pdus Spec SpecExercise SpecBundle.

(** The receiver keeps the bytes it could not use yet ([pending]). When a chunk arrives it
    appends it and takes, by the length fields, every PDU that is there completely. The result:
    what it decoded, in order, and the bytes still pending. *)
Fixpoint over_stream (m : profile) (pending : bytes) (chunks : list bytes) : list (outcome (option any_pdu)) * bytes :=
  match chunks with
  | [] => ([], pending)
  | c :: chunks' =>
      let '(rs, pending') := taken_by_length m (pending ++ c) in
      let '(rs', pending'') := over_stream m pending' chunks' in (rs ++ rs', pending'')
  end.

(** The length that the header of a PDU announces. *)
Definition announced (p : any_pdu) : N := uval (header_length (header (projT2 p))).
