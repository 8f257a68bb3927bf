(** * Specification vocabulary for a log file of PDUs that survives crashes (C88).
    Nothing here models code; writing and reading call the modelled API (through [SpecExercise] and [SpecBundle]). *)
From Verif Require Import Base EnumModel Enums Header PduMacro Pdus Spec SpecExercise SpecBundle SpecStream.

(** Opening the file: take it apart by the length fields and truncate it behind the last PDU
    that is there completely (the tail that a crash left is cut off). *)
Definition repaired (m : profile) (file : bytes) : bytes :=
  firstn (length file - length (snd (taken_by_length m file))) file.

(** A session: open the file, serialize PDUs one after the other and append what was written,
    of which only the first [survive] bytes are in the file when the process has crashed.
    ([survive] is as large as the output or larger: the session ended without a crash.) *)
Record session := Session { written : list any_pdu; survive : nat }.
(** The file after the sessions; [None]: a [serialize] panicked. *)
Fixpoint history (repair : bytes -> bytes) (ss : list session) (file : bytes) : option bytes :=
  match ss with
  | [] => Some file
  | s :: ss' =>
      match serialize_all (written s) [] with
      | None => None
      | Some (_, out) => history repair ss' (repair file ++ firstn (survive s) out)
      end
  end.

(** The PDUs (after [serialize]) of which every byte is within the first [k] bytes of the session. *)
Fixpoint within (k : N) (qs : list any_pdu) : list any_pdu :=
  match qs with
  | [] => []
  | q :: qs' => if announced q <=? k then q :: within (k - announced q) qs' else []
  end.
Fixpoint survivors (ss : list session) : list any_pdu :=
  match ss with
  | [] => []
  | s :: ss' =>
      match serialize_all (written s) [] with
      | None => []
      | Some (qs, _) => within (N.of_nat (survive s)) qs ++ survivors ss'
      end
  end.
(** PDUs that decode as they were written and announce the size they have. *)
Definition loggable (m : profile) (s : session) : Prop :=
  Forall (sendable m) (written s) /\
  exists qs out, serialize_all (written s) [] = Some (qs, out) /\ Forall announces_its_size qs.
(** The log entry read for a PDU. *)
Definition read_back (m : profile) (q : any_pdu) (r : outcome (option any_pdu)) : Prop :=
  exists r', r = Ok (Some r') /\ same_numbers m q r'.
