(** * Specification vocabulary for threads that share an output buffer (C86). *)
From Verif Require Import Base EnumModel Enums Header PduMacro Pdus Spec.

(** What one [serialize] into an empty buffer of its own gives; nothing if it fails. *)
Definition alone (p : any_pdu) : bytes :=
  match p with existT _ c q => match serialize c q [] with Ok (_, _, out) => out | Panic _ => [] end end.
Definition panics (p : any_pdu) : Prop := match p with existT _ c q => exists e, serialize c q [] = Panic e end.
(** The calls of thread [i], in order, out of those of all threads. *)
Definition of_thread (i : nat) (log : list (nat * any_pdu)) : list any_pdu :=
  map snd (filter (fun e => Nat.eqb (fst e) i) log).
(** Every thread gets at least as many turns as it has PDUs. *)
Definition enough_turns (schedule : list nat) (threads : list (list any_pdu)) : Prop :=
  forall i, (length (nth i threads []) <= count_occ Nat.eq_dec schedule i)%nat.
(** A piece of the received stream is the PDU [p]: it has the fields of [p] (for ordinary classes; lists come back empty). *)
Definition arrives (p : any_pdu) (fr : bytes) : Prop :=
  match p with existT _ c q => exists q', serialize c q [] = Ok (ROk tt, q', fr) /\
    (ordinary c -> body q' = body q /\ forall rest, exists left, deserialize c (fr ++ rest) = Ok (ROk (clear_lists q'), left ++ rest)) end.
Definition too_long (p : any_pdu) : bool :=
  match p with existT _ c q => match serialize c q [] with Ok (RErr _, _, _) => true | _ => false end end.
