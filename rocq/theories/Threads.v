(** * Threads that share an output buffer.

    [serialize(&mut self, buf: &mut BytesMut)] (common/pdu.rs:36, pdu_macro.rs:301-324) needs the
    buffer exclusively, so threads share it as [Arc<Mutex<BytesMut>>]:
      [for mut p in jobs { let mut b = out.lock().unwrap(); let _ = p.serialize(&mut b); }]
    A turn of a thread is one round of this loop, which the lock makes exclusive. A panic while the lock
    is held poisons it: from then on [lock()] returns [Err], [unwrap()] panics and the thread ends;
    a program may write [lock().unwrap_or_else(PoisonError::into_inner)] instead and go on ([recover]).
    The scheduler is a list of thread numbers. *)
From Verif Require Import Base EnumModel Enums Header PduMacro Pdus Spec.

Record world := mk_world { output : bytes; poisoned : bool; jobs : list (list any_pdu) }.
Fixpoint set_nth {A} (i : nat) (x : A) (l : list A) : list A :=
  match l, i with
  | [], _ => []
  | _ :: l', O => x :: l'
  | y :: l', S i' => y :: set_nth i' x l'
  end.

(** One turn of thread [i], and the PDU whose [serialize] was called and returned, if any. [torn]: what a
    panicking [serialize] leaves in the buffer (Crash.v). *)
Definition turn (recover : bool) (torn : any_pdu -> bytes) (i : nat) (w : world) : world * list (nat * any_pdu) :=
  match nth i (jobs w) [] with
  | [] => (w, [])
  | existT _ c p :: rest =>
      if poisoned w && negb recover then (mk_world (output w) true (set_nth i [] (jobs w)), [])
      else
        match serialize c p (output w) with
        | Ok (_, _, out') => (mk_world out' (poisoned w) (set_nth i rest (jobs w)), [(i, existT _ c p)])
        | Panic _ => (mk_world (output w ++ torn (existT _ c p)) true (set_nth i [] (jobs w)), [])
        end
  end.
Fixpoint turns (recover : bool) (torn : any_pdu -> bytes) (schedule : list nat) (w : world) : world * list (nat * any_pdu) :=
  match schedule with
  | [] => (w, [])
  | i :: s' =>
      let '(w1, l1) := turn recover torn i w in
      let '(w2, l2) := turns recover torn s' w1 in (w2, l1 ++ l2)
  end.
