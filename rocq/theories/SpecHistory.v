(** * Specification vocabulary for histories of calls and for framing (C48).
    Nothing here models code; the operations call the modelled API. *)
From Verif Require Import Base EnumModel Header PduMacro Spec.

(** A program holds some PDU values and one output buffer, and performs any sequence of:
    - [Assign i p]: PDU number [i] is overwritten by an arbitrary value (all fields of a
      PDU and of its header are public, so this covers every mutation, including a change
      of the declared type, family or length);
    - [Finalize i]: [pdus[i].finalize()];
    - [Serialize i]: [pdus[i].serialize(&mut buf)].
    A number without a PDU makes the operation do nothing. *)
Inductive op :=
| Assign (i : nat) (p : any_pdu)
| Finalize (i : nat)
| Serialize (i : nat).

Fixpoint replace {A} (i : nat) (x : A) (l : list A) : list A :=
  match l, i with
  | [], _ => []
  | _ :: l', O => x :: l'
  | y :: l', S i' => y :: replace i' x l'
  end.

(** What the caller sees of one [serialize]: the result and the PDU as it is afterwards. *)
Definition event : Type := result unit DISError * any_pdu.

(** One operation; [None] is a panic. *)
Definition step (o : op) (st : list any_pdu * bytes) : option (list any_pdu * bytes * list event) :=
  let '(ps, buf) := st in
  match o with
  | Assign i p => Some (replace i p ps, buf, [])
  | Finalize i =>
      match nth_error ps i with
      | Some (existT _ c p) => Some (replace i (existT _ c (finalize c p)) ps, buf, [])
      | None => Some (ps, buf, [])
      end
  | Serialize i =>
      match nth_error ps i with
      | Some (existT _ c p) =>
          match serialize c p buf with
          | Ok (r, p', buf') => Some (replace i (existT _ c p') ps, buf', [(r, existT _ c p')])
          | Panic _ => None
          end
      | None => Some (ps, buf, [])
      end
  end.
Fixpoint run (os : list op) (st : list any_pdu * bytes) : option (list any_pdu * bytes * list event) :=
  match os with
  | [] => Some (st, [])
  | o :: os' =>
      match step o st with
      | None => None
      | Some (st1, es) =>
          match run os' st1 with
          | None => None
          | Some (st2, es') => Some (st2, es ++ es')
          end
      end
  end.

(** The PDUs a program starts from and those it assigns. *)
Definition assigned (os : list op) : list any_pdu :=
  flat_map (fun o => match o with Assign _ p => [p] | _ => [] end) os.

(** ** Framing: a byte string is cut by the length field of each datagram, as a receiver
    of a DIS stream does. *)
Definition one_frame (fr : bytes) : Prop := (12 <= length fr)%nat /\ be2_at fr 8 = lenN fr.
Definition framed (bs : bytes) (frs : list bytes) : Prop := bs = List.concat frs /\ Forall one_frame frs.

(** The bytes contributed by one [serialize]: a frame when it succeeded, nothing when it
    returned an error. *)
Definition event_frame (e : event) (fr : bytes) : Prop :=
  match e with
  | (ROk _, existT _ c p) =>
      one_frame fr /\ byte_at fr 2 = code (cls_type c) /\ byte_at fr 3 = code (cls_family c) /\
      (exists fields, fr = PduHeader_serialize (header p) ++ fields /\ written (cls_fields c) (body p) fields) /\
      serialize c p [] = Ok (ROk tt, p, fr)
  | (RErr _, _) => fr = []
  end.
