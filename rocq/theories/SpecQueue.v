(** * Specification vocabulary for a buffer used as a queue (C87): producers append PDUs, consumers take them.
    Nothing here models code; the operations call the modelled API. *)
From Verif Require Import Base EnumModel Enums Header PduMacro Pdus Spec.

(** What the threads do, one at a time (the buffer is behind a mutex), in the order the scheduler chooses. *)
Inductive turn := Produce (p : any_pdu) | Consume.
Definition produced (ts : list turn) : list any_pdu := flat_map (fun t => match t with Produce p => [p] | Consume => [] end) ts.

(** [Consume]: [match PduHeader::get_pdu_type(&buf) { Some(t) => deserialize of the class of type t, on buf, None => nothing }]. *)
Definition consume (m : profile) (bs : bytes) : outcome (option any_pdu * bytes) :=
  match PduHeader_get_pdu_type bs with
  | Panic e => Panic e
  | Ok None => Ok (None, bs)
  | Ok (Some t) =>
      match find (fun c => enum_eqb (cls_type c) t) (all_pdus m) with
      | None => Ok (None, bs)
      | Some c =>
          match deserialize c bs with
          | Panic e => Panic e
          | Ok (RErr _, rest) => Ok (None, rest)
          | Ok (ROk p, rest) => Ok (Some (existT _ c p), rest)
          end
      end
  end.
(** The buffer over the turns, and what each [Consume] got. *)
Fixpoint run (m : profile) (ts : list turn) (bs : bytes) : outcome (list (option any_pdu) * bytes) :=
  match ts with
  | [] => Ok ([], bs)
  | Produce (existT _ c p) :: ts' =>
      match serialize c p bs with
      | Panic e => Panic e
      | Ok (_, _, bs') => run m ts' bs'
      end
  | Consume :: ts' =>
      match consume m bs with
      | Panic e => Panic e
      | Ok (a, bs') => match run m ts' bs' with Panic e => Panic e | Ok (l, b) => Ok (a :: l, b) end
      end
  end.

(** The same with a queue of PDUs instead of the buffer. *)
Fixpoint queue (ts : list turn) (q : list any_pdu) : list (option any_pdu) * list any_pdu :=
  match ts with
  | [] => ([], q)
  | Produce p :: ts' => queue ts' (q ++ [p])
  | Consume :: ts' =>
      match q with
      | [] => let '(l, q') := queue ts' [] in (None :: l, q')
      | p :: q0 => let '(l, q') := queue ts' q0 in (Some p :: l, q')
      end
  end.
(** No list field has an element. *)
Definition plain (m : profile) (p : any_pdu) : Prop :=
  In (class_of p) (all_pdus m) /\ ordinary (class_of p) /\ clear_lists (projT2 p) = projT2 p.
(** The PDU that arrives for [p]: the same fields, and the header as [serialize] stamps it. *)
Definition becomes (p q : any_pdu) : Prop :=
  match p with existT _ c x => exists y d, q = existT _ c y /\ serialize c x [] = Ok (ROk tt, y, d) /\ body y = body x /\
    stamped (cls_type c) (cls_family c) (as_u16 (default_size c)) (header x) (header y) end.
Definition arrived (a b : option any_pdu) : Prop :=
  match a, b with Some p, Some q => becomes p q | None, None => True | _, _ => False end.
