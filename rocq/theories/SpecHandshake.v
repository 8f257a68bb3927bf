(** * Specification vocabulary for requests and acknowledgements over an unreliable network (C90).
    Nothing here models code; the parties call the modelled API. *)
From Verif Require Import Base EnumModel Enums Header PduMacro DataTypes Pdus PduFields Spec Equality.

(** A class of requests, a class of answers, what identifies a request (e.g. its sender and its request
    number), where an answer says which request it answers, and the answer a server gives. *)
Record protocol := mk_protocol {
  rc : pdu_class;
  ac : pdu_class;
  key : Type;
  key_eqb : key -> key -> bool;
  of_request : pdu rc -> key;
  of_answer : pdu ac -> key;
  answer : pdu rc -> pdu ac
}.
(** The world: every datagram that was ever sent; the requests the server has carried out, in order;
    the requests whose answer a client has received. *)
Record world (P : protocol) := mk_world { wire : list bytes; executed : list (pdu (rc P)); completed : list (key P) }.
Arguments mk_world {P}. Arguments wire {P}. Arguments executed {P}. Arguments completed {P}.
Definition nothing {P} : world P := mk_world [] [] [].

(** A client sends (or sends again) its request number [i]; the network hands the datagram that was
    sent as number [j] to the server, or to the clients. It may hand over the same datagram many
    times, late, to both sides, or never. *)
Inductive event := Ask (i : nat) | ToServer (j : nat) | ToClient (j : nat).

(** [let mut buf = BytesMut::new(); let _ = p.serialize(&mut buf); socket.send(&buf)] *)
Definition send {P} {c : pdu_class} (p : pdu c) (w : world P) : outcome (world P) :=
  match serialize c p [] with
  | Panic e => Panic e
  | Ok (_, _, out) => Ok (mk_world (wire w ++ [out]) (executed w) (completed w))
  end.
(** The server: [if let Ok(p) = Request::deserialize(&mut buf) { if !known(key(&p)) { carry out p }; send(answer(&p)) }].
    With [remember = false] it carries out whatever it receives. *)
Definition known {P} (k : key P) (w : world P) : bool := existsb (fun p => key_eqb P k (of_request P p)) (executed w).
Definition at_server {P} (remember : bool) (d : bytes) (w : world P) : outcome (world P) :=
  match deserialize (rc P) d with
  | Panic e => Panic e
  | Ok (RErr _, _) => Ok w
  | Ok (ROk p, _) =>
      send (answer P p)
        (if remember && known (of_request P p) w then w else mk_world (wire w) (executed w ++ [p]) (completed w))
  end.
(** The client: [if let Ok(a) = Answer::deserialize(&mut buf) { completed.push(key(&a)) }]. *)
Definition at_client {P} (d : bytes) (w : world P) : outcome (world P) :=
  match deserialize (ac P) d with
  | Panic e => Panic e
  | Ok (RErr _, _) => Ok w
  | Ok (ROk a, _) => Ok (mk_world (wire w) (executed w) (of_answer P a :: completed w))
  end.
Definition step {P} (remember : bool) (requests : list (pdu (rc P))) (e : event) (w : world P) : outcome (world P) :=
  match e with
  | Ask i => match nth_error requests i with Some p => send p w | None => Ok w end
  | ToServer j => match nth_error (wire w) j with Some d => at_server remember d w | None => Ok w end
  | ToClient j => match nth_error (wire w) j with Some d => at_client d w | None => Ok w end
  end.
Fixpoint run {P} (remember : bool) (requests : list (pdu (rc P))) (es : list event) (w : world P) : outcome (world P) :=
  match es with
  | [] => Ok w
  | e :: es' => match step remember requests e w with Panic x => Panic x | Ok w' => run remember requests es' w' end
  end.

(** The protocol can work: two classes of ordinary PDUs with different type numbers; keys can be
    compared; they do not depend on the header or on the lists; an answer is to its request and can be sent. *)
Definition sound (m : profile) (P : protocol) : Prop :=
  In (rc P) (all_pdus m) /\ ordinary (rc P) /\ In (ac P) (all_pdus m) /\ ordinary (ac P) /\
  code (cls_type (rc P)) <> code (cls_type (ac P)) /\
  (forall a b, key_eqb P a b = true <-> a = b) /\
  (forall p q : pdu (rc P), body q = body (clear_lists p) -> of_request P q = of_request P p) /\
  (forall p q : pdu (ac P), body q = body (clear_lists p) -> of_answer P q = of_answer P p) /\
  (forall p, of_answer P (answer P p) = of_request P p) /\
  (forall p, exists p' d, serialize (ac P) (answer P p) [] = Ok (ROk tt, p', d)).
(** The requests can be sent. *)
Definition can_send {P} (p : pdu (rc P)) : Prop := exists p' d, serialize (rc P) p [] = Ok (ROk tt, p', d).

(** The requests that were sent, in order. *)
Definition asked {P} (requests : list (pdu (rc P))) (es : list event) : list (pdu (rc P)) :=
  flat_map (fun e => match e with
                     | Ask i => match nth_error requests i with Some p => [p] | None => [] end
                     | _ => []
                     end) es.

(** Two instances from IEEE 1278.1, simulation management. A request is identified by the requesting
    entity and its request number. StartResume, acknowledged with a response flag of the server's choice: *)
Definition start_resume (server : EntityId) (stamp : u32) (flag : AcknowledgeResponseFlag) : protocol :=
  mk_protocol StartResumePdu AcknowledgePdu (EntityId * u32) (fun a b => EntityId_eqb (fst a) (fst b) && uint_eqb (snd a) (snd b))
    (fun p => (StartResumePdu_originating_entity_id p, StartResumePdu_request_id p))
    (fun a => (AcknowledgePdu_receiving_entity_id a, AcknowledgePdu_request_id a))
    (fun p => @mk_pdu AcknowledgePdu (header (pdu_new AcknowledgePdu stamp))
       (server, (StartResumePdu_originating_entity_id p, (variant AcknowledgeFlag_spec 3 eq_refl, (flag, (StartResumePdu_request_id p, tt)))))).
(** ActionRequest, answered with an ActionResponse without data: *)
Definition action (server : EntityId) (stamp : u32) (status : ActionResponseRequestStatus) : protocol :=
  mk_protocol ActionRequestPdu ActionResponsePdu (EntityId * u32) (fun a b => EntityId_eqb (fst a) (fst b) && uint_eqb (snd a) (snd b))
    (fun p => (ActionRequestPdu_originating_entity_id p, ActionRequestPdu_request_id p))
    (fun a => (ActionResponsePdu_receiving_entity_id a, ActionResponsePdu_request_id a))
    (fun p => @mk_pdu ActionResponsePdu (header (pdu_new ActionResponsePdu stamp))
       (server, (ActionRequestPdu_originating_entity_id p, (ActionRequestPdu_request_id p, (status, (as_uint 4 0, (as_uint 4 0, ([], ([], tt))))))))).

(** The same for any class of requests with a requesting entity and a request number, acknowledged
    with an AcknowledgePdu, or with an AcknowledgeReliablePdu. *)
Definition acknowledged (c : pdu_class) (who : pdu c -> EntityId) (number : pdu c -> u32)
    (server : EntityId) (stamp : u32) (kind : AcknowledgeFlag) (flag : AcknowledgeResponseFlag) : protocol :=
  mk_protocol c AcknowledgePdu (EntityId * u32) (fun a b => EntityId_eqb (fst a) (fst b) && uint_eqb (snd a) (snd b))
    (fun p => (who p, number p)) (fun a => (AcknowledgePdu_receiving_entity_id a, AcknowledgePdu_request_id a))
    (fun p => @mk_pdu AcknowledgePdu (header (pdu_new AcknowledgePdu stamp)) (server, (who p, (kind, (flag, (number p, tt)))))).
Definition acknowledged_reliably (c : pdu_class) (who : pdu c -> EntityId) (number : pdu c -> u32)
    (server : EntityId) (stamp : u32) (kind : AcknowledgeFlag) (flag : AcknowledgeResponseFlag) : protocol :=
  mk_protocol c AcknowledgeReliablePdu (EntityId * u32) (fun a b => EntityId_eqb (fst a) (fst b) && uint_eqb (snd a) (snd b))
    (fun p => (who p, number p)) (fun a => (AcknowledgeReliablePdu_receiving_entity_id a, AcknowledgeReliablePdu_request_id a))
    (fun p => @mk_pdu AcknowledgeReliablePdu (header (pdu_new AcknowledgeReliablePdu stamp)) (server, (who p, (kind, (flag, (number p, tt)))))).
