(** * The example programs of the repository (examples/*.rs).

    What is modelled: the loops of the four programs, with every interaction with the
    network replaced by its result. What is not: address parsing, [bind]/[connect], the
    tokio scheduler (each program is a single task; in udp_client.rs the two joined futures
    do not share data), and the text that is printed.

    A UDP [recv_from(&mut buf)] stores the datagram at the front of the buffer, drops what
    does not fit, leaves the rest of the buffer as it was and returns the number of bytes
    stored. *)
From Verif Require Import Base EnumModel Enums Header PduMacro DataTypes Pdus.

Definition addr := N.
Record packet := mk_packet { pk_data : bytes; pk_peer : addr }.

Definition recv_into (buf d : bytes) : nat * bytes :=
  (Nat.min (length d) (length buf), firstn (length buf) d ++ skipn (length d) buf).

(** [&buf[..n]] *)
Definition slice_to (n : nat) (buf : bytes) : outcome bytes :=
  if Nat.leb n (length buf) then Ok (firstn n buf) else Panic IndexOutOfBounds.

(** [Server] (udp_server.rs:14-18, radio_processing_server.rs:42-46). *)
Record server := mk_server { sv_buf : bytes; sv_to_send : option (nat * addr) }.

(** udp_server.rs:49-53, radio_processing_server.rs:99-103. *)
Definition server_start : server := mk_server (zero_bytes 1024) None.

(** How [run] stands after some iterations: still looping, returned the I/O error of a
    [?], or panicked. *)
Inductive progress := Looping (s : server) | Returned | Crashed (e : panic).

(** Both loops end with [to_send = Some(socket.recv_from(&mut buf).await?)]. [None] is a
    receive error. *)
Definition server_receive (buf : bytes) (r : option packet) : progress :=
  match r with
  | None => Returned
  | Some p => let '(n, buf') := recv_into buf (pk_data p) in Looping (mk_server buf' (Some (n, pk_peer p)))
  end.

(** ** udp_server.rs *)

(** udp_server.rs:28-36, one iteration. [send_ok] tells whether a [send_to] made in it
    succeeds, [r] is the result of [recv_from]. The first component lists the datagrams
    handed to [send_to] successfully. *)
Definition echo_iteration (s : server) (send_ok : bool) (r : option packet) : list packet * progress :=
  match sv_to_send s with
  | Some (size, peer) =>
      match slice_to size (sv_buf s) with
      | Panic e => ([], Crashed e)
      | Ok d => if send_ok then ([mk_packet d peer], server_receive (sv_buf s) r) else ([], Returned)
      end
  | None => ([], server_receive (sv_buf s) r)
  end.
Fixpoint echo_run (s : server) (env : list (bool * option packet)) : list packet * progress :=
  match env with
  | [] => ([], Looping s)
  | (ok, r) :: env' =>
      let '(out, q) := echo_iteration s ok r in
      match q with
      | Looping s' => let '(out', q') := echo_run s' env' in (out ++ out', q')
      | _ => (out, q)
      end
  end.

(** ** udp_client.rs *)

(** udp_client.rs:48-57 [send]: the datagram sent; [ts] is the timestamp read by [new]. *)
Definition ack_client_send (ts : u32) : outcome bytes :=
  match serialize AcknowledgePdu (pdu_new AcknowledgePdu ts) [] with
  | Ok (_, _, out) => Ok out
  | Panic e => Panic e
  end.
(** udp_client.rs:59-73 [recv]: reads datagrams into fresh zeroed buffers until a non-empty
    one arrives, and decodes the whole buffer. The result is the PDU that [dbg!] shows;
    [None] while no non-empty datagram has come. [ts] is the timestamp read by
    [unwrap_or_default]. *)
Fixpoint ack_client_recv (ts : u32) (ds : list bytes) : outcome (option (pdu AcknowledgePdu)) :=
  match ds with
  | [] => Ok None
  | d :: ds' =>
      let '(n, buf) := recv_into (zero_bytes 1024) d in
      if Nat.ltb 0 n then
        match deserialize AcknowledgePdu buf with
        | Panic e => Panic e
        | Ok (ROk p, _) => Ok (Some p)
        | Ok (RErr _, _) => Ok (Some (pdu_default AcknowledgePdu ts))
        end
      else ack_client_recv ts ds'
  end.

(** ** radio_processing_server.rs *)

(** radio_processing_server.rs:20-26. *)
Inductive ParsedPdu :=
| Transmitter (p : pdu TransmitterPdu)
| Signal (p : pdu SignalPdu)
| Receiver (p : pdu ReceiverPdu)
| IntercomSignal (p : pdu IntercomSignalPdu)
| IntercomControl (p : pdu IntercomControlPdu).

(** [T::deserialize(&mut buf).ok().map(f)] *)
Definition ok_map {c} (f : pdu c -> ParsedPdu) (r : outcome (result (pdu c) DISError * bytes)) : outcome (option ParsedPdu) :=
  match r with
  | Panic e => Panic e
  | Ok (ROk p, _) => Ok (Some (f p))
  | Ok (RErr _, _) => Ok None
  end.

(** radio_processing_server.rs:28-40 [deserialize_pdu]. *)
Definition deserialize_pdu (bs : bytes) : outcome (option ParsedPdu) :=
  match PduHeader_get_pdu_type bs with
  | Panic e => Panic e
  | Ok None => Ok None
  | Ok (Some t) =>
      if enum_eqb t PduType_Transmitter then ok_map Transmitter (deserialize TransmitterPdu bs)
      else if enum_eqb t PduType_Signal then ok_map Signal (deserialize SignalPdu bs)
      else if enum_eqb t PduType_Receiver then ok_map Receiver (deserialize ReceiverPdu bs)
      else if enum_eqb t PduType_IntercomSignal then ok_map IntercomSignal (deserialize IntercomSignalPdu bs)
      else if enum_eqb t PduType_IntercomControl then ok_map IntercomControl (deserialize IntercomControlPdu bs)
      else Ok None
  end.

(** One printed line: what was recognised (or nothing), the sender. The number of bytes is
    printed for unrecognised datagrams only. *)
Record report := mk_report { rp_pdu : option ParsedPdu; rp_size : nat; rp_peer : addr }.

(** radio_processing_server.rs:56-86, one iteration. *)
Definition radio_iteration (s : server) (r : option packet) : list report * progress :=
  match sv_to_send s with
  | Some (size, peer) =>
      match slice_to size (sv_buf s) with
      | Panic e => ([], Crashed e)
      | Ok d =>
          match deserialize_pdu d with
          | Panic e => ([], Crashed e)
          | Ok x => ([mk_report x size peer], server_receive (sv_buf s) r)
          end
      end
  | None => ([], server_receive (sv_buf s) r)
  end.
Fixpoint radio_run (s : server) (env : list (option packet)) : list report * progress :=
  match env with
  | [] => ([], Looping s)
  | r :: env' =>
      let '(out, q) := radio_iteration s r in
      match q with
      | Looping s' => let '(out', q') := radio_run s' env' in (out ++ out', q')
      | _ => (out, q)
      end
  end.

(** ** radio_processing_client.rs *)

(** radio_processing_client.rs:45-50 [send_pdu]: the datagram sent (empty if [serialize]
    returned an error, which is ignored). *)
Definition client_datagram (c : pdu_class) (p : pdu c) : outcome bytes :=
  match serialize c p [] with
  | Ok (_, _, out) => Ok out
  | Panic e => Panic e
  end.
(** radio_processing_client.rs:52-69: the five PDUs sent, each with its own timestamp. *)
Definition radio_client_pdus (ts : nat -> u32) : list (outcome bytes) := [
  client_datagram TransmitterPdu (pdu_new TransmitterPdu (ts 0%nat));
  client_datagram SignalPdu (pdu_new SignalPdu (ts 1%nat));
  client_datagram ReceiverPdu (pdu_new ReceiverPdu (ts 2%nat));
  client_datagram IntercomSignalPdu (pdu_new IntercomSignalPdu (ts 3%nat));
  client_datagram IntercomControlPdu (pdu_new IntercomControlPdu (ts 4%nat))].
