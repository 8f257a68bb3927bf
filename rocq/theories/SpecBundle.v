(** * Specification vocabulary for several PDUs in one buffer (C79): the two ways a receiver can
    take them apart. Nothing here models code; the receivers call the modelled API. *)
From Verif Require Import Base EnumModel Enums Header PduMacro Pdus Spec SpecExercise.

(** How taking a buffer apart ends: everything was taken; what is left is no PDU the library
    can decode; a decoder panicked. *)
Inductive ending := AllTaken | NotAPdu (left : bytes) | DecoderPanicked (e : panic).

(** The receiver that relies on decoders consuming what they decode: as long as the buffer is
    not empty, ask [PduHeader::get_pdu_type] and call [deserialize] of the class of that type
    on the same buffer. Every round takes at least a header, so as many rounds as there are
    bytes are enough. *)
Fixpoint rounds (m : profile) (fuel : nat) (bs : bytes) : list any_pdu * ending :=
  match fuel, bs with
  | _, [] => ([], AllTaken)
  | O, _ => ([], NotAPdu bs)
  | S fuel', _ =>
      match PduHeader_get_pdu_type bs with
      | Panic e => ([], DecoderPanicked e)
      | Ok None => ([], NotAPdu bs)
      | Ok (Some t) =>
          match find (fun c => enum_eqb (cls_type c) t) (all_pdus m) with
          | None => ([], NotAPdu bs)
          | Some c =>
              match deserialize c bs with
              | Panic e => ([], DecoderPanicked e)
              | Ok (RErr _, rest) => ([], NotAPdu rest)
              | Ok (ROk p, rest) => let '(ps, en) := rounds m fuel' rest in (existT _ c p :: ps, en)
              end
          end
      end
  end.
Definition taken_in_sequence (m : profile) (bs : bytes) : list any_pdu * ending := rounds m (length bs) bs.

(** The receiver that cuts the buffer by the length fields and decodes each piece by itself.
    It stops at a piece that is announced with less than a header or more than there is. *)
Fixpoint cuts (m : profile) (fuel : nat) (bs : bytes) : list (outcome (option any_pdu)) * bytes :=
  match fuel with
  | O => ([], bs)
  | S fuel' =>
      match PduHeader_deserialize bs with
      | Panic _ => ([], bs)
      | Ok (h, _) =>
          let n := N.to_nat (uval (header_length h)) in
          if (n <? 12)%nat || (length bs <? n)%nat then ([], bs)
          else let '(rs, rest) := cuts m fuel' (skipn n bs) in (receive m (firstn n bs) :: rs, rest)
      end
  end.
Definition taken_by_length (m : profile) (bs : bytes) : list (outcome (option any_pdu)) * bytes := cuts m (length bs) bs.

(** No list field of the PDU has an element, no optional field a value. *)
Definition no_elements (p : any_pdu) : Prop := clear_lists (projT2 p) = projT2 p.

(** The length in the header of the PDU, after [serialize], is the number of bytes written. *)
Definition announces_its_size (p : any_pdu) : Prop :=
  forall p' d, serialize (projT1 p) (projT2 p) [] = Ok (ROk tt, p', d) -> lenN d = uval (header_length (header p')).
