(** * PDUs behind a trait object: [dyn Pdu<Header = PduHeader>].

    common/pdu.rs:13-51 declares [Pdu] so that [Box<dyn Pdu<Header = PduHeader>>] exists
    ([deserialize] and [deserialize_without_header] ask for [Sized] and cannot be called on it).
    [as_any] (pdu_macro.rs:352-354) gives the value back by [downcast_ref::<C>()]. *)
From Verif Require Import Base EnumModel Enums Header PduMacro Pdus.

(** The concrete type of an object ([TypeId] in Rust) is modelled by the position of its class
    in [all_pdus]. *)
Definition class_at (m : profile) (i : nat) : pdu_class := nth i (all_pdus m) AcknowledgePdu.
Record dyn_pdu (m : profile) := mk_dyn { dyn_type : nat; dyn_value : pdu (class_at m dyn_type) }.
Arguments mk_dyn {m} dyn_type dyn_value.
Arguments dyn_type {m} d.
Arguments dyn_value {m} d.

(** pdu_macro.rs:352-354 [as_any] and [<dyn Any>::downcast_ref] (core::any): a comparison of
    the [TypeId]s. *)
Definition downcast_ref {m} (j : nat) (o : dyn_pdu m) : option (pdu (class_at m j)) :=
  match Nat.eq_dec (dyn_type o) j with
  | left E => Some (eq_rect _ (fun k => pdu (class_at m k)) (dyn_value o) j E)
  | right _ => None
  end.

(** The methods callable on an object (common/pdu.rs:19-32; bodies pdu_macro.rs:279-324).
    [CSet h] is [*o.header_mut() = h]: every use of [header_mut] ends in some header. *)
Inductive call := CLength | CHeader | CSet (h : PduHeader) | CFinalize | CSerialize.
Inductive answer := ALength (r : result u16 DISError) | AHeader (h : PduHeader) | AUnit | ASerialize (r : result unit DISError).

Definition dyn_call {m} (k : call) (o : dyn_pdu m) (buf : bytes) : outcome (answer * dyn_pdu m * bytes) :=
  let c := class_at m (dyn_type o) in
  let p := dyn_value o in
  match k with
  | CLength => Ok (ALength (calculate_length c p), o, buf)
  | CHeader => Ok (AHeader (header p), o, buf)
  | CSet h => Ok (AUnit, mk_dyn (dyn_type o) (mk_pdu h (body p)), buf)
  | CFinalize => Ok (AUnit, mk_dyn (dyn_type o) (finalize c p), buf)
  | CSerialize =>
      match serialize c p buf with
      | Panic e => Panic e
      | Ok (r, p', buf') => Ok (ASerialize r, mk_dyn (dyn_type o) p', buf')
      end
  end.
(** A program: calls one after the other. *)
Fixpoint dyn_run {m} (ks : list call) (o : dyn_pdu m) (buf : bytes) : outcome (list answer * dyn_pdu m * bytes) :=
  match ks with
  | [] => Ok ([], o, buf)
  | k :: ks' =>
      match dyn_call k o buf with
      | Panic e => Panic e
      | Ok (a, o', buf') =>
          match dyn_run ks' o' buf' with
          | Panic e => Panic e
          | Ok (l, o'', buf'') => Ok (a :: l, o'', buf'')
          end
      end
  end.
