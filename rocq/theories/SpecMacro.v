(** * Specification vocabulary for classes that users define with [define_pdu!] (C62).

    What a field type promises, in terms of its three trait functions
    ([serialize_field], [deserialize_field], [field_len]). *)
From Verif Require Import Base EnumModel Header PduMacro Spec.

(** A field type of exactly [n] bytes: every value is written as [n] bytes, reported as such
    and read back, whatever follows; reading takes [n] bytes, looks at nothing else, and
    panics if fewer remain. *)
Record fixed_size {T} (n : nat) (c : codec T) : Prop := {
  fixed_written : forall v, exists b, c_ser c v = Ok b /\ length b = n;
  fixed_reported : forall v, c_len c v = N.of_nat n;
  fixed_read_back : forall v b rest, c_ser c v = Ok b -> c_des c (b ++ rest) = Ok (v, rest);
  fixed_reads : forall b, length b = n -> exists v, forall rest, c_des c (b ++ rest) = Ok (v, rest);
  fixed_short : forall b, (length b < n)%nat -> c_des c b = Panic Underflow }.

(** A field type that writes as many bytes as it reports, without panicking. *)
Definition measured {T} (c : codec T) : Prop :=
  forall v, exists b, c_ser c v = Ok b /\ c_len c v = N.of_nat (length b).

(** A field that decoding leaves at its default without reading anything. *)
Definition unread (f : field) : Prop :=
  f_len_attr f = None /\ forall bs, c_des (f_codec f) bs = Ok (f_default f, bs).

(** Fields of the given sizes, without length annotations. *)
Definition fixed_fields (fs : list field) (sizes : list nat) : Prop :=
  Forall2 (fun f n => f_len_attr f = None /\ fixed_size n (f_codec f)) fs sizes.
Definition measured_fields (fs : list field) : Prop := Forall (fun f => measured (f_codec f)) fs.
Definition total (sizes : list nat) : nat := fold_right Nat.add 0%nat sizes.

(** Fields that are of fixed size ([Some n]) or unread ([None]), in any order. *)
Definition mixed_fields (fs : list field) (sizes : list (option nat)) : Prop :=
  Forall2 (fun f k => match k with
                      | Some n => f_len_attr f = None /\ fixed_size n (f_codec f)
                      | None => unread f
                      end) fs sizes.
Fixpoint mixed_total (sizes : list (option nat)) : nat :=
  match sizes with
  | [] => 0
  | Some n :: l => n + mixed_total l
  | None :: l => mixed_total l
  end.

(** Values of the fields [front ++ back], given those of [front] and of [back]. *)
Fixpoint both (front back : list field) : values front -> values back -> values (front ++ back) :=
  match front return values front -> values back -> values (front ++ back) with
  | [] => fun _ w => w
  | f :: fs => fun v w => (fst v, both fs back (snd v) w)
  end.

(** The number in the [u8] field of the given name. *)
Fixpoint byte_field (name : string) (fs : list field) : values fs -> option N :=
  match fs return values fs -> option N with
  | [] => fun _ => None
  | f :: fs' => fun v =>
      if String.eqb (f_name f) name then match f_u8 f with Some (to, _) => Some (to (fst v)) | None => None end
      else byte_field name fs' (snd v)
  end.

(** The class with these fields. *)
Definition class_of (name : string) (t : PduType) (f : ProtocolFamily) (fs : list field) : pdu_class := mk_class name t f fs.
