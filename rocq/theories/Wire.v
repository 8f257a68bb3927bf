(** * Wire maps: vocabulary for "this field sits at this offset".

    A wire map lists the numbers that make up a record or a PDU, each with its name, byte
    offset, width in bytes and the field it belongs to. The maps themselves are in
    [WireMaps]. Independent of the codec definitions. *)
From Verif Require Import Base EnumModel Spec.

(** [w] big-endian bytes of [n], and the number written by big-endian bytes. *)
Fixpoint big_endian (w : nat) (n : N) : bytes :=
  match w with
  | O => []
  | S w' => big_endian w' (n / 256) ++ [B (n mod 256)]
  end.
Definition number (bs : bytes) : N := fold_left (fun acc b => 256 * acc + uval b) bs 0.

(** The [w] bytes from offset [off]. *)
Definition slice (off w : nat) (bs : bytes) : bytes := firstn w (skipn off bs).

Record entry (T : Type) := mk_entry {
  en_name : string;
  en_off : nat;
  en_width : nat;
  en_norm : N -> N;      (** what decoding makes of the received number *)
  en_put : T -> N;       (** the number sent *)
  en_get : T -> N        (** the field of a decoded value *)
}.
Arguments mk_entry {T}.
Arguments en_name {T} e.
Arguments en_off {T} e.
Arguments en_width {T} e.
Arguments en_norm {T} e.
Arguments en_put {T} e.
Arguments en_get {T} e.

(** An integer or float (bit pattern) field. *)
Definition num {T} (off w : nat) (name : string) (f : T -> N) : entry T := mk_entry name off w (fun n => n) f f.
(** An enumeration field: unknown codes are decoded as the default. *)
Definition known (e : enum_spec) (n : N) : N := if existsb (N.eqb n) (e_codes e) then n else e_default e.
Definition cod {T} (off w : nat) (e : enum_spec) (name : string) (f : T -> N) : entry T := mk_entry name off w (known e) f f.
(** A bit-flag field: values with a bit outside [mask] are decoded as 0. *)
Definition flg {T} (off w : nat) (mask : N) (name : string) (f : T -> N) : entry T :=
  mk_entry name off w (fun n => if N.land n mask =? n then n else 0) f f.
(** A field that is always sent as 0 (but decoded). *)
Definition lost {T} (off w : nat) (name : string) (f : T -> N) : entry T := mk_entry name off w (fun n => n) (fun _ => 0) f.

(** The bytes [bs] hold the number to send for entry [e] of [v] at its place. *)
Definition sent {T} (bs : bytes) (v : T) (e : entry T) : Prop :=
  slice (en_off e) (en_width e) bs = big_endian (en_width e) (en_put e v).
(** [v] was decoded from [bs] as far as entry [e] is concerned. *)
Definition received {T} (bs : bytes) (v : T) (e : entry T) : Prop :=
  en_get e v = en_norm e (number (slice (en_off e) (en_width e) bs)).
(** The entries cover the bytes [from, to) exactly, in order, without gap or overlap. *)
Fixpoint tiles {T} (from to : nat) (es : list (entry T)) : Prop :=
  match es with
  | [] => from = to
  | e :: es' => en_off e = from /\ tiles (from + en_width e) to es'
  end.
