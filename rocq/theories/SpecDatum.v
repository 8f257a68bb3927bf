(** * Vocabulary for the irregular record types (specification only). *)
From Verif Require Import Base EnumModel Enums Header PduMacro DataTypes Spec Wire.

(** Value bytes and padding bytes of a variable datum of [bits] bits: the value occupies the
    least number of bytes holding that many bits, and 64-bit alignment of the value asks for
    [datum_padding] more. *)
Definition datum_bytes (bits : N) : N := (bits + 7) / 8.
Definition datum_padding (bits : N) : N := ((64 - bits mod 64) mod 64) / 8.

(** A record-specification element whose values fill the 16-bit product
    record_length * record_count exactly, as computed by the given build profile. *)
Definition element_exact (m : profile) (v : RecordSpecificationElement) : Prop :=
  (m = Checked -> element_product v < 65536) /\
  element_product v mod 65536 = N.of_nat (length (RecordSpecificationElement_record_values v)).
Definition specification_exact (m : profile) (v : RecordSpecification) : Prop :=
  counts (RecordSpecification_number_of_record_sets v) (RecordSpecification_record_sets v) /\
  Forall (element_exact m) (RecordSpecification_record_sets v).

(** The number written in ASCII decimal digits. *)
Definition ascii_value (bs : bytes) : N := fold_left (fun acc b => 10 * acc + (uval b - 48)) bs 0.
(** [bs] is the usual decimal notation of [n]: digits only, no superfluous leading zero. *)
Definition decimal_of (n : N) (bs : bytes) : Prop :=
  ascii_value bs = n /\ (forall b, In b bs -> 48 <= uval b <= 57) /\ bs <> [] /\
  (forall b, hd_error bs = Some b -> uval b = 48 -> length bs = 1%nat).
