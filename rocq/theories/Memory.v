(** * Memory requested up front by decoding.
    Two decoders ask the allocator for memory of a size taken from the input before they have
    seen that the input is that long: [vec![0u8; value_bytes]] (datum_records.rs:90) and
    [Vec::with_capacity(n)] (standard_variable_specification.rs:58). All other decoders push
    onto a vector that starts empty, one element per element read. The two functions are
    repeated here with that request made visible. The growth of vectors by [push] is not
    modelled. *)
From Verif Require Import Base EnumModel Enums Header PduMacro DataTypes.

(** What a call asked for up front (in elements), and how it ended. *)
Record run (A : Type) := mk_run { requested : N; outcome_of : outcome (A * bytes) }.
Arguments mk_run {A} requested outcome_of.
Arguments requested {A} r.
Arguments outcome_of {A} r.

(** datum_records.rs:85-100: [value_bytes] elements of one byte at line 90. *)
Definition VariableDatumRecord_deserialize_run (bs : bytes) : run VariableDatumRecord :=
  match get_u32 bs with
  | Panic e => mk_run 0 (Panic e)
  | Ok (datum_id, bs1) =>
      match get_u32 bs1 with
      | Panic e => mk_run 0 (Panic e)
      | Ok (length_bits, bs2) =>
          let value_bytes := VariableDatumRecord_bytes_count length_bits in
          mk_run value_bytes
            (match repeat_read (N.to_nat value_bytes) get_u8 bs2 with
             | Panic e => Panic e
             | Ok (pushed, bs3) =>
                 Ok (mk_VariableDatumRecord datum_id length_bits (zero_bytes (N.to_nat value_bytes) ++ pushed), bs3)
             end)
      end
  end.

(** standard_variable_specification.rs:56-66: [number_of_standard_variable_records] elements of
    the size of a [StandardVariableRecords] at line 58. *)
Definition StandardVariableSpecification_deserialize_field_run (bs : bytes) : run StandardVariableSpecification :=
  match get_u16 bs with
  | Panic e => mk_run 0 (Panic e)
  | Ok (n, bs1) =>
      mk_run (uval n)
        (match repeat_read (N.to_nat (uval n)) (c_des StandardVariableRecords_codec) bs1 with
         | Panic e => Panic e
         | Ok (records, bs2) => Ok (mk_StandardVariableSpecification n records, bs2)
         end)
  end.
