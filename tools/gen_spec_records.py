# Generates rocq/theories/SpecRecords.v: lists of the fixed-size record types and of the
# enumerations that are used as fields.
import re
D=open('/verif/rocq/theories/DataTypesFacts.v').read()
T=open('/verif/rocq/theories/DataTypes.v').read()
E=open('/verif/rocq/theories/Enums.v').read()
o=open('/verif/rocq/theories/SpecRecords.v','w')
o.write('''(** * The fixed-size record types and the enumerations with field traits, as lists.

    Generated by tools/gen_spec_records.py. [rt_size] is the size on the wire in bytes;
    [rt_map] the wire map of the type ([WireMaps]). *)
From Verif Require Import Base EnumModel Enums Header PduMacro DataTypes Wire WireMaps.

(** A record type: its inherent [serialize]/[deserialize] and its field traits, if any. *)
Record record_type := mk_record_type {
  rt_name : string;
  rt_type : Type;
  rt_size : nat;
  rt_serialize : rt_type -> bytes;
  rt_deserialize : reader rt_type;
  rt_field : option (codec rt_type);
  rt_map : list (entry rt_type)
}.

Definition fixed_records : list record_type := [
''')
L=[]
for n,s in re.findall(r'^Lemma (\w+)_fixed : fixed_rw (\d+)',D,re.M):
    has=re.search(rf'^Definition {n}_codec\b',T,re.M)
    L.append(f'  mk_record_type "{n}"%string {n} {s} {n}_serialize {n}_deserialize {"(Some "+n+"_codec)" if has else "None"} {n}_map')
o.write(';\n'.join(L)+'].\n')
o.write('''
(** An enumeration with field traits: wire width, [serialize_field], [field_len]
    ([deserialize_field] is its [deserialize]). *)
Record enum_field := mk_enum_field {
  ef_enum : enum_spec;
  ef_serialize_field : enum ef_enum -> bytes;
  ef_field_len : enum ef_enum -> N
}.
Definition enum_fields : list enum_field := [
''')
L=[f'  mk_enum_field {n}_spec {n}_serialize_field {n}_field_len' for n in re.findall(r'^Definition (\w+)_serialize_field',E,re.M)]
o.write(';\n'.join(L)+'].\n')
