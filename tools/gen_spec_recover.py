#!/usr/bin/env python3
"""Generates rocq/theories/SpecRecover.v: which lists follow the fixed part of a datagram, how
many elements the PDU announces, and which reader returns one element."""
import re, sys
T = '/verif/rocq/theories/'
src = open(T + 'SpecLayout.v').read()
lists = {}   # class -> [(field, writer)]
for m in re.finditer(r'Definition (\w+)_tail (?:\{m\} )?\(p : pdu [^)]*\)*\s*: bytes :=\n(.*?)\.\n\n', src, re.S):
    cls, body = m.group(1), m.group(2)
    parts = [x.strip() for x in re.split(r'\+\+\n', body)]
    out = []
    for x in parts:
        y = re.fullmatch(r'each (\([^()]*(?:\([^()]*\))?[^()]*\)|\w+) \(%s_(\w+) p\)' % cls, x)
        out.append((y.group(2), y.group(1)) if y else None)
    lists[cls] = out
special = ['EntityStatePdu', 'AggregateStatePdu', 'TransferOwnershipPdu', 'InformationOperationsReportPdu',
           'InformationOperationsActionPdu', 'TransmitterPdu', 'SetRecordReliablePdu']
u = lambda f: lambda c: '(fun p => uval (%s_%s p))' % (c, f)
bits = lambda c: '(fun p => (uval (%s_data_length p) + 7) / 8)' % c
count = {
 'ElectromagneticEmissionsPdu': [u('number_of_systems')],
 'UnderwaterAcousticPdu': [u('number_of_shafts'), u('number_of_apas'), u('number_of_ua_emitter_systems')],
 'IFFPdu': [lambda c: '(fun p => (uval (header_length (header p)) - 88) / 24)'],
 'SupplementalEmissionPdu': [u('number_of_propulsion_systems'), u('number_of_vectoring_nozzle_systems')],
 'EntityStateUpdatePdu': [u('number_of_variable_parameters')],
 'AttributePdu': [u('number_of_attribute_record_sets')],
 'IsGroupOfPdu': [u('number_of_grouped_entities')],
 'ServiceRequestPdu': [u('number_of_supply_types')],
 'ResupplyOfferPdu': [u('number_of_supply_types')],
 'ResupplyReceivedPdu': [u('number_of_supply_types')],
 'MinefieldStatePdu': [u('number_of_perimeter_points'), u('number_of_mine_types')],
 'MinefieldQueryPdu': [u('number_of_perimeter_points'), u('number_of_sensor_types')],
 'MinefieldDataPdu': [u('number_of_sensor_types'), u('number_of_mines_in_this_pdu')],
 'MinefieldResponseNackPdu': [u('number_of_missing_pdus')],
 'SignalPdu': [bits], 'IntercomSignalPdu': [bits],
 'IntercomControlPdu': [lambda c: '(fun p => uval (IntercomControlPdu_intercom_parameters_length p) / 8)'],
 'RecordQueryReliablePdu': [u('number_of_records')],
 'EnvironmentalProcessPdu': [u('number_of_environment_records')],
 'GriddedDataPdu': [u('number_of_grid_axes')],
 'LinearObjectStatePdu': [u('number_of_segments')],
 'ArealObjectStatePdu': [u('number_of_points')],
 'DetonationPdu': [u('number_of_variable_parameters')],
 'DirectedEnergyFirePdu': [u('number_of_de_records')],
 'EntityDamageStatusPdu': [u('number_of_damage_descriptions')],
}
datum = [u('number_of_fixed_datum_records'), u('number_of_variable_datum_records')]
enums = {'MinefieldQueryPdu': 'MinefieldSensorTypes', 'MinefieldDataPdu': 'MinefieldSensorTypes', 'DataQueryReliablePdu': 'VariableRecordTypes'}
width = {'IsGroupOfPdu': 8, 'MinefieldResponseNackPdu': 8, 'SignalPdu': 1, 'IntercomSignalPdu': 1, 'RecordQueryReliablePdu': 4}
good = {'AttributeRecordSet': 'counted_AttributeRecordSet', 'ElectromagneticEmissionSystemData': 'counted_EmissionSystemData',
        'VariableDatumRecord': 'datum_filled', 'GridAxisDescriptor': 'regular_axis'}
out = []
names = []
for cls, ls in lists.items():
    if cls in special: continue
    cnt = count.get(cls, datum)
    items = []
    for i, c in enumerate(cnt):
        f, w = ls[i]
        if w == 'be': ty, rd = 'uint %d' % width[cls], 'get_uint %d' % width[cls]
        elif w.startswith('(coded'): ty, rd = enums[cls], 'enum_deserialize %s_spec' % enums[cls]
        else:
            ty = w.replace('_serialize', '')
            rd = 'mended_datum' if ty == 'VariableDatumRecord' else ty + '_deserialize'
        items.append('  mk_sent_list "%s"%%string (%s) %s_%s (%s)\n    %s %s' % (f, ty, cls, f, rd, good.get(ty, 'any_value'), c(cls)))
    rest = '[]'
    if cls == 'MinefieldDataPdu':
        tail = re.search(r'Definition MinefieldDataPdu_tail.*?:=\n(.*?)\.\n\n', src, re.S).group(1)
        rest = '\n' + '\n'.join(tail.split('\n')[2:]); 
    if cls == 'GriddedDataPdu': rest = 'each GridDataRecord_serialize (GriddedDataPdu_grid_data_list p)'
    out.append('Definition %s_lists : recovery := mk_recovery %s [\n%s]\n  (fun p => %s).\n' % (cls, cls, ';\n'.join(items), rest))
    names.append(cls + '_lists')
head = '''(** * The lists behind the fixed part of a datagram (specification only).

    Generated by tools/gen_spec_recover.py. [deserialize] of the crate never reads the list
    fields of a PDU: it returns them empty and leaves their bytes in the buffer. This file says,
    per class, what is in those bytes: which lists in which order, how many elements the fixed
    part announces, and which function of the crate reads one element. *)
From Verif Require Import Base EnumModel Enums Header PduMacro DataTypes Bitflags Pdus PduFields Spec Wire SpecDatum SpecLayout.

(** A list of a class: its elements, the [deserialize] of the element type, what is required of
    an element (for records that contain counts: that these are right), and the number of
    elements announced by the fixed part of the PDU. *)
Record sent_list (c : pdu_class) := mk_sent_list {
  sl_name : string;
  sl_type : Type;
  sl_list : pdu c -> list sl_type;
  sl_read : reader sl_type;
  sl_good : sl_type -> Prop;
  sl_announced : pdu c -> N
}.
Arguments mk_sent_list {c}.
Arguments sl_name {c}.
Arguments sl_type {c}.
Arguments sl_list {c}.
Arguments sl_read {c}.
Arguments sl_good {c}.
Arguments sl_announced {c}.
(** The lists of a class that can be read one after the other, and what follows them. *)
Record recovery := mk_recovery {
  rv_class : pdu_class;
  rv_lists : list (sent_list rv_class);
  rv_rest : pdu rv_class -> bytes
}.

(** Reading the lists from [bs], [count l] elements for list [l], returns the lists of [p] and
    leaves [rest]. *)
Fixpoint reads_back {c} (count : sent_list c -> N) (p : pdu c) (ls : list (sent_list c)) (bs rest : bytes) : Prop :=
  match ls with
  | [] => bs = rest
  | l :: ls' => exists left, repeat_read (N.to_nat (count l)) (sl_read l) bs = Ok (sl_list l p, left) /\\
                             reads_back count p ls' left rest
  end.

Definition any_value {A} (x : A) : Prop := True.
(** A variable datum whose value has as many bytes as its bit length says. The crate's own
    [deserialize] returns it with as many zero bytes in front and leaves the padding unread
    (C24); the caller drops both. *)
Definition datum_filled (v : VariableDatumRecord) : Prop :=
  N.of_nat (length (VariableDatumRecord_value v)) = datum_bytes (uval (VariableDatumRecord_length_bits v)).
Definition mended_datum : reader VariableDatumRecord := fun bs =>
  match VariableDatumRecord_deserialize bs with
  | Ok (v, rest) =>
      let bits := uval (VariableDatumRecord_length_bits v) in
      Ok (mk_VariableDatumRecord (VariableDatumRecord_datum_id v) (VariableDatumRecord_length_bits v)
            (skipn (N.to_nat (datum_bytes bits)) (VariableDatumRecord_value v)),
          skipn (N.to_nat (datum_padding bits)) rest)
  | Panic e => Panic e
  end.
(** A regular grid axis (an irregular one takes all that follows as its padding). *)
Definition regular_axis (v : GridAxisDescriptor) : Prop :=
  match GridAxisDescriptor_data v with FixedSpacing _ _ => code (GridAxisDescriptor_axis_type v) = 0 | _ => False end.

'''
tail = '''
(** The lists of an aggregate state before the number of variable data. The length of the
    padding is not announced anywhere: the caller must know it (it aligns the lists before it
    to 32 bits). *)
Definition aggregate_lists : list (sent_list AggregateStatePdu) := [
  mk_sent_list "aggregate_id_list"%string (AggregateId) AggregateStatePdu_aggregate_id_list (AggregateId_deserialize)
    any_value (fun p => uval (AggregateStatePdu_number_of_dis_aggregates p));
  mk_sent_list "entity_id_list"%string (EntityId) AggregateStatePdu_entity_id_list (EntityId_deserialize)
    any_value (fun p => uval (AggregateStatePdu_number_of_dis_entities p));
  mk_sent_list "padding"%string (uint 1) AggregateStatePdu_padding (get_uint 1)
    any_value (fun p => N.of_nat (length (AggregateStatePdu_padding p)));
  mk_sent_list "silent_aggregate_system_list"%string (EntityType) AggregateStatePdu_silent_aggregate_system_list (EntityType_deserialize)
    any_value (fun p => uval (AggregateStatePdu_number_of_silent_aggregate_types p));
  mk_sent_list "silent_entity_system_list"%string (EntityType) AggregateStatePdu_silent_entity_system_list (EntityType_deserialize)
    any_value (fun p => uval (AggregateStatePdu_number_of_silent_entity_types p))].
'''
open(sys.argv[1], 'w').write(head + '\n'.join(out) + '\nDefinition recoveries : list recovery := [\n  ' + ';\n  '.join(names) + '].\n' + tail)
print(len(names))
