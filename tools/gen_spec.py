# Generates rocq/theories/SpecTables.v: tables from the standard / the repository's tests.
import json,sys
sys.path.insert(0,'/verif/tools')
from pdus import pdus
bits=json.load(open('/verif/tools/default_bits.json'))
# PDU type numbers of IEEE 1278.1-2012 / SISO-REF-010 (UID 4), written down independently of the repository
IEEE="""EntityState Fire Detonation Collision ServiceRequest ResupplyOffer ResupplyReceived ResupplyCancel RepairComplete RepairResponse
CreateEntity RemoveEntity StartResume StopFreeze Acknowledge ActionRequest ActionResponse DataQuery SetData Data EventReport Comment
ElectromagneticEmissions Designator Transmitter Signal Receiver IFF UnderwaterAcoustic SupplementalEmission IntercomSignal IntercomControl
AggregateState IsGroupOf TransferOwnership IsPartOf MinefieldState MinefieldQuery MinefieldData MinefieldResponseNack
EnvironmentalProcess GriddedData PointObjectState LinearObjectState ArealObjectState TSPI Appearance ArticulatedParts LEFire LEDetonation
CreateEntityReliable RemoveEntityReliable StartResumeReliable StopFreezeReliable AcknowledgeReliable ActionRequestReliable ActionResponseReliable
DataQueryReliable SetDataReliable DataReliable EventReportReliable CommentReliable RecordReliable SetRecordReliable RecordQueryReliable
CollisionElastic EntityStateUpdate DirectedEnergyFire EntityDamageStatus InformationOperationsAction InformationOperationsReport Attribute""".split()
num={n:i+1 for i,n in enumerate(IEEE)}
FAM={1:[1,4,66,67,72],2:[2,3,68,69],3:[5,6,7,8,9,10],4:[25,26,27,31,32],5:list(range(11,23)),6:[23,24,28,29,30],7:[33,34,35,36],8:[37,38,39,40],9:[41,42,43,44,45],10:list(range(51,66)),11:[46,47,48,49,50],13:[70,71]}
fam={t:f for f,l in FAM.items() for t in l}
o=open('/verif/rocq/theories/SpecTables.v','w')
o.write('''(** * Tables of the specification (literals only; see tools/gen_spec.py).

    [pdu_table]: PDU class name, PDU type number and protocol family number of
    IEEE 1278.1-2012 (SISO-REF-010 UID 4 and 5, written down from the standard, not
    from the repository), and the size in bits of a default PDU as listed in the
    repository's own unit tests. *)
From Coq Require Export String List NArith.
Export ListNotations.
Local Open Scope string_scope.
Local Open Scope N_scope.

Definition pdu_table : list (string * (N * N * N)) := [
''')
rows=[]
for p in sorted(pdus,key=lambda p:num[p['name'][:-3]]):
    n=num[p['name'][:-3]]
    rows.append(f'  ("{p["name"]}", ({n}, {fam[n]}, {bits[p["name"]][0]}))')
o.write(';\n'.join(rows)+'\n].\n\n(** The variable-length (list) fields of each class that has some. *)\nDefinition list_fields_table : list (string * list string) := [\n')
rows=[]
for p in pdus:
    l=[n for n,t,a in p['fields'] if t.startswith('Vec<') or t.startswith('Option<')]
    if l: rows.append(f'  ("{p["name"]}", ['+'; '.join(f'"{x}"' for x in l)+'])')
o.write(';\n'.join(rows)+'\n].\n')
o.close()
