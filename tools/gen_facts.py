# Generates rocq/theories/DataTypesFacts.v: fixed_rw for every fixed-layout record type
import sys,re
sys.path.insert(0,'/verif/tools')
import gen_dt
from gen_dt import types,order,EN,BY,PRIM
size={}
IRR={'EntityMarking','DeadReckoningParameters','SimulationIdentifier','VariableTransmitterParameters','VariableDatumRecord','GridAxisDescriptor','GridDataRecord','AntennaPattern','ModulationParameters'}
def sz(t):
    if t in BY: return BY[t]
    if t in EN: return EN[t]['get']//8
    m=re.match(r'\[(\w+); (\d+)\]$',t)
    if m: return sz(m[1])*int(m[2]) if sz(m[1]) is not None else None
    return size.get(t)
for n in order:
    if n in IRR: continue
    s=[sz(t) for _,t in types[n]['fields']]
    if all(x is not None for x in s): size[n]=sum(s)
if __name__=='__main__':
    o=open('/verif/rocq/theories/DataTypesFacts.v','w')
    o.write('''(** * Fixed-layout record types (proofs only; generated by tools/gen_facts.py). *)
From Verif Require Import Base BaseFacts EnumModel Enums EnumFacts Header PduMacro DataTypes Fixed.

''')
    for n in order:
        if n in size:
            ex=', EntityId_deserialize_simulation_address' if n=='EntityId' else ''
            o.write(f'Lemma {n}_fixed : fixed_rw {size[n]} {n}_serialize {n}_deserialize.\nProof. fixed_tac {n}_serialize {n}_deserialize. Qed.\n#[export] Hint Resolve {n}_fixed : fx.\n\n')
    print([n for n in order if n not in size])
    o.close()
