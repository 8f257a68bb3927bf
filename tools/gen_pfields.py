# Generates rocq/theories/PduFields.v: the public struct fields of the 66 PDU classes.
import re,sys,os
sys.path.insert(0,'/verif/tools')
from pdus import pdus
import gen_pdus as G
def ty(t):
    m=re.match(r'Vec<(.*)>$',t)
    if m: return f'(list {ty(m[1])})'
    m=re.match(r'Option<(.*)>$',t)
    if m: return f'(option {ty(m[1])})'
    return t
o=open('/verif/rocq/theories/PduFields.v','w')
o.write('''(** * The public fields [p.field] of the structs generated by [define_pdu!]
    (pdu_macro.rs:231-237). Generated by tools/gen_pfields.py; the field list of each
    class is at the lines cited for it in [Pdus.v]. *)
From Verif Require Import Base EnumModel Enums Header PduMacro DataTypes Bitflags Pdus.

''')
for p in pdus:
    c=f"{os.path.basename(p['file'])}:{p['lines'][0]}-{p['lines'][1]}"
    o.write(f"(** src/{c}. *)\n")
    m=G.prof(p)
    arg='{m} ' if m else ''
    cl=f"({p['name']} m)" if m else p['name']
    acc='(body p)'
    for n,t,l in p['fields']:
        o.write(f"Definition {p['name']}_{n} {arg}(p : pdu {cl}) : {ty(t)} := fst {acc}.\n")
        acc=f'(snd {acc})'
    o.write('\n')
o.close()
