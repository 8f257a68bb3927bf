# Generates rocq/theories/Pdus.v: the 66 define_pdu! invocations of /repo/src/*.rs
import re,json,sys,os
sys.path.insert(0,'/verif/tools')
from pdus import pdus
from dt import types
EN={e['name']:e for e in json.load(open('/verif/tools/enums.json'))}
PRIM=['u8','u16','u32','u64','i8','i16','i32','i64','f32','f64']
BY={'u8':1,'i8':1,'u16':2,'i16':2,'u32':4,'i32':4,'f32':4,'u64':8,'i64':8,'f64':8}
FLAGS=['FrozenBehavior','ObjectStateAppearanceGeneral']
used=set()
def codec(t):
    m=re.match(r'Vec<(.*)>$',t)
    if m: return f'(vec_codec {codec(m[1])})'
    m=re.match(r'Option<(.*)>$',t)
    if m: return f'(option_codec {codec(m[1])})'
    if t in PRIM or t in FLAGS: return t+'_codec'
    if t in EN: used.add(t); return t+'_codec'
    assert t in types,t
    return '(RecordSpecification_codec m)' if t=='RecordSpecification' else t+'_codec'
def dflt(t):
    if t.startswith('Vec<'): return '[]'
    if t.startswith('Option<'): return 'None'
    if t in PRIM: return f'(as_uint {BY[t]} 0)'
    if t in EN: return f'(enum_default {t}_spec)'
    return t+'_default'
body=''
def prof(p): return any('RecordSpecification' in t for _,t,_ in p['fields'])
for p in pdus:
    assert p['header']=='PduHeader'
    fl=[]
    for n,t,l in p['fields']:
        if l:
            assert t=='Option<ModulationParameters>'
            fl.append(f'  len_field "{n}" {codec(t)} {dflt(t)} "{l}"\n    (option_deserialize_with_len ModulationParameters_deserialize_with_len)')
        elif t=='u8': fl.append(f'  u8_field "{n}"')
        else: fl.append(f'  plain "{n}" {codec(t)} {dflt(t)}')
    arg=' (m : profile)' if prof(p) else ''
    c=f"{os.path.basename(p['file'])}:{p['lines'][0]}-{p['lines'][1]}"
    body+=f"(** src/{c}. *)\nDefinition {p['name']}{arg} : pdu_class := mk_class \"{p['name']}\" PduType_{p['type']} ProtocolFamily_{p['family']} [\n"+';\n'.join(fl)+'\n].\n\n'
o=open('/verif/rocq/theories/Pdus.v','w')
o.write('''(** * The 66 PDU classes ([define_pdu!] invocations in [src/*.rs]).
    Generated by tools/gen_pdus.py from the source text. The two classes that contain
    a [RecordSpecification] depend on the build profile (overflow checks). *)
From Verif Require Import Base EnumModel Enums Header PduMacro DataTypes Bitflags.
Local Open Scope string_scope.

(** ** Field traits of the enumerations used as PDU fields
    ([FieldDeserialize::deserialize_field] forwards to [deserialize]). *)
''')
for e in [x for x in EN if x in used]:
    E=EN[e]
    o.write(f"(** enums.rs:{E['sl'][0]}-{E['ll'][1]}. *)\nDefinition {e}_codec : codec {e} := mk_codec (fun v => Ok ({e}_serialize_field v)) (enum_deserialize {e}_spec) {e}_field_len.\n")
o.write('\n(** ** Classes *)\n\n'+body)
o.write('(** All 66 classes. *)\nDefinition all_pdus (m : profile) : list pdu_class := [\n'+';\n'.join('  '+p['name']+(' m' if prof(p) else '') for p in pdus)+'\n].\n')
o.close()
