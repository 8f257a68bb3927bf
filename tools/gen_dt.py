# Generates DataTypes.v (model of src/common/data_types/*.rs) and DataTypesFacts.v (proofs)
import re,os,json,sys
sys.path.insert(0,'/verif/tools')
from dt import types,norm,split_top
EN={e['name']:e for e in json.load(open('/verif/tools/enums.json'))}
PRIM=['u8','u16','u32','u64','i8','i16','i32','i64','f32','f64']
BY={'u8':1,'i8':1,'u16':2,'i16':2,'u32':4,'i32':4,'f32':4,'u64':8,'i64':8,'f64':8}
def T(t):
    if t in PRIM: return t
    m=re.match(r'Vec<(.*)>$',t)
    if m: return f'list {T(m[1])}'
    m=re.match(r'\[(\w+); (\d+)\]$',t)
    if m: return f'array {T(m[1])} {m[2]}'
    if t in EN: return f'enum {t}_spec'
    if t=='String': return 'bytes'
    return t
def dflt(t):
    if t in PRIM: return f'as_uint {BY[t]} 0'
    if t.startswith('Vec<') or t=='String': return '[]'
    m=re.match(r'\[(\w+); (\d+)\]$',t)
    if m: return f'array_repeat ({dflt(m[1])}) {m[2]}'
    if t in EN: return f'enum_default {t}_spec'
    return f'{t}_default'
HAND={'EntityMarking','VariableDatumRecord','RecordSpecificationElement','RecordSpecification','GridAxisDescriptor','GridDataRecord','AntennaPattern','ModulationParameters','StandardVariableSpecification','EntityId'}
def fn(t,name,trait=None):
    for tr,f in t['impls']:
        if tr==trait and name in f: return f[name]
def cite(t,l): return f"{os.path.basename(t['file'])}:{l[0]}-{l[1]}"
def lines(b): return norm(b)
def parse_ser(t):
    n=t['name']; ft=dict(t['fields']); b=lines(fn(t,'serialize')['body']); out=[]
    while b:
        b=b.strip()
        m=re.match(r'buf\.put_(\w+)\(self\.(\w+)\);',b)
        if m: 
            assert ft[m[2]]==m[1],(n,m[0]); out.append(f'put_{m[1]} ({n}_{m[2]} v)')
        else:
            m=re.match(r'buf\.put_(u\d+)\(self\.(\w+) as (u\d+)\);',b)
            if m:
                assert m[1]==m[3] and ft[m[2]] in EN,(n,m[0]); out.append(f'put_{m[1]} (as_{m[3]} (code ({n}_{m[2]} v)))')
            else:
                m=re.match(r'self\.(\w+)\.serialize\(buf\);',b)
                if m: out.append(f'{ft[m[1]]}_serialize ({n}_{m[1]} v)')
                else:
                    m=re.match(r'for (\w+) in self\.(\w+) \{ buf\.put_(\w+)\(\1\); \}',b)
                    if m: out.append(f'List.concat (map put_{m[3]} (elems ({n}_{m[2]} v)))')
                    else:
                        m=re.match(r'for (\w+) in 0\.\.self\.(\w+)\.len\(\) \{ buf\.put_(\w+)\(self\.\2\[\1\]\); \}',b)
                        if m: out.append(f'List.concat (map put_{m[3]} ({n}_{m[2]} v))')
                        else:
                            m=re.match(r'for (\w+) in 0\.\.self\.(\w+)\.len\(\) \{ self\.\2\[\1\]\.serialize\(buf\); \}',b) or re.match(r'for (\w+) in &self\.(\w+) \{ \1\.serialize\(buf\); \}',b)
                            if m: out.append(f'List.concat (map {re.match("Vec<(.*)>",ft[m[2]])[1]}_serialize ({n}_{m[2]} v))')
                            else:
                                m=re.match(r'buf\.put_u16\(0u16\);',b)
                                if m: out.append('put_u16 (as_u16 0)')
                                else:
                                    m=re.match(r'buf\.put_bytes\(0u8, (\d+)\);',b)
                                    if m: out.append(f'zero_bytes {m[1]}')
                                    else: raise Exception((n,b))
        b=b[m.end():]
    return out
def rd(e):
    e=e.strip()
    m=re.match(r'buf\.get_(\w+)\(\)$',e)
    if m: return f'get_{m[1]}'
    m=re.match(r'(\w+)::deserialize\(buf\)$',e)
    if m: return f'enum_deserialize {m[1]}_spec' if m[1] in EN else f'{m[1]}_deserialize'
    raise Exception(e)
def parse_des(t):
    n=t['name']; ft=dict(t['fields']); b=lines(fn(t,'deserialize')['body']); out=[]
    while True:
        b=b.strip()
        m=re.match(r'let mut (\w+): \[(\w+); (\d+)\] = \[0; \3\]; for (\w+) in &mut \1 \{ \*\4 = buf\.get_(\w+)\(\); \}',b)
        if m:
            out.append((m[1],f'read_array {m[3]} ({dflt(m[2])}) get_{m[5]}'))
        else:
            m=re.match(r'let mut (\w+): Vec<(\w+)> = vec!\[\]; for _i? in 0\.\.(\w+) \{ \1\.push\((.*?)\); \}',b)
            if m: out.append((m[1],f'repeat_read (N.to_nat (uval {m[3]})) {rd(m[4]) if " " not in rd(m[4]) else "("+rd(m[4])+")"}'))
            else:
                m=re.match(r'let (\w+) = (.*?);',b)
                if m: out.append((m[1],rd(m[2])))
                else: break
        b=b[m.end():]
    m=re.match(r'Self \{(.*)\}$',b); assert m,(n,b)
    names={}
    for x in split_top(m[1]):
        if ':' in x:
            k,e=x.split(':',1); out.append((k.strip(),rd(e))); names[k.strip()]=k.strip()
        else: names[x]=x
    assert set(names)==set(ft)
    return out
def parse_len(t):
    n=t['name']; f=fn(t,'field_len','FieldLen'); L=fn(t,'LENGTH','SerializedLength')
    if L and not f: return None
    ft=dict(t['fields'])
    def ex(s):
        terms=[x.strip() for x in re.sub(r'/\*.*?\*/','',norm(s)).split('+')]; o=[]
        for x in terms:
            if re.match(r'\d+$',x): o.append(x)
            elif x=='Self::LENGTH': o.append(f'{n}_LENGTH')
            elif re.match(r'(\w+)::LENGTH$',x): o.append(x.replace('::','_'))
            else:
                m=re.match(r'self\.(\w+)\.(field_len|len)\(\)$',x); assert m,(n,x)
                ty=ft[m[1]]
                if m[2]=='len': o.append(f'lenN ({n}_{m[1]} v)')
                elif ty in PRIM: o.append(f'c_len {ty}_codec ({n}_{m[1]} v)')
                elif ty.startswith('Vec<'):
                    u=ty[4:-1]; o.append(f'c_len (vec_codec {u}_codec) ({n}_{m[1]} v)')
                else: o.append(f'{ty}_field_len ({n}_{m[1]} v)')
        return ' + '.join(o)
    return (ex(f['body']) if f else None), f['lines'] if f else None
def has_default(t): return any('Default' in d for d in t['derives']) or fn(t,'default','Default') is not None
def field_traits(t): return any(tr=='FieldLen' for tr,_ in t['impls'])
def deps(t):
    d=set()
    for _,ty in t['fields']:
        m=re.match(r'Vec<(.*)>$',ty); u=m[1] if m else ty
        if u in types: d.add(u)
    return d
order=[]
def visit(n):
    if n in order: return
    for d in sorted(deps(types[n])): visit(d)
    order.append(n)
for n in types: visit(n)
hand=open('/verif/tools/hand_dt.txt').read() if os.path.exists('/verif/tools/hand_dt.txt') else ''
H={}
for m in re.finditer(r'\(\*@@ (\w+) \*\)\n(.*?)(?=\(\*@@ |\Z)',hand,re.S): H[m[1]]=m[2]
def gen():
    o=open('/verif/rocq/theories/DataTypes.v','w')
    o.write('''(** * Record types of [src/common/data_types/*.rs].
    Generated by tools/gen_dt.py from the Rust source (the irregular types are
    transcribed by hand in tools/hand_dt.txt and spliced in). For each Rust struct [T]:
    a record [T], [T_default] ([Default]), [T_serialize], [T_deserialize] (inherent
    methods), [T_LENGTH] ([SerializedLength]), [T_field_len] ([FieldLen]) and
    [T_codec], the three field traits, whose [serialize_field]/[deserialize_field]
    forward to the inherent methods unless stated otherwise. All line numbers are in
    src/common/data_types/. [serialize] and [deserialize] are transcribed separately.
    [put_*]/[get_*] on f32/f64 move bit patterns. *)
From Verif Require Import Base EnumModel Enums Header PduMacro.

''')
    used=set()
    for n in order:
        for _,ty in types[n]['fields']:
            if ty in EN: used.add(ty)
    for n in order:
        t=types[n]
        o.write(f'(** ** {n} *)\n\n')
        if n in H: o.write(H[n].rstrip()+'\n\n'); 
        if n in H and f'Record {n}' not in H[n] or n not in H:
            o.write(f'(** {cite(t,t["sl"])}. *)\nRecord {n} := mk_{n} {{\n'+';\n'.join(f'  {n}_{f} : {T(ty)}' for f,ty in t['fields'])+'\n}.\n\n')
        if n in H: continue
        if has_default(t):
            d=fn(t,'default','Default')
            if d is None:
                o.write(f'(** {cite(t,t["sl"])}: [derive(Default)]. *)\nDefinition {n}_default : {n} := mk_{n}\n  '+'\n  '.join('('+dflt(ty)+')' for f,ty in t['fields'])+'.\n\n')
            else:
                m=re.match(r'Self \{(.*)\}$',norm(d['body'])); vals={}
                for x in split_top(m[1]):
                    k,e=[y.strip() for y in x.split(':',1)]; ty=dict(t['fields'])[k]
                    if re.match(r'\d+$',e): vals[k]=f'as_uint {BY[ty]} {e}'
                    elif e=='0.0': vals[k]=f'as_uint {BY[ty]} 0'
                    elif re.match(r'\[0; \d+\]',e): vals[k]=dflt(ty)
                    elif e==ty+'::default()': vals[k]=dflt(ty)
                    else:
                        q=re.match(r'(\w+)::(\w+)$',e); vals[k]=f'variant {q[1]}_spec {dict(EN[q[1]]["variants"])[q[2]]} eq_refl'
                o.write(f'(** {cite(t,d["lines"])}. *)\nDefinition {n}_default : {n} := mk_{n}\n  '+'\n  '.join('('+vals[f]+')' for f,ty in t['fields'])+'.\n\n')
        s=parse_ser(t)
        o.write(f'(** {cite(t,fn(t,"serialize")["lines"])}. *)\nDefinition {n}_serialize (v : {n}) : bytes :=\n  '+' ++\n  '.join(s)+'.\n\n')
        r=parse_des(t)
        o.write(f'(** {cite(t,fn(t,"deserialize")["lines"])}. *)\nDefinition {n}_deserialize : reader {n} :=\n'+''.join(f'  let* {k} := {e} in\n' for k,e in r)+f'  ret (mk_{n} '+' '.join(f for f,_ in t['fields'])+').\n\n')
        L=fn(t,'LENGTH','SerializedLength')
        if L:
            o.write(f'(** {cite(t,L["lines"])}. *)\nDefinition {n}_LENGTH : N := {L["body"].replace("::","_")}.\n\n')
        if field_traits(t):
            e,l=parse_len(t)
            o.write(f'(** {cite(t,l)}. *)\nDefinition {n}_field_len (v : {n}) : N := {e}.\n\n')
            o.write(f'(** Field traits of {n}. *)\nDefinition {n}_codec : codec {n} :=\n  mk_codec (fun v => Ok ({n}_serialize v)) {n}_deserialize {n}_field_len.\n\n')
    o.close()
if __name__=='__main__': gen()
