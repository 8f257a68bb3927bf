#!/usr/bin/env python3
"""Generate rocq/theories/Constructors.v (the inherent `new` of the record types, from the
Rust source) and the statement list of Prop_New.v (from the parameter lists only)."""
import sys,os,re,io,contextlib
sys.path.insert(0,os.path.dirname(__file__))
with contextlib.redirect_stdout(io.StringIO()):
    import dt
order=[m for m in re.findall(r'^Record (\w+) :=',open(os.path.dirname(__file__)+'/../rocq/theories/DataTypes.v').read(),re.M)]
PRIM={'u8':1,'u16':2,'u32':4,'u64':8,'i8':1,'i16':2,'i32':4,'f32':4,'f64':8}
ENUMW={'EntityKind':1,'Country':2,'UAAcousticSystemName':2,'UAAcousticEmitterSystemFunction':1,'EmitterName':2,'EmitterSystemFunction':1,
 'DeadReckoningAlgorithm':1,'ComponentIdentification':1,'ComponentDamageStatus':1,'ComponentVisualSmokeColor':1,'EntityMarkingCharacterSet':1,
 'GridAxisDescriptorAxisType':1,'GriddedDataSampleType':2,'GriddedDataDataRepresentation':2}
def coqty(t):
    if t in PRIM: return t
    if t in ENUMW: return f'enum {t}_spec'
    if t=='String': return 'bytes'
    m=re.match(r'Vec<(\w+)>',t)
    if m: return f'list {coqty(m[1])}'
    m=re.match(r'\[(\w+); (\d+)\]',t)
    if m: return f'array {m[1]} {m[2]}'
    return t
def wire(a,t):
    if t in PRIM: return f'big_endian {PRIM[t]} (uval {a})'
    if t in ENUMW: return f'big_endian {ENUMW[t]} (code {a})'
    if t in('String','Vec<u8>'): return a
    m=re.match(r'Vec<(\w+)>',t)
    if m: return f'List.concat (map {m[1]}_serialize {a})'
    m=re.match(r'\[(\w+); (\d+)\]',t)
    if m: return f'flat_map (fun x => big_endian 1 (uval x)) (elems {a})'
    return f'{t}_serialize {a}'
def expr(e,ft):
    e=e.strip()
    m=re.match(r'0_?u(\d+)$',e)
    if m: return f'(as_uint {int(m[1])//8} 0)'
    if e=='vec![]': return '[]'
    if e=='[0u8; 15]': return '(array_repeat (as_uint 1 0) 15)'
    m=re.match(r'(\w+)::default\(\)$',e)
    if m: return f'{m[1]}_default'
    m=re.match(r'(\w+)::new\((.*)\)$',e)
    if m: return f'({m[1]}_new {" ".join(x.strip() for x in m[2].split(","))})'
    assert re.match(r'\w+$',e),e
    return 'new_'+e
out=['''(** * The inherent constructors [T::new] of the record types.
    Generated by tools/gen_new.py from src/common/data_types/*.rs ([EntityId::new] is in
    [DataTypes]). Parameters keep their order and their names, prefixed with [new_];
    a [const fn] is an ordinary function. *)
From Verif Require Import Base EnumModel Enums Header PduMacro DataTypes.
''']
stm=[];zero=[];skip=[]
# simulation_address first (used by others)
names=[n for n in order if n in dt.types]
for n in names:
    t=dt.types[n]; src=dt.strip_comments(open(t['file']).read())
    m=re.search(r'impl '+n+r' \{.*?fn new\((.*?)\) -> Self \{',src,re.S)
    if not m: skip.append(n); continue
    j=dt.block(src,m.end()-1); body=dt.norm(src[m.end():j]).strip()
    i=src.rfind('fn new',0,m.end())
    params=[p.split(': ',1) for p in dt.split_top(dt.norm(m[1]))]
    cite=f"{os.path.basename(t['file'])}:{dt.ln(src,i)}-{dt.ln(src,j)}"
    sig=''.join(f' (new_{a} : {coqty(ty)})' for a,ty in params)
    if body=='Self::default()': rhs=f'{n}_default'
    else:
        f=re.match(r'Self \{(.*)\}$',body)[1]
        d={}
        for x in dt.split_top(f):
            a,_,b=x.partition(':'); 
            if ': ' in x: a,b=x.split(': ',1)
            else: a=b=x
            d[a.strip()]=b.strip()
        rhs=f'mk_{n} '+' '.join(expr(d[a],ty) for a,ty in t['fields'])
        rhs=re.sub(r'\(SimulationAddress_new (\w+) (\w+)\)',r'(SimulationAddress_new new_\1 new_\2)',rhs)
    if n!='EntityId':
        out.append(f'(** {cite}. *)\nDefinition {n}_new{sig} : {n} :=\n  {rhs}.\n')
    if not params: zero.append(n); continue
    stm.append((n,params))
PADS={('DeadReckoningParameters','entity_linear_acceleration'):'big_endian 15 0',('DirectedEnergyDamage','damage_location'):'big_endian 2 0',
 ('DirectedEnergyDamage',None):'big_endian 2 0',('LinearSegmentParameter',None):'big_endian 4 0'}
HAND=('RecordSpecificationElement','RecordSpecification')
DATA={'GridAxisType':'axis_wire','DataRepresentationType':'grid_wire'}
PRE=open(os.path.dirname(os.path.abspath(__file__))+'/prop_new_head.txt').read()
POST=open(os.path.dirname(os.path.abspath(__file__))+'/prop_new_tail.txt').read()
if __name__=='__main__':
    open(sys.argv[1]+'/Constructors.v','w').write('\n'.join(out))
    L=[]
    for n,ps in stm:
        if n in HAND: continue
        w=[]
        for a,t in ps:
            if (n,a) in PADS: w.append(PADS[n,a])
            w.append(f'{DATA[t]} {a}' if t in DATA else wire(a,t))
        if (n,None) in PADS: w.append(PADS[n,None])
        L.append(f"  (forall{''.join(f' ({a} : {coqty(t)})' for a,t in ps)},\n    {n}_serialize ({n}_new {' '.join(a for a,_ in ps)}) =\n    {' ++ '.join(w)})")
    open(sys.argv[1]+'/Prop_New.v','w').write(PRE+' /\\\n'.join(L)+'.\n'+POST)
    print(len(L),zero)
