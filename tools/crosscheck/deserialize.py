import re,glob
V=open('/verif/rocq/theories/DataTypes.v').read()
des={}
for m in re.finditer(r'Definition (\w+?)_deserialize(?: \((?:m : profile|length : \w+)\))? : reader (?:\(option )?(\w+)\)? :=\n(.*?)\.\n\n',V,re.S):
    name,ty,body=m.groups()
    items=[re.sub(r'\s+',' ',x) for x in re.findall(r'let\* \w+ := (.*?) in',body,re.S)]
    des[name]=(items,body)
norm=lambda x:x
R={}
for f in glob.glob('/repo/src/common/data_types/*.rs'):
    s=open(f).read(); s=re.sub(r'//.*','',s)
    for m in re.finditer(r'impl(?:<[^>]*>)? (?:\w+ for )?(\w+) \{(.*?)\n\}',s,re.S):
        ty,body=m.groups()
        for fm in re.finditer(r'fn deserialize(?:<[^>]*>)?\(buf: &mut [^)]*\)\s*->\s*\S+\s*\{(.*?)\n    \}',body,re.S):
            R[ty]=(f,fm.group(1))
print(len(R),len(des),set(R)^set(des))
def seq_r(b):
    out=[]
    for x in re.finditer(r'buf\.(get_\w+)\(\)|(\w+)::deserialize(_\w+)?\(buf|copy_to_slice|remaining',b):
        if x.group(1): out.append(x.group(1))
        elif x.group(2): out.append(x.group(2))
        else: out.append(x.group(0))
    return out
def seq_v(b):
    out=[]
    for x in re.finditer(r'\b(get_[uif]\d+)\b|enum_deserialize (\w+)_spec|(\w+?)_deserialize(?:_field|_simulation_address)?\b|read_remaining',b):
        out.append(x.group(1) or x.group(2) or x.group(3) or 'remaining')
    return [o for o in out if o!='enum']
for t in sorted(R):
    a=seq_r(R[t][1]); b=seq_v(des[t][1]) if t in des else None
    if a!=b: print(t,a,b)
