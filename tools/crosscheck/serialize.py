import re,glob,os
V=open('/verif/rocq/theories/DataTypes.v').read()
# model: (name -> list of (op, field))
ser={}
for m in re.finditer(r'Definition (\w+?)_serialize (?:\(m : profile\) )?\(v : (\w+)\) : (?:outcome )?bytes :=\n(.*?)\.\n\n',V,re.S):
    name,ty,body=m.groups()
    items=[]
    for x in re.finditer(r'(put_\w+|\w+_serialize(?:_field)?)?\s*\(?(?:as_\w+ )?\(?(?:code )?\(?'+ty+r'_(\w+) v\)',body):
        items.append((x.group(1),x.group(2)))
    ser[name]=items
R={}
for f in glob.glob('/repo/src/common/data_types/*.rs'):
    s=open(f).read()
    s=re.sub(r'//.*','',s)
    for m in re.finditer(r'impl(?:<[^>]*>)? (?:\w+ for )?(\w+) \{(.*?)\n\}',s,re.S):
        ty,body=m.groups()
        for fm in re.finditer(r'fn serialize(?:<[^>]*>)?\(&self, buf: &mut [^)]*\)\s*\{(.*?)\n    \}',body,re.S):
            items=[]
            for x in re.finditer(r'(?:buf\.(put_\w+)\((?:u8::from\(|i\w+::from\()?\*?(?:self\.(\w+)|(\w+)))|self\.(\w+)\.serialize\(|for .* in (?:&self\.(\w+)|self\.(\w+)\.iter)|buf\.(put_slice)\(&?self\.(\w+)',fm.group(1)):
                g=x.groups()
                items.append(g)
            R[ty]=(f,items)
print(len(R),len(ser), set(R)-set(ser), set(ser)-set(R))
bad=0
for t in sorted(R):
    f,items=R[t]
    fields_r=[]
    for g in items:
        fl=g[1] or g[3] or g[4] or g[5] or g[7]
        if fl: fields_r.append((g[0],fl))
    fields_v=ser.get(t,[])
    a=[x[1] for x in fields_r]; b=[x[1] for x in fields_v]
    # dedupe consecutive
    if a!=b:
        bad+=1; print(t,a,b)
    else:
        for (o1,_),(o2,fl) in zip(fields_r,fields_v):
            if o1 and o2 and o1!=o2: print('OP',t,fl,o1,o2)
print(bad)
