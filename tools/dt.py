import re,glob,os,json
def strip_comments(src):
    return '\n'.join(re.sub(r'//.*$','',l) for l in src.split('\n'))
def block(src,i):
    # i at '{'
    d=0
    for j in range(i,len(src)):
        if src[j]=='{': d+=1
        elif src[j]=='}':
            d-=1
            if d==0: return j
def ln(src,i): return src.count('\n',0,i)+1
def split_top(s,sep=','):
    out=[];d=0;cur=''
    for c in s:
        if c in '([{<': d+=1
        if c in ')]}>': d-=1
        if c==sep and d==0: out.append(cur.strip());cur=''
        else: cur+=c
    if cur.strip(): out.append(cur.strip())
    return out
types={}
def parse(f):
    src=strip_comments(open(f).read())
    t=src.find('#[cfg(test)]')
    if t>=0: src=src[:t]
    for m in re.finditer(r'((?:#\[[^\]]*\]\s*)*)pub struct (\w+) \{',src):
        j=block(src,m.end()-1)
        n=m[2]
        fl=[re.match(r'(?:pub )?(\w+): (.*)$',x,re.S).groups() for x in split_top(src[m.end():j])]
        types[n]=dict(name=n,file=f,derives=re.findall(r'derive\((.*?)\)',m[1]),fields=fl,sl=(ln(src,m.start(2)),ln(src,j)),impls=[])
    for m in re.finditer(r'impl(?:<[^>]*>)? (?:(\w+)(?:<\w+>)? for )?(\w+) \{',src):
        j=block(src,m.end()-1); body=src[m.end():j]
        fns={}
        for k in re.finditer(r'fn (\w+)[^{;]*?\{',body):
            e=block(body,k.end()-1)
            fns[k[1]]=dict(body=body[k.end():e].strip(),lines=(ln(src,m.end()+k.start()),ln(src,m.end()+e)))
        c=re.search(r'const LENGTH: usize = ([^;]*);',body)
        if c: fns['LENGTH']=dict(body=c[1],lines=(ln(src,m.end()+c.start()),)*2)
        if m[2] in types: types[m[2]]['impls'].append((m[1],fns))
        else: print('??',f,m[0])
    for m in re.finditer(r'pub enum (\w+)',src): print('enum',f,m[1])
for f in sorted(glob.glob('/repo/src/common/data_types/*.rs')):
    if not f.endswith('mod.rs'): parse(f)
def norm(s): return re.sub(r'\s+',' ',s)
if __name__=='__main__':
    for n,t in types.items():
        print('##',n,os.path.basename(t['file']),t['sl'],t['derives'])
        print('  F:',', '.join(f'{a}:{b}' for a,b in t['fields']))
        for tr,fns in t['impls']:
            for fn,d in fns.items():
                b=norm(d['body'])
                if tr=='FieldSerialize' and b=='self.serialize(buf);': continue
                if tr=='FieldDeserialize' and b=='Self::deserialize(buf)': continue
                if fn=='new' or fn in('ne','eq'): continue
                print(f"  [{tr}] {fn} {d['lines']}: {b}")
