import re
s=open('/repo/src/common/enums.rs').read()
V=open('/verif/rocq/theories/Enums.v').read()+open('/verif/rocq/theories/Header.v').read()
M={}
for m in re.finditer(r'Definition (\w+)_spec : enum_spec := mk_enum_spec "(\w+)" (\d)\s*\[\s*(.*?)\s*\]\s*(\d+) eq_refl eq_refl\.',V,re.S):
    M[m.group(1)]=(int(m.group(3)),sorted(int(x) for x in re.split(r'[;\s]+',m.group(4)) if x),int(m.group(5)))
L=s.split('\n'); i=0; R={}
cur=None
enums=re.finditer(r'pub enum (\w+) \{(.*?)\n\}',s,re.S)
for m in enums:
    n=m.group(1); body=re.sub(r'//.*','',m.group(2)); d=0; last=-1; vs={}; default=None
    pend=False
    for part in body.split(','):
        part=part.strip()
        if not part: continue
        isd='#[default]' in part
        part=re.sub(r'#\[[^\]]*\]','',part).strip()
        mm=re.match(r'(\w+)(?:\s*=\s*([\d_xa-fA-F]+))?$',part)
        if not mm: print('??',n,part); continue
        val=int(mm.group(2).replace('_',''),0) if mm.group(2) else last+1
        last=val; vs[mm.group(1)]=val
        if isd: default=val
    R[n]=(vs,default)
print(len(R),len(M),[x for x in R if x not in M],[x for x in M if x not in R])
D={}
for m in re.finditer(r'impl (\w+) \{(.*?)\n\}',s,re.S):
    n,b=m.groups()
    f=re.search(r'fn deserialize.*?buf\.get_(\w+)\(\)(.*)',b,re.S)
    if f:
        D[n]=(f.group(1),f.group(2))
bad=0
for n,(vs,df) in R.items():
    if n not in M: continue
    w,codes,d=M[n]
    if sorted(set(vs.values()))!=codes: bad+=1; print('CODES',n)
    if df!=d: bad+=1; print('DEF',n,df,d)
    if n in D:
        t={'u8':1,'u16':2,'u32':4,'i8':1,'u64':8}.get(D[n][0])
        if t!=w: bad+=1; print('W',n,D[n][0],w)
    else: print('no des',n)
print('bad',bad,len(D))
# how is the code mapped
import collections
c=collections.Counter()
for n,(t,b) in D.items():
    b2=re.sub(r'\s+',' ',b); b2=re.sub(r'\b'+n+r'\b','T',b2); c[b2[:160]]+=1
for k,v in c.most_common(8): print(v,k)
