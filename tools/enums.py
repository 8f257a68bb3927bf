import re,json
L=open('/repo/src/common/enums.rs').read().split('\n')
enums={}; i=0; order=[]
impls={}
while i<len(L):
    m=re.match(r'pub enum (\w+) \{$',L[i])
    if m:
        n=m[1]; st=i+1; j=i+1; vs=[]; dflt=None; nd=False; cur=-1
        # attrs above
        a=i-1; attrs=[]
        while L[a].startswith('#['): attrs.append(L[a]); a-=1
        while L[j]!='}':
            s=L[j].strip()
            if s=='#[default]': nd=True
            elif s.startswith('//') or s.startswith('#[') or s=='' : 
                if s.startswith('#['): enums.setdefault('_attrs',set()).add(s)
            else:
                mm=re.match(r'(\w+)(?: = ([\w]+))?,$',s)
                assert mm,(n,L[j])
                cur=int(mm[2].replace('_',''),0) if mm[2] else cur+1
                vs.append((mm[1],cur))
                if nd: dflt=cur; nd=False
            j+=1
        enums[n]=dict(name=n,line=st,end=j+1,variants=vs,default=dflt,attrs=attrs); order.append(n)
        i=j
    m=re.match(r'impl (?:(\w+(?:<\w+>)?) for )?(\w+) \{',L[i]) if i<len(L) else None
    if m:
        j=i
        while L[j]!='}': j+=1
        impls.setdefault(m[2],[]).append((m[1],i+1,j+1,'\n'.join(L[i+1:j])))
        i=j
    i+=1
attrs=enums.pop('_attrs',None)
if __name__=='__main__':
    print(len(order),'variant attrs',attrs)
    from collections import Counter
    c=Counter()
    for n in order:
        e=enums[n]
        for tr,a,b,t in impls.get(n,[]):
            c[(tr,re.sub(r'\d+','N',re.sub(r'\s+',' ',t)).replace(n,'X') if tr in(None,'FieldSerialize','FieldLen','FieldDeserialize') else '...')]+=1
        if n not in impls: c['noimpl '+str(e['attrs'])]+=1
    for k,v in c.most_common(): print(v,k)
    print(Counter(tuple(e['attrs']) for e in enums.values()))
    print(set(impls)-set(order))
