import re,glob
P=open('/verif/rocq/theories/Pdus.v').read()
M={}
for m in re.finditer(r'Definition (\w+)(?: \(m : profile\))? : pdu_class := mk_class "(\w+)" PduType_(\w+) ProtocolFamily_(\w+) \[\n(.*?)\n\]\.',P,re.S):
    fs=re.findall(r'(plain|u8_field|len_field) "(\w+)"(.*)',m.group(5))
    M[m.group(2)]=(m.group(3),m.group(4),fs)
n=0;bad=0
for f in glob.glob('/repo/src/*.rs'):
    s=re.sub(r'//.*','',open(f).read())
    for m in re.finditer(r'define_pdu!\s*\{(.*?)\n\}',s,re.S):
        b=m.group(1)
        name=re.search(r'pub struct (\w+)',b).group(1)
        ty=re.search(r'PduType::(\w+)',b).group(1); fam=re.search(r'ProtocolFamily::(\w+)',b).group(1)
        body=b[b.index('pub struct'):]
        fs=re.findall(r'((?:#\[[^\]]*\]\s*)*)(?:pub )?(\w+)\s*:\s*([^\n]+?),?\s*\n',body+'\n')
        fs=[x for x in fs if x[1] not in('struct','header','pdu_type','protocol_family','fields')]
        n+=1
        if name not in M: print('MISSING',name); continue
        t,fa,vf=M[name]
        if (t,fa)!=(ty,fam): print('TY',name)
        if [x[1] for x in fs]!=[x[1] for x in vf]: bad+=1; print(name,[x[1] for x in fs],[x[1] for x in vf])
        else:
            for (a,nm,rt),(k,_,c) in zip(fs,vf):
                rt=rt.rstrip(',').strip()
                # normalise
                def norm(rt):
                    mm=re.match(r'Vec<(.*)>$',rt)
                    if mm: return '(vec_codec '+norm(mm.group(1))+')'
                    mm=re.match(r'Option<(.*)>$',rt)
                    if mm: return '(option_codec '+norm(mm.group(1))+')'
                    return rt+'_codec'
                exp=norm(rt)
                got='u8_codec' if k=='u8_field' else c.strip()
                if not got.startswith(exp): print('T',name,nm,rt,got)
                if ('len' in a)!=(k=='len_field'): print('LEN',name,nm,a)
print(n,bad)
