import re,glob
from dt import strip_comments,block,ln,split_top
pdus=[]
for f in sorted(glob.glob('/repo/src/*.rs')):
    if f.endswith('pdu_macro.rs') or f.endswith('lib.rs'): continue
    raw=open(f).read(); src=strip_comments(raw)
    for m in re.finditer(r'define_pdu! \{',src):
        j=block(src,m.end()-1); b=src[m.end():j]
        name=re.search(r'struct (\w+)',b)[1]
        ty=re.search(r'pdu_type: PduType::(\w+)',b)[1]; fam=re.search(r'protocol_family: ProtocolFamily::(\w+)',b)[1]
        hdr=re.search(r'header: (\w+)',b)[1]
        k=b.find('fields: {'); e=block(b,k+8)
        fl=[]
        for x in split_top(b[k+9:e]):
            mm=re.match(r'(?:#\[len = (\w+)\]\s*)?(?:pub )?(\w+): (.*)$',x,re.S)
            fl.append((mm[2],re.sub(r'\s+','',mm[3]),mm[1]))
        pdus.append(dict(name=name,type=ty,family=fam,header=hdr,fields=fl,file=f,lines=(ln(src,m.start()),ln(src,j))))
if __name__=='__main__':
    for p in pdus:
        print(p['file'].split('/')[-1],p['lines'],p['name'],p['type'],p['family'],p['header'] if p['header']!='PduHeader' else '')
        print('   ',', '.join(f'{a}:{b}'+(f'#{c}' if c else '') for a,b,c in p['fields']))
