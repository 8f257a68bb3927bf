from enums import *
import re
for n in order:
    e=enums[n]; d={}
    for tr,a,b,t in impls[n]:
        if tr is None:
            m=re.search(r'from_u(\d+)\(buf.get_u(\d+)\(\)\)',t); d['from']=int(m[1]);d['get']=int(m[2]); d['dl']=(a,b)
        if tr=='FieldSerialize':
            m=re.search(r'put_u(\d+)\(\*self as u(\d+)\)',t); d['put']=int(m[1]);d['as']=int(m[2]); d['sl']=(a,b)
        if tr=='FieldLen':
            m=re.search(r'\{\s*(\d+)\s*\}',t); d['len']=int(m[1]); d['ll']=(a,b)
    e.update(d)
    mx=max(v for _,v in e['variants']); mn=min(v for _,v in e['variants'])
    vals=[v for _,v in e['variants']]
    w=[]
    if d['from']!=d['get']: w.append('from/get')
    if 'put' in d:
        if d['put']!=d['as'] or d['put']!=d['get'] or d['len']*8!=d['get']: w.append('width')
    if mx>=2**d['get']: w.append('max %d'%mx)
    if len(set(vals))!=len(vals): w.append('dup')
    if e['default'] is None: w.append('nodefault')
    if e['default']!=0 and 'put' in d: w.append('default=%s'%e['default'])
    if 0 not in vals and 'put' in d: w.append('no 0')
    if w: print(n,e['line'],w,{k:d[k] for k in d if k not in('dl','sl','ll')})
json.dump([enums[n] for n in order],open('enums.json','w'))
