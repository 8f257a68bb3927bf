#!/usr/bin/env python3
"""Check SpecTests.v against the literals of the crate's check_default_pdu_length tests."""
import re,glob,os
root=os.path.join(os.path.dirname(__file__),'..')
rows=[]
for f in sorted(glob.glob('/repo/src/**/*.rs',recursive=True)):
    t=open(f).read()
    for m in re.finditer(r'const DEFAULT_LENGTH: u16 = (\d+) / (BITS_PER_BYTE|8);\s*let pdu = (\w+)::new\(\)',t):
        rows.append((m.group(3),int(m.group(1))))
spec=[(a,int(b)) for a,b in re.findall(r'\("(\w+)"%string, (\d+)\)',open(root+'/rocq/theories/SpecTests.v').read())]
assert rows==spec and len(rows)==66
print("ok")
