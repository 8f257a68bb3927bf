#!/usr/bin/env python3
"""Generates rocq/theories/SpecEnums.v: per enumeration (name, wire width in bytes, number of
variants, smallest and largest code, sum of the codes, default code), with a line-based scan of
enums.rs written independently of tools/enums.py (which feeds Enums.v)."""
import re
L=open('/repo/src/common/enums.rs').read().split('\n')
en={}; order=[]; cur=None; dflt=False
for l in L:
    m=re.match(r'pub enum (\w+) \{$',l)
    if m: cur=m[1]; en[cur]=dict(codes=[],default=None); order.append(cur); continue
    if cur is None: continue
    if l.startswith('}'): cur=None; continue
    t=l.split('//')[0].strip()
    if t=='#[default]': dflt=True; continue
    m=re.match(r'(\w+)(?: = (0x[0-9a-fA-F_]+|[0-9_]+))?,$',t)
    if m:
        v=int(m[2].replace('_',''),0) if m[2] else en[cur]['codes'][-1]+1; en[cur]['codes'].append(v)
        if dflt: en[cur]['default']=v; dflt=False
    elif t and not t.startswith('#['): print('??',cur,l)
cur=None
for l in L:
    m=re.match(r'impl (\w+) \{$',l)
    if m: cur=m[1]
    if l=='}': cur=None
    m=re.search(r'\.get_u(\d+)\(\)',l)
    if m and cur: 
        assert 'w' not in en[cur]
        en[cur]['w']=int(m[1])//8
out=[(n,e) for n,e in en.items() if n in order and 'w' in e]
print(len(out),[n for n in order if 'w' not in en[n]])
o=open('/verif/rocq/theories/SpecEnums.v','w')
o.write('''(** * Table of the enumerations of src/common/enums.rs.

    One line per enumeration: name, wire width in bytes, number of variants, smallest code,
    largest code, sum of all codes, default code. Generated by tools/gen_spec_enums.py, which scans
    the source independently of the generator of [Enums]. *)
From Coq Require Import String List NArith.
Import ListNotations.
Open Scope N_scope.

Definition enum_row : Type := (string * N * N * N * N * N * N)%type.
Definition enum_table : list enum_row := [
''')
o.write(';\n'.join(f'  ("{n}"%string, {e["w"]}, {len(e["codes"])}, {min(e["codes"])}, {max(e["codes"])}, {sum(e["codes"])}, {e["default"]})' for n,e in out))
o.write('].\n')
