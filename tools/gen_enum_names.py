#!/usr/bin/env python3
"""Generates rocq/theories/EnumNames.v: the variant names of the enumerations, scanned from the source."""
import re,sys
L=open('/repo/src/common/enums.rs').read().split('\n')
out=[]; i=0
while i<len(L):
    m=re.match(r'pub enum (\w+) \{$',L[i])
    if m:
        j=i+1; cur=-1; vs=[]
        while L[j]!='}':
            s=L[j].strip()
            mm=re.match(r'(\w+)(?: = (\w+))?,$',s)
            if mm:
                cur=int(mm[2].replace('_',''),0) if mm[2] else cur+1
                vs.append((mm[1],cur))
            else: assert s=='' or s.startswith(('#[','//')),s
            j+=1
        if vs: out.append((m[1],i+1,j+1,vs))
        i=j
    i+=1
w=[]
w.append('''(** * The variant names of the enumerations of [src/common/enums.rs].
    [Enums] models a variant by its discriminant; here are the names by which a program writes
    it ([ForceId::Friendly]) and by which [derive(Debug)] prints it. Generated by
    tools/gen_enum_names.py from the source text; each definition cites the declaration. *)
From Coq Require Import String.
From Verif Require Import Base EnumModel Enums.
Local Open Scope string_scope.
''')
for n,a,b,vs in out:
    w.append(f'(** enums.rs:{a}-{b}. *)\nDefinition {n}_variants : list (string * N) := [')
    line='  '; 
    for k,(v,c) in enumerate(vs):
        t=f'("{v}", {c})'+('; ' if k+1<len(vs) else '')
        if len(line)+len(t)>150: w.append(line.rstrip()); line='  '
        line+=t
    w.append(line.rstrip()); w.append('].\n')
w.append('''(** All of them, each with its name. *)
Definition all_variants : list (string * list (string * N)) := [''')
w.append(';\n'.join(f'  ("{n}", {n}_variants)' for n,_,_,_ in out)); w.append('].\n')
w.append('''Definition variants_of (e : enum_spec) : list (string * N) :=
  match find (fun r => String.eqb (fst r) (e_name e)) all_variants with Some r => snd r | None => [] end.

(** The expression [E::Name]. *)
Definition enum_variant (e : enum_spec) (name : string) : option (enum e) :=
  match find (fun p => String.eqb (fst p) name) (variants_of e) with Some p => enum_from e (snd p) | None => None end.
(** [derive(Debug)] on an enumeration without fields prints the name of the variant. *)
Definition enum_debug {e} (v : enum e) : string :=
  match find (fun p => (snd p =? code v)%N) (variants_of e) with Some p => fst p | None => "" end.''')
open('/verif/rocq/theories/EnumNames.v' if len(sys.argv)<2 else sys.argv[1],'w').write('\n'.join(w)+'\n')
print(len(out),sum(len(x[3]) for x in out))
