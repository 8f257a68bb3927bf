from ieee_tables import *
o=[]
o.append('''(** * Layouts of IEEE 1278.1 (for C78): literals only.

    Written down from the standard's PDU and record tables (1278.1-2012, clauses 6 and 7; the
    radio entity type is the record of 1278.1a), not from the repository. Each line gives
    the standard's field name, the field of the library's API that carries it and its size in
    octets. Records are spelled out once. EntityState is listed up to its variable parameter
    records; the other PDUs up to their first list. IFF is listed with layers 1 and 2, the only form the
    library has. Trusted: the standard was not at hand in the sandbox; the paddings of
    Action Request-R, Set Record-R and Directed Energy Fire follow the sizes of the
    repository's tests ([SpecTables]). *)
From Coq Require Import String List.
Import ListNotations.
Local Open Scope string_scope.

(** A field of a record: name in the standard, path below the API field, octets. *)
Definition ieee_record := list (string * string * nat).
Inductive ieee_format := Octets (n : nat) | Record_ (r : ieee_record).
(** A field of a PDU: name in the standard, API field, format. *)
Definition ieee_pdu := list (string * string * ieee_format).
''')
q=lambda x:'"'+x+'"'
for n,s in R.items():
    fs=parse(s)
    if all(f==fs[1] for f in fs[1:]) and len(fs)>5:
        o.append(f'Definition Ieee{n} : ieee_record := ({q(fs[0][0])}, {q(fs[0][1])}, {fs[0][2]}) :: repeat ({q(fs[1][0])}, {q(fs[1][1])}, {fs[1][2]}) {len(fs)-1}.')
    elif n=='DeadReckoningParameters':
        o.append(f'Definition Ieee{n} : ieee_record := ({q(fs[0][0])}, {q(fs[0][1])}, 1) :: repeat ({q(fs[1][0])}, {q(fs[1][1])}, 1) 15 ++ [\n  '+';\n  '.join(f'({q(a)}, {q(b)}, {c})' for a,b,c in fs[16:])+'].')
    else:
        o.append(f'Definition Ieee{n} : ieee_record := [\n  '+'; '.join(f'({q(a)}, {q(b)}, {c})' for a,b,c in fs)+'].')
o.append('')
o.append('Definition ieee_layouts : list (string * ieee_pdu) := [')
items=[]
for n,s in P.items():
    l=[]
    for a,b,w in parse(s):
        w='EntityIdentifier' if w=='E' else w
        l.append(f'({q(a)}, {q(b)}, '+(f'Octets {w}' if w.isdigit() else f'Record_ Ieee{w}')+')')
    items.append(f'  ("{n}", [\n    '+';\n    '.join(l)+'])')
o.append(';\n'.join(items)+'].')
o.append("""
(** Records that occur in the lists of PDUs (those of variable size up to their own list). *)
Definition ieee_records : list (string * ieee_record) := [
"""+';\n'.join(f'  ("{n}", [\n    '+';\n    '.join(f'({q(a)}, {q(b)}, {c})' for a,b,c in parse(s))+'])' for n,s in X.items())+"].")
o.append('''
(** The fields with their offsets, a PDU's first field being at octet 12: (name in the
    standard, path in the API, offset, octets). *)
Definition placed := (string * string * nat * nat)%type.
Definition join (a b : string) : string := a ++ "." ++ b.
Definition flatten (f : string * string * ieee_format) : list (string * string * nat) :=
  let '(name, api, format) := f in
  match format with
  | Octets n => [(name, api, n)]
  | Record_ r => map (fun g : string * string * nat => let '(n2, a2, w) := g in (name ++ ", " ++ n2, join api a2, w)) r
  end.
Fixpoint place (off : nat) (l : list (string * string * nat)) : list placed :=
  match l with
  | [] => []
  | (name, api, w) :: l' => (name, api, off, w) :: place (off + w) l'
  end.
Definition ieee_fields (p : ieee_pdu) : list placed := place 12 (flat_map flatten p).
Definition octets (p : ieee_pdu) : nat := fold_right (fun (g : string * string * nat) n => snd g + n) 12 (flat_map flatten p).
''')
open('/tmp/wk/theories/SpecIeee.v','w').write('\n'.join(o))
