# Generates rocq/theories/SpecLayout.v: complete layouts of PDU classes and variable-size records.
import sys,re
sys.path.insert(0,'/verif/tools')
from pdus import pdus
import gen_pdus as G
from gen_facts import size,types,EN,BY,PRIM,order
LOSSY={'SimulationIdentifier':6,'DeadReckoningParameters':40}
PREFIX={'EntityMarking':1,'RecordSpecification':4,'StandardVariableSpecification':2}   # only a fixed prefix is mapped
FLAGS={'FrozenBehavior':(1,'7'),'ObjectStateAppearanceGeneral':(2,'32001')}
def width(t):
    if t in BY: return BY[t]
    if t in EN: return EN[t]['get']//8
    if t in FLAGS: return FLAGS[t][0]
    m=re.match(r'\[(\w+); (\d+)\]$',t)
    if m: return width(m[1])*int(m[2])
    if t in size: return size[t]
    if t in LOSSY: return LOSSY[t]
    return None
def leaves(t,off,name,acc,lost=False):
    "list of entry strings for a value of type t reached by expression acc"
    nm='"'+name+'"%string'
    if t in BY: return [f'{"lost" if lost else "num"} {off} {BY[t]} {nm} (fun v => uval ({acc}))']
    if t in EN: return [f'cod {off} {EN[t]["get"]//8} {t}_spec {nm} (fun v => code ({acc}))']
    if t in FLAGS: return [f'flg {off} {FLAGS[t][0]} {FLAGS[t][1]} {nm} (fun v => uval (bits ({acc})))']
    m=re.match(r'\[(\w+); (\d+)\]$',t)
    if m:
        k=width(m[1]); assert k==1
        return [f'{"lost" if lost else "num"} {off+i} 1 {nm} (fun v => uval (nth {i} (elems ({acc})) (B 0)))' for i in range(int(m[2]))]
    r=[]
    o=off
    for fn,ft in types[t]['fields']:
        w=width(ft)
        if w is None: break
        l = lost or (t=='SimulationIdentifier' and fn=='reference_number') or (t=='DeadReckoningParameters' and fn=='dead_reckoning_other_parameters')
        r+=leaves(ft,o,name+('.' if name else '')+fn,f'{t}_{fn} ({acc})' if acc!='v' else f'{t}_{fn} v',l)
        o+=w
    return r
def w(t):
    "byte writer of type t, in the vocabulary of the specification"
    m=re.match(r'Vec<(.*)>$',t)
    if m: return f'(each {w(m[1])})'
    m=re.match(r'Option<(.*)>$',t)
    if m: return f'(maybe {w(m[1])})'
    if t in BY: return 'be'
    if t in EN: return f'(coded {EN[t]["get"]//8})'
    if t=='RecordSpecificationElement': return 'element_sent'
    return t+'_serialize'
PRE={'EntityMarking':('EntityMarking_entity_marking_string','(fun s => s)'),
     'RecordSpecification':('RecordSpecification_record_sets','(each element_sent)'),
     'StandardVariableSpecification':('StandardVariableSpecification_standard_variable_records','(each StandardVariableRecords_serialize)')}
out='''(** * Complete wire layouts: variable-size records and whole PDUs.

    Generated by tools/gen_spec_layout.py. A layout is a wire map of the numbers at fixed
    offsets ([WireMaps] for the PDU classes) followed by the elements of each list, one after
    the other, list by list in the order in which the struct declares them. *)
From Verif Require Import Base EnumModel Enums Header PduMacro DataTypes Bitflags Pdus PduFields Spec Wire WireMaps.

(** The bytes of the numbers of a wire map, one after the other. *)
Definition laid_out {T} (es : list (entry T)) (v : T) : bytes :=
  List.concat (map (fun e => big_endian (en_width e) (en_put e v)) es).
(** A number in as many big-endian bytes as its type has; the code of an enumeration in [w]
    bytes; the concatenation of the encodings of the elements of a list; an optional field:
    nothing when absent. *)
Definition be {k} (x : uint k) : bytes := big_endian k (uval x).
Definition coded {e} (w : nat) (x : enum e) : bytes := big_endian w (code x).
Definition each {A} (f : A -> bytes) (l : list A) : bytes := List.concat (map f l).
Definition maybe {A} (f : A -> bytes) (o : option A) : bytes := match o with Some x => f x | None => [] end.

(** ** Records that end with a counted list *)
Record variable_type := mk_variable_type {
  vt_name : string;
  vt_type : Type;
  vt_map : list (entry vt_type);       (** the numbers before the list *)
  vt_head : nat;                       (** how many bytes they take *)
  vt_tail : vt_type -> bytes;          (** the list *)
  vt_counted : vt_type -> Prop;        (** the count is the length of the list *)
  vt_serialize : vt_type -> bytes;
  vt_deserialize : reader vt_type
}.
'''
VT=[('AttributeRecord','AttributeRecord','be'),('AttributeRecordSet','AttributeRecordSet','AttributeRecord_serialize'),
 ('StandardVariableRecords','StandardVariableRecords','be'),('StandardVariableSpecification','StandardVariableSpecification','StandardVariableRecords_serialize'),
 ('ElectromagneticEmissionBeamData','EmissionBeamData','TrackJamTarget_serialize'),
 ('ElectromagneticEmissionSystemData','EmissionSystemData','ElectromagneticEmissionBeamData_serialize'),
 ('AcousticEmitterSystemData','AcousticEmitterSystemData','AcousticBeamData_serialize')]
def hmap(t,nm):
    ls=leaves(t,0,'','v')
    return f'\nDefinition {nm} : list (entry {t}) := [\n  '+';\n  '.join(ls)+'].\n'
def hsize(t):
    n=0
    for fn,ft in types[t]['fields']:
        if width(ft) is None: return n,fn
        n+=width(ft)
vts=[]
for t,c,f in VT:
    if t!='StandardVariableSpecification': out+=hmap(t,t+'_head')
    n,fn=hsize(t)
    h='StandardVariableSpecification_map' if t=='StandardVariableSpecification' else t+'_head'
    out+=f'Definition {t}_vt : variable_type := mk_variable_type "{t}"%string {t} {h} {n}\n  (fun v => each {f} ({t}_{fn} v)) counted_{c} {t}_serialize {t}_deserialize.\n'
    vts.append(f'  {t}_vt')
out+='\nDefinition variable_types : list variable_type := [\n'+';\n'.join(vts)+'].\n'
out+=hmap('GridAxisDescriptor','GridAxisDescriptor_head')
out+='''
(** A record-specification element: 12 bytes and as many values as the 16-bit product of record
    length and record count says. *)
Definition element_sent (v : RecordSpecificationElement) : bytes :=
  be (RecordSpecificationElement_record_id v) ++ be (RecordSpecificationElement_record_set_serial_number v) ++
  be (RecordSpecificationElement_record_length v) ++ be (RecordSpecificationElement_record_count v) ++
  firstn (N.to_nat (element_product v mod 65536)) (RecordSpecificationElement_record_values v).

(** What follows the 20 bytes of a grid axis, and the data of a grid record. *)
Definition axis_data (d : GridAxisType) : bytes :=
  match d with
  | FixedSpacing n i => be n ++ be i
  | VariableSpacing n i scale offset values padding => be n ++ be i ++ be scale ++ be offset ++ each be values ++ padding
  end.
Definition grid_data (d : DataRepresentationType) : bytes :=
  match d with
  | Type0 n values padding => be n ++ values ++ padding
  | Type1 scale offset n values padding => be scale ++ be offset ++ be n ++ each be values ++ padding
  | Type2 n padding values => be n ++ be padding ++ each be values
  end.
(** The counts inside are right, and a trailing [padding] is all that is left of the input. *)
Definition axis_data_read (d : GridAxisType) (rest : bytes) : Prop :=
  match d with
  | FixedSpacing _ _ => True
  | VariableSpacing n _ _ _ values _ => counts n values /\\ rest = []
  end.
Definition grid_data_read (d : DataRepresentationType) (rest : bytes) : Prop :=
  match d with
  | Type0 n values _ => counts n values /\\ rest = []
  | Type1 _ _ n values _ => counts n values /\\ rest = []
  | Type2 n _ values => counts n values
  end.
(** Which alternative a code selects. *)
Definition axis_kind (d : GridAxisType) : N := match d with FixedSpacing _ _ => 0 | VariableSpacing _ _ _ _ _ _ => 1 end.
Definition grid_kind (d : DataRepresentationType) : N := match d with Type0 _ _ _ => 0 | Type1 _ _ _ _ _ => 1 | Type2 _ _ _ => 2 end.

(** ** Whole PDUs: the wire map of the class, where it ends, and what follows *)
Record pdu_layout := mk_pdu_layout {
  pl_class : pdu_class;
  pl_map : list (entry (pdu pl_class));
  pl_end : nat;
  pl_tail : pdu pl_class -> bytes
}.
'''
maps=open('/verif/rocq/theories/WireMaps.v').read()
ents=[]
for p in pdus:
    nm=p['name']; m=G.prof(p)
    arg='{m} ' if m else ''
    cl=f"({nm} m)" if m else nm
    end=re.search(r'mk_pdu_map \(?%s(?: m\))? \S+(?: m\))? (\d+)'%nm,maps)[1]
    mp=f'({nm}_map m)' if m else nm+'_map'
    parts=[];on=False
    for n,t,l in p['fields']:
        fld=f'({nm}_{n} p)'
        if t in PRE:
            a,b=PRE[t]; on=True
            parts.append(f'{a} {fld}' if t=='EntityMarking' else f'{b[1:-1]} ({a} {fld})')
        elif t.startswith(('Vec<','Option<')): on=True; parts.append(w(t)[1:-1]+' '+fld)
        elif on: parts.append(w(t).strip('()')+' '+fld)
    if parts:
        out+=f'\nDefinition {nm}_tail {arg}(p : pdu {cl}) : bytes :=\n  '+' ++\n  '.join(parts)+'.\n'
        ents.append(f'  mk_pdu_layout {cl} {mp} {end} {nm}_tail')
    else: ents.append(f'  mk_pdu_layout {cl} {mp} {end} (fun _ => [])')
out+='\nDefinition layouts (m : profile) : list pdu_layout := [\n'+';\n'.join(ents)+'].\n'
open(sys.argv[1] if len(sys.argv)>1 else '/verif/rocq/theories/SpecLayout.v','w').write(out)
