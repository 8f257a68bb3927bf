# Generates rocq/theories/WireMaps.v (spec tables) and rocq/theories/WireFacts.v (proofs)
import sys,re,os
sys.path.insert(0,'/verif/tools')
from pdus import pdus
import gen_pdus as G
from gen_facts import size,types,EN,BY,PRIM,order
LOSSY={'SimulationIdentifier':6,'DeadReckoningParameters':40}
PREFIX={'EntityMarking':1,'RecordSpecification':4,'StandardVariableSpecification':2}   # only a fixed prefix is mapped
FLAGS={'FrozenBehavior':(1,'7'),'ObjectStateAppearanceGeneral':(2,'32001')}
def width(t):
    if t in BY: return BY[t]
    if t in EN: return EN[t]['get']//8
    if t in FLAGS: return FLAGS[t][0]
    m=re.match(r'\[(\w+); (\d+)\]$',t)
    if m: return width(m[1])*int(m[2])
    if t in size: return size[t]
    if t in LOSSY: return LOSSY[t]
    return None
def leaves(t,off,name,acc,lost=False):
    "list of entry strings for a value of type t reached by expression acc"
    nm='"'+name+'"%string'
    if t in BY: return [f'{"lost" if lost else "num"} {off} {BY[t]} {nm} (fun v => uval ({acc}))']
    if t in EN: return [f'cod {off} {EN[t]["get"]//8} {t}_spec {nm} (fun v => code ({acc}))']
    if t in FLAGS: return [f'flg {off} {FLAGS[t][0]} {FLAGS[t][1]} {nm} (fun v => uval (bits ({acc})))']
    m=re.match(r'\[(\w+); (\d+)\]$',t)
    if m:
        k=width(m[1]); assert k==1
        return [f'{"lost" if lost else "num"} {off+i} 1 {nm} (fun v => uval (nth {i} (elems ({acc})) (B 0)))' for i in range(int(m[2]))]
    r=[]
    o=off
    for fn,ft in types[t]['fields']:
        w=width(ft)
        if w is None: assert t in PREFIX; break
        l = lost or (t=='SimulationIdentifier' and fn=='reference_number') or (t=='DeadReckoningParameters' and fn=='dead_reckoning_other_parameters')
        r+=leaves(ft,o,name+('.' if name else '')+fn,f'{t}_{fn} ({acc})' if acc!='v' else f'{t}_{fn} v',l)
        o+=w
    return r
def psz(t): return width(t) if width(t) is not None else PREFIX[t]
mapped=[t for t in order if t in size or t in LOSSY or t in PREFIX]
def part(t,lost=False):
    if t in BY: return f'({"lost" if lost else "uint"}_map {BY[t]})'
    if t in EN: return f'(enum_map {EN[t]["get"]//8} {t}_spec)'
    if t in FLAGS: return f'(flags_map {FLAGS[t][0]} {FLAGS[t][1]})'
    m=re.match(r'\[(\w+); (\d+)\]$',t)
    if m: return f'({"lost_" if lost else ""}array_map {m[2]})'
    return f'{t}_map'
o=open('/verif/rocq/theories/WireMaps.v','w')
o.write('''(** * Wire maps of the record types and of the fixed part of every PDU class.

    Generated by tools/gen_wire.py: the offsets are the cumulated field widths of the fields
    in the order in which the structs declare them. In a PDU the header occupies bytes 0-11. *)
From Verif Require Import Base EnumModel Enums Header PduMacro DataTypes Bitflags Pdus PduFields Spec Wire.
''')
for t in mapped:
    ls=leaves(t,0,'','v')
    o.write(f'\nDefinition {t}_map : list (entry {t}) := [\n  '+';\n  '.join(ls)+'].\n')
pm=[]
for p in pdus:
    m=G.prof(p)
    arg=' (m : profile)' if m else ''
    cl=f"({p['name']} m)" if m else p['name']
    off=12;ls=[];flds=[]
    for n,t,l in p['fields']:
        w=width(t)
        if w is None and t not in PREFIX: break
        ls+=leaves(t,off,n,f"{p['name']}_{n} v")
        flds.append((n,t))
        if w is None: off+=PREFIX[t]; break
        off+=w
    pm.append((p['name'],m,off,flds))
    o.write(f"\nDefinition {p['name']}_map{arg} : list (entry (pdu {cl})) := [\n  "+';\n  '.join(ls)+'].\n')
o.write('''
(** All maps, with the end of the mapped part. *)
Record pdu_map := mk_pdu_map { pm_class : pdu_class; pm_entries : list (entry (pdu pm_class)); pm_end : nat }.
Definition wire_maps (m : profile) : list pdu_map := [
  '''+';\n  '.join(f"mk_pdu_map {'('+n+' m)' if m else n} {'('+n+'_map m)' if m else n+'_map'} {off}" for n,m,off,_ in pm)+'].\n')
o.close()

f=open('/verif/rocq/theories/WireFacts.v','w')
f.write('''(** * The codecs follow the wire maps (proofs only; generated by tools/gen_wire.py). *)
From Verif Require Import Base BaseFacts EnumModel Enums EnumFacts Fixed Header HeaderFacts PduMacro PduMacroFacts
  DataTypes DataTypesFacts Bitflags BitflagsFacts Pdus PduFields Spec RecordFacts Wire WireMaps WireProofs.

''')
for t in mapped:
    parts=[];off=0
    for fn,ft in types[t]['fields']:
        w=width(ft)
        if w is None: break
        l=(t=='SimulationIdentifier' and fn=='reference_number') or (t=='DeadReckoningParameters' and fn=='dead_reckoning_other_parameters')
        parts.append(f'part "{fn}"%string {off} {t}_{fn} {part(ft,l)}')
        off+=w
    ps=' ++ '.join(parts)
    n=psz(t)
    assert off==n,(t,off,n)
    f.write(f'Lemma {t}_parts : {t}_map = {ps}.\nProof. reflexivity. Qed.\n')
    if t in PREFIX:
        f.write(f'(* {t}: prefix only, see WireProofs2 *)\n\n'); continue
    f.write(f'Lemma {t}_wire : wire {n} {t}_map {t}_serialize {t}_deserialize.\nProof. wire_tac {t}_parts {t}_serialize {t}_deserialize. Qed.\n#[export] Hint Resolve {t}_wire : wr.\n\n')
f.close()

# ---- PDU level
from gen_pfacts import usedE,usedT,base
f=open('/verif/rocq/theories/WireFacts.v','a')
f.write('''(** ** Field codecs *)
Create HintDb wc.
#[export] Hint Resolve FrozenBehavior_wc ObjectStateAppearanceGeneral_wc : wc.
''')
for t in PRIM:
    f.write(f'Lemma {t}_wc : wcodec {BY[t]} (uint_map {BY[t]}) {t}_codec.\nProof. exact (wcodec_of_wire _ _ _ _ _ (uint_wire {BY[t]})). Qed.\n#[export] Hint Resolve {t}_wc : wc.\n')
pe=set();pt=set()
for n,m,off,fl in pm:
    for _,t in fl:
        if t in EN: pe.add(t)
        elif t in types and t not in PREFIX: pt.add(t)
for e in sorted(pe):
    k=EN[e]['get']//8
    f.write(f'Lemma {e}_wc : wcodec {k} (enum_map {k} {e}_spec) {e}_codec.\nProof. exact (wcodec_of_wire _ _ _ _ _ (enum_wire {k} {e}_spec eq_refl)). Qed.\n#[export] Hint Resolve {e}_wc : wc.\n')
for t in order:
    if t in pt:
        f.write(f'Lemma {t}_wc : wcodec {width(t)} {t}_map {t}_codec.\nProof. exact (wcodec_of_wire _ _ _ _ _ {t}_wire). Qed.\n#[export] Hint Resolve {t}_wc : wc.\n')
f.write('''
(** ** Types of which only a prefix has a fixed place *)
Create HintDb wp.
Lemma sent_head {S T} p (g : S -> T) M n w (v : S) post : wser n M w -> Forall (sent (w (g v) ++ post) v) (part p 0 g M).
Proof. intros W. change (w (g v) ++ post) with ([] ++ w (g v) ++ post). apply sent_part; [reflexivity | apply W]. Qed.
Lemma EntityMarking_wp : wprefix EntityMarking_map EntityMarking_codec.
Proof.
  rewrite EntityMarking_parts. split; cbn [c_ser c_des EntityMarking_codec].
  - intros v b [= <-]. unfold EntityMarking_serialize. exact (sent_head _ _ _ _ _ _ _ (wire_ser _ _ _ _ (enum_wire 1 EntityMarkingCharacterSet_spec eq_refl))).
  - intros bs v rest H. unfold EntityMarking_deserialize in H. read_inv H. injection H as <- _.
    apply received_part. exact (proj2 (proj2 (wire_des _ _ _ _ (enum_wire 1 EntityMarkingCharacterSet_spec eq_refl) _ _ _ E))).
Qed.
Lemma RecordSpecification_wp m : wprefix RecordSpecification_map (RecordSpecification_codec m).
Proof.
  rewrite RecordSpecification_parts. split; cbn [c_ser c_des RecordSpecification_codec].
  - intros v b H. unfold RecordSpecification_serialize in H. apply wapp_ok in H. destruct H as [x [y [Hx [_ ->]]]]. injection Hx as <-.
    exact (sent_head _ _ _ _ _ _ _ (wire_ser _ _ _ _ (uint_wire 4))).
  - intros bs v rest H. unfold RecordSpecification_deserialize in H. read_inv H. injection H as <- _.
    apply received_part. exact (proj2 (proj2 (wire_des _ _ _ _ (uint_wire 4) _ _ _ E))).
Qed.
Lemma StandardVariableSpecification_wp : wprefix StandardVariableSpecification_map StandardVariableSpecification_codec.
Proof.
  rewrite StandardVariableSpecification_parts. split; cbn [c_ser c_des StandardVariableSpecification_codec].
  - intros v b H. rewrite StandardVariableSpecification_ser_field in H. injection H as <-. unfold StandardVariableSpecification_serialize.
    exact (sent_head _ _ _ _ _ _ _ (wire_ser _ _ _ _ (uint_wire 2))).
  - intros bs v rest H. unfold StandardVariableSpecification_deserialize in H. read_inv H. injection H as <- _.
    apply received_part. exact (proj2 (proj2 (wire_des _ _ _ _ (uint_wire 2) _ _ _ E))).
Qed.
#[export] Hint Resolve EntityMarking_wp RecordSpecification_wp StandardVariableSpecification_wp : wp.

(** ** PDU classes *)
Definition wpdu (c : pdu_class) (M : list (entry (pdu c))) : Prop :=
  exists L, wbody (cls_fields c) L /\\ M = place (fun s => s) 12 body L.
Ltac wfields :=
  first [ eapply wbody_cons; [reflexivity | cbn [f_codec f_type plain u8_field]; solve [eauto with wc nocore] | wfields]
        | eapply wbody_prefix; [reflexivity | cbn [f_codec f_type plain u8_field]; solve [eauto with wp nocore]]
        | apply wbody_nil ].
Ltac wpdu_tac c := eexists; split; [unfold c; cbn [cls_fields]; wfields | reflexivity].
''')
for n,m,off,fl in pm:
    if m: f.write(f'Lemma {n}_wpdu m : wpdu ({n} m) ({n}_map m).\nProof. wpdu_tac {n}. Qed.\n')
    else: f.write(f'Lemma {n}_wpdu : wpdu {n} {n}_map.\nProof. wpdu_tac {n}. Qed.\n')
f.write('''
Lemma all_wpdu m : Forall (fun x => wpdu (pm_class x) (pm_entries x)) (wire_maps m).
Proof.
  unfold wire_maps.
'''+''.join(f'  apply Forall_cons; [exact {"("+n+"_wpdu m)" if mm else n+"_wpdu"}|].\n' for n,mm,_,_ in pm)+'''  apply Forall_nil.
Qed.
''')
f.close()
