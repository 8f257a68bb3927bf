# Generates rocq/theories/PdusFacts.v
import sys,re,json
sys.path.insert(0,'/verif/tools')
from pdus import pdus
from gen_facts import size,types,EN,BY,PRIM,order
bits=json.load(open('/verif/tools/default_bits.json'))
IRR={'EntityStatePdu','TransmitterPdu','AggregateStatePdu','TransferOwnershipPdu','SetRecordReliablePdu','InformationOperationsActionPdu','InformationOperationsReportPdu'}
FLAGP={'StopFreezePdu','StopFreezeReliablePdu','ArealObjectStatePdu'}
def base(t):
    m=re.match(r'(?:Vec|Option)<(.*)>$',t)
    return base(m[1]) if m else t
usedE=[];usedT=[]
for p in pdus:
    for _,t,_ in p['fields']:
        b=base(t)
        if b in EN and b not in usedE: usedE.append(b)
        if b in types and b not in usedT: usedT.append(b)
if __name__=='__main__':
    o=open('/verif/rocq/theories/PdusFacts.v','w')
    o.write('''(** * Layouts of the PDU classes (proofs only; generated by tools/gen_pfacts.py). *)
From Verif Require Import Base BaseFacts EnumModel Enums EnumFacts Fixed Header HeaderFacts PduMacro PduMacroFacts
  DataTypes DataTypesFacts Bitflags BitflagsFacts Pdus Spec.

Create HintDb cd.
''')
    for t in PRIM: o.write(f'Lemma {t}_fc : fixed_codec {BY[t]} idn {t}_codec.\nProof. apply fixed_codec_of_rw; [apply fixed_uint | reflexivity]. Qed.\n#[export] Hint Resolve {t}_fc : cd.\n')
    for e in usedE:
        n=EN[e]['get']//8
        o.write(f'Lemma {e}_fc : fixed_codec {n} idn {e}_codec.\nProof. apply fixed_codec_of_rw; [apply (fixed_enum {e}_spec {n} eq_refl) | reflexivity]. Qed.\n#[export] Hint Resolve {e}_fc : cd.\n')
    for t in usedT:
        if t in size: o.write(f'Lemma {t}_fc : fixed_codec {size[t]} idn {t}_codec.\nProof. apply fixed_codec_of_rw; [apply {t}_fixed | reflexivity]. Qed.\n#[export] Hint Resolve {t}_fc : cd.\n')
        elif t!='RecordSpecification' and t!='StandardVariableSpecification':
            o.write(f'Lemma {t}_st : ser_total {t}_codec.\nProof. intros v. eexists. reflexivity. Qed.\n#[export] Hint Resolve {t}_st : cd.\n')
    o.write('''
#[export] Hint Resolve FrozenBehavior_fc ObjectStateAppearanceGeneral_fc : cd.
#[export] Hint Resolve vec_skip option_skip vec_ser_total option_ser_total : cd.
#[export] Hint Extern 9 (ser_total _) => eapply fixed_ser_total; solve [eauto with cd nocore] : cd.

(** Class shape: a fixed part of [n] bytes followed by list fields only; every field that
    is not a list decodes to itself. *)
Definition regl (names : list string) (fs : list field) (n : nat) : Prop :=
  exists nrm, layout fs n nrm /\\ forall v, nrm v = reset_fields names fs v.
Definition skl (names : list string) (fs : list field) : Prop :=
  exists nrm, skips fs nrm /\\ forall v, nrm v = reset_fields names fs v.
Definition regular (c : pdu_class) : Prop :=
  regl (list_fields c) (cls_fields c) (N.to_nat (default_size c) - 12)%nat.

Lemma skl_nil names : skl names [].
Proof. exists (fun v => v). split; [constructor | reflexivity]. Qed.
Lemma skl_cons names f fs : f_len_attr f = None -> mem_string (f_name f) names = true ->
  skip_codec (f_default f) (f_codec f) -> skl names fs -> skl names (f :: fs).
Proof.
  intros A M S [nrm [L E]]. exists (fun v => (f_default f, nrm (snd v))). split; [constructor; assumption|].
  intros v. cbn [reset_fields]. rewrite M, E. reflexivity.
Qed.
Lemma regl_skips names fs : skl names fs -> regl names fs 0.
Proof. intros [nrm [L E]]. exists nrm. split; [constructor; exact L | exact E]. Qed.
Lemma regl_fixed names f fs n m : f_len_attr f = None -> mem_string (f_name f) names = false ->
  fixed_codec n idn (f_codec f) -> regl names fs m -> regl names (f :: fs) (n + m).
Proof.
  intros A M S [nrm [L E]]. exists (fun v => (idn (fst v), nrm (snd v))). split; [apply ly_fixed; assumption|].
  intros v. cbn [reset_fields]. rewrite M, E. reflexivity.
Qed.
Lemma regl_size names fs n m : regl names fs n -> n = m -> regl names fs m.
Proof. intros H <-; exact H. Qed.

Ltac cdx := cbn [f_codec f_type f_default plain u8_field]; solve [eauto with cd nocore].
Ltac skp := first [ apply skl_nil | eapply skl_cons; [reflexivity | reflexivity | cdx | skp] ].
Ltac lay := first [ eapply regl_fixed; [reflexivity | reflexivity | cdx | lay] | eapply regl_skips; skp ].
Ltac regular_tac c :=
  let l := eval vm_compute in (list_fields c) in change (regl l (cls_fields c) (N.to_nat (default_size c) - 12)%nat);
  eapply regl_size; [cbn [cls_fields c]; lay | reflexivity].

''')
    reg=[]
    for p in pdus:
        if p['name'] in IRR or p['name'] in FLAGP: continue
        reg.append(p['name'])
        o.write(f"Lemma {p['name']}_regular : regular {p['name']}.\nProof. regular_tac {p['name']}. Qed.\n\n")
    o.close()
    print(len(reg))
