#!/usr/bin/env python3
"""Writes rocq/theories/Prop_Defaults.v: what T::default() of each record type is on the wire.
The bytes are written here by hand (zeros unless listed)."""
import re
s=open('/verif/rocq/theories/DataTypes.v').read()
defs=re.findall(r'Definition (\w+)_default\b[^:]*:',s)
cod={m[0]:m[1] for m in re.findall(r'Definition (\w+)_codec\b([^:]*):',s)}
SIZE=dict(AcousticBeamFundamentalParameter=20,AcousticBeamData=25,AcousticEmitterSystem=4,Vector3Float=12,AcousticEmitterSystemData=20,
 AggregateId=6,AggregateMarking=32,AngularVelocity=12,AntennaPattern=0,ApaData=4,AttributeRecord=6,BeamData=20,ClockTime=8,LinearAcceleration=12,
 DeadReckoningParameters=40,EntityCoordinateVector=12,FundamentalParameterData=40,ElectromagneticEmissionBeamData=52,EntityType=8,Environment=8,
 EulerAngles=12,FundamentalOperationalData=16,IFFFundamentalParameterData=24,IntercomCommunicationsParameters=8,LayerHeader=4,WorldCoordinate=24,
 LinearSegmentParameter=66,LinearVelocity=12,ModulationParameters=0,ModulationType=8,MunitionDescriptor=16,NamedLocation=4,ObjectType=4,Point=8,
 PropulsionSystemData=8,RadioEntityType=8,RecordSpecification=4,Relationship=4,SecondaryOperationalData=4,ShaftRPMs=8,StandardVariableRecords=6,
 StandardVariableSpecification=2,SupplyQuantity=12,SystemId=6,VariableParameter=16,Vector3Double=24,VectoringNozzleSystemData=8,VelocityVector=12)
ADDR=['SimulationAddress','EntityId','AttributeRecordSet','EventId','TrackJamTarget','MinefieldIdentifier','ObjectIdentifier','SimulationIdentifier']
OTHER={'SimulationAddress':'[0; 1; 0; 1]','EntityId':'[0; 1; 0; 1; 0; 0]','AttributeRecordSet':'[0; 1; 0; 1; 0; 0; 0; 0]','EventId':'[0; 1; 0; 1; 0; 0]',
 'TrackJamTarget':'[0; 1; 0; 1; 0; 0; 0; 0]','MinefieldIdentifier':'[0; 1; 0; 1; 0; 0]','ObjectIdentifier':'[0; 1; 0; 1; 0; 0]',
 'SimulationIdentifier':'[0; 1; 0; 1; 0; 0]','DirectedEnergyDamage':'repeat 0 32 ++ [0; 1; 0; 1; 0; 0; 0; 0]','EmitterSystem':'[0; 2; 0; 0]',
 'ElectromagneticEmissionSystemData':'[0; 0; 0; 0; 0; 2; 0; 0] ++ repeat 0 12'}
EXC=['EntityMarking','VariableTransmitterParameters']
def c(d):
    if d in cod: return f'({d}_codec m)' if cod[d].strip() else f'{d}_codec'
    return f'(plain_codec {d}_serialize {d}_deserialize)'
def l(d): return OTHER[d] if d in OTHER else f'repeat 0 {SIZE[d]}'
assert set(defs)==set(SIZE)|set(OTHER)|set(EXC), set(defs)^(set(SIZE)|set(OTHER)|set(EXC))
def conj(ds): return ' /\\\n  '.join(f'default_is {c(d)} {d}_default ({l(d)})' for d in ds)
z=[d for d in defs if d in SIZE]; o=[d for d in defs if d in OTHER]
out=f"""(** * The default values of the record types (C71). Generated by tools/gen_defaults.py.
    [T::default()] of each of the {len(defs)} record types that have one. *)
From Verif Require Import Base BaseFacts EnumModel Enums EnumFacts Header PduMacro PduMacroFacts DataTypes Fixed DataTypesFacts RecordFacts Spec.

(** The default [d] of a record is written as the bytes [l], [FieldLen] says so, and reading
    these bytes, whatever follows them, gives the default back and leaves what follows: no part
    of the default differs from what [l] says. *)
Definition default_is {{T}} (c : codec T) (d : T) (l : list N) : Prop :=
  c_ser c d = Ok (map B l) /\\ (c_len c d = N.of_nat (length l)) /\\
  forall rest, c_des c (map B l ++ rest) = Ok (d, rest).
(** Records that are only part of other records have no field traits: [serialize] and
    [deserialize] (there is no [FieldLen] to compare with). *)
Definition plain_codec {{T}} (ser : T -> bytes) (des : reader T) : codec T :=
  mk_codec (fun v => Ok (ser v)) des (fun v => lenN (ser v)).

Ltac default_vm := split; [vm_compute; reflexivity | split; [vm_compute; reflexivity | intros rest; vm_compute; reflexivity]].
Lemma default_fixed {{T}} n nf (c : codec T) d l : fixed_codec n nf c -> nf d = d -> c_ser c d = Ok (map B l) -> default_is c d l.
Proof.
  intros F Nd S. destruct (fc_ser _ _ _ F d) as [b [Sb [L R]]]. rewrite Sb in S. injection S as ->.
  split; [exact Sb|]. split; [rewrite (fc_len _ _ _ F d), <- L, map_length; reflexivity|].
  intros rest. rewrite R, Nd. reflexivity.
Qed.
Lemma default_rw {{T}} n (w : T -> bytes) r len d l : fixed_rw n w r -> (forall v, len v = N.of_nat n) -> Ok (w d) = Ok (map B l) ->
  default_is (mk_codec (fun v => Ok (w v)) r len) d l.
Proof. intros F Hl E. exact (default_fixed n _ _ _ _ (fixed_codec_of_rw n w r len F Hl) eq_refl E). Qed.
Ltac default_tac := first
  [ refine (default_rw 32 AggregateMarking_serialize AggregateMarking_deserialize _ _ _ _ _ _); [exact AggregateMarking_fixed | reflexivity | vm_compute; reflexivity]
  | refine (default_rw 24 IFFFundamentalParameterData_serialize IFFFundamentalParameterData_deserialize _ _ _ _ _ _); [exact IFFFundamentalParameterData_fixed | reflexivity | vm_compute; reflexivity]
  | refine (default_rw 16 VariableParameter_serialize VariableParameter_deserialize _ _ _ _ _ _); [exact VariableParameter_fixed | reflexivity | vm_compute; reflexivity]
  | refine (default_fixed 40 zero_other_parameters _ _ _ _ _ _); [exact DeadReckoningParameters_fc | reflexivity | vm_compute; reflexivity]
  | default_vm ].

(** {len(z)} of them are all zero bytes. *)
Theorem C71_zero : forall m : profile,
  {conj(z)}.
Proof. intros m. destruct m; repeat (match goal with |- default_is _ _ _ /\\ _ => split; [default_tac|] end); default_tac. Qed.

(** Identifiers start at site 1, application 1; an emitter system starts with name 2, the
    first of its enumeration. *)
Theorem C71_other :
  {conj(o)}.
Proof. repeat (match goal with |- default_is _ _ _ /\\ _ => split; [default_tac|] end); default_tac. Qed.

(** The two exceptions. A default entity marking says it is 12 bytes long and writes one;
    variable transmitter parameters are written as six zero bytes of which three are read. *)
Theorem C71_exceptions :
  (c_ser EntityMarking_codec EntityMarking_default = Ok [B 0] /\\ c_len EntityMarking_codec EntityMarking_default = 12) /\\
  (c_ser VariableTransmitterParameters_codec VariableTransmitterParameters_default = Ok (map B (repeat 0 6)) /\\
   c_len VariableTransmitterParameters_codec VariableTransmitterParameters_default = 6 /\\
   forall rest, c_des VariableTransmitterParameters_codec (map B (repeat 0 6) ++ rest)
     = Ok (VariableTransmitterParameters_default, map B (repeat 0 3) ++ rest)).
Proof.
  split; [split; vm_compute; reflexivity|]. split; [vm_compute; reflexivity|]. split; [vm_compute; reflexivity|].
  intros rest. vm_compute. reflexivity.
Qed.
Example C71_example : c_des EntityId_codec (map B [0; 1; 0; 1; 0; 0; 9]) = Ok (EntityId_default, [B 9]).
Proof. destruct C71_other as [_ [[_ [_ H]] _]]. exact (H [B 9]). Qed.

(** What the theorems above rest on (one traversal for all of them; not part of the model). *)
Definition Prop_Defaults_theorems : True :=
  let _ := @C71_zero in
  let _ := @C71_other in
  let _ := @C71_exceptions in
  I.
Print Assumptions Prop_Defaults_theorems.
"""
open('/verif/rocq/theories/Prop_Defaults.v','w').write(out)
print(len(defs),len(z),len(o))
