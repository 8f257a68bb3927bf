(** * Facts about the 66 classes as a whole (proofs only). *)
From Verif Require Import Base BaseFacts EnumModel Enums EnumFacts Fixed Header HeaderFacts PduMacro PduMacroFacts
  DataTypes DataTypesFacts Bitflags BitflagsFacts Pdus PdusFacts RecordFacts Spec.

(** Proving [forall c, In c (all_pdus m) -> P c] class by class. *)
Ltac all_classes tac :=
  match goal with |- Forall _ (all_pdus _) => unfold all_pdus; repeat (apply Forall_cons; [tac|]); apply Forall_nil end.
Lemma all_intro (P : pdu_class -> Prop) m : Forall P (all_pdus m) -> forall c, In c (all_pdus m) -> P c.
Proof. intros F c. rewrite Forall_forall in F. apply F. Qed.
Ltac by_class := match goal with |- forall c, In c (all_pdus ?m) -> @?P c => apply (all_intro P m); cbv beta end.

(** ** Automatic length fields *)
Record prep_ok (c : pdu_class) : Prop := {
  prep_idem : forall v, prep_body (cls_fields c) (prep_body (cls_fields c) v) = prep_body (cls_fields c) v;
  prep_reset : forall v, reset_fields (auto_len_fields c) (cls_fields c) (prep_body (cls_fields c) v)
                       = reset_fields (auto_len_fields c) (cls_fields c) v;
  prep_len : forall v, body_len (cls_fields c) (prep_body (cls_fields c) v) = body_len (cls_fields c) v;
  prep_default : auto_len_fields c = [] -> forall v, prep_body (cls_fields c) v = v }.
Lemma no_len_prep_ok c : no_len_attr (cls_fields c) = true -> prep_ok c.
Proof.
  intros H. assert (E : forall v, prep_body (cls_fields c) v = v) by (intros; apply no_len_prep, H).
  split; intros; rewrite ?E; reflexivity.
Qed.
Lemma assign_assign n x fs : forall v, assign_u8 n x fs (assign_u8 n x fs v) = assign_u8 n x fs v.
Proof.
  induction fs as [|f fs IH]; intros v; cbn [assign_u8]; [reflexivity|].
  destruct (f_u8 f) as [[to of]|]; [destruct (String.eqb (f_name f) n)|]; cbn [fst snd]; now rewrite ?IH.
Qed.
Lemma updates_assign n x fs :
  forallb (fun f => match f_u8 f, f_len_attr f with Some _, Some _ => false | _, _ => true end) fs = true ->
  forall v, len_updates fs (assign_u8 n x fs v) = len_updates fs v.
Proof.
  induction fs as [|f fs IH]; cbn [forallb]; intros H v; cbn [assign_u8 len_updates]; [reflexivity|].
  apply andb_true_iff in H as [H1 H2]. specialize (IH H2).
  destruct (f_u8 f) as [[to of]|]; [destruct (f_len_attr f); [discriminate|]; destruct (String.eqb (f_name f) n)|];
    cbn [fst snd]; rewrite ?IH; reflexivity.
Qed.
Lemma reset_assign names n x fs : mem_string n names = true ->
  forall v, reset_fields names fs (assign_u8 n x fs v) = reset_fields names fs v.
Proof.
  intros M. induction fs as [|f fs IH]; intros v; cbn [assign_u8 reset_fields]; [reflexivity|].
  destruct (f_u8 f) as [[to of]|]; [destruct (String.eqb_spec (f_name f) n) as [E|E]|]; cbn [fst snd]; rewrite ?IH; try reflexivity.
  rewrite E, M. reflexivity.
Qed.
Lemma len_assign n x fs :
  Forall (fun f => f_u8 f = None \/ forall a b, c_len (f_codec f) a = c_len (f_codec f) b) fs ->
  forall v, body_len fs (assign_u8 n x fs v) = body_len fs v.
Proof.
  induction 1 as [|f fs H _ IH]; intros v; cbn [assign_u8 body_len]; [reflexivity|].
  destruct (f_u8 f) as [[to of]|]; [destruct (String.eqb (f_name f) n)|]; cbn [fst snd]; rewrite ?IH; try reflexivity.
  destruct H as [H|H]; [discriminate|]. f_equal. apply H.
Qed.
Lemma transmitter_updates v : exists x, len_updates (cls_fields TransmitterPdu) v = [("modulation_parameter_length"%string, x)].
Proof. cbn [len_updates cls_fields TransmitterPdu plain u8_field len_field f_len_attr]. eexists. reflexivity. Qed.
Lemma TransmitterPdu_prep_ok : prep_ok TransmitterPdu.
Proof.
  split; [| | |intros [=]]; intros v; destruct (transmitter_updates v) as [x E]; unfold prep_body; rewrite ?E.
  - cbn [assign_all]. rewrite updates_assign by (vm_compute; reflexivity). rewrite E. cbn [assign_all]. apply assign_assign.
  - cbn [assign_all]. apply reset_assign. reflexivity.
  - cbn [assign_all]. apply len_assign. cbn [cls_fields TransmitterPdu].
    repeat (apply Forall_cons; [first [left; reflexivity | right; reflexivity]|]). apply Forall_nil.
Qed.
Lemma all_prep_ok m c : In c (all_pdus m) -> prep_ok c.
Proof.
  revert c. by_class.
  all_classes ltac:(idtac; match goal with |- prep_ok TransmitterPdu => exact TransmitterPdu_prep_ok
                      | |- _ => apply no_len_prep_ok; vm_compute; reflexivity end).
Qed.

(** ** Totality of serialization *)
Lemma StandardVariableSpecification_st : ser_total StandardVariableSpecification_codec.
Proof. intros v. cbn [c_ser StandardVariableSpecification_codec]. rewrite StandardVariableSpecification_ser_field. eauto. Qed.
#[export] Hint Resolve StandardVariableSpecification_st vec_ser_total option_ser_total : cd.
#[export] Hint Extern 5 (ser_total _) => (eapply fixed_ser_total; solve [eauto with cd nocore]) : cd.
Lemma FrozenBehavior_st : ser_total FrozenBehavior_codec.
Proof. eapply fixed_ser_total, FrozenBehavior_fc. Qed.
Lemma ObjectStateAppearanceGeneral_st : ser_total ObjectStateAppearanceGeneral_codec.
Proof. eapply fixed_ser_total, ObjectStateAppearanceGeneral_fc. Qed.
#[export] Hint Resolve FrozenBehavior_st ObjectStateAppearanceGeneral_st : cd.

Definition record_specification_pdus : list string := ["TransferOwnershipPdu"; "SetRecordReliablePdu"]%string.
Lemma all_ser_total m c : In c (all_pdus m) -> mem_string (cls_name c) record_specification_pdus = false ->
  Forall (fun f => ser_total (f_codec f)) (cls_fields c).
Proof.
  revert c. by_class.
  all_classes ltac:(intros E; vm_compute in E; first [discriminate E |
    clear E; repeat (apply Forall_cons; [cbn [f_codec f_type plain u8_field len_field]; solve [eauto with cd nocore]|]); apply Forall_nil]).
Qed.

(** ** Exact lengths *)
Create HintDb lo.
Lemma len_ok_of {T} (w : T -> bytes) r (l : T -> N) : (forall v, lenN (w v) = l v) -> len_ok (mk_codec (fun v => Ok (w v)) r l).
Proof. intros H v b [= <-]. apply H. Qed.
Lemma AttributeRecordSet_lo : len_ok AttributeRecordSet_codec.
Proof. apply len_ok_of, AttributeRecordSet_len. Qed.
Lemma EmissionSystemData_lo : len_ok ElectromagneticEmissionSystemData_codec.
Proof. apply len_ok_of, EmissionSystemData_len. Qed.
Lemma VariableTransmitterParameters_lo : len_ok VariableTransmitterParameters_codec.
Proof. apply len_ok_of, VariableTransmitterParameters_len. Qed.
Lemma AntennaPattern_lo : len_ok AntennaPattern_codec.
Proof. apply len_ok_of, AntennaPattern_len. Qed.
Lemma ModulationParameters_lo : len_ok ModulationParameters_codec.
Proof. apply len_ok_of, ModulationParameters_len. Qed.
Lemma GridAxisDescriptor_lo : len_ok GridAxisDescriptor_codec.
Proof. apply len_ok_of, GridAxisDescriptor_len. Qed.
Lemma StandardVariableSpecification_lo : len_ok StandardVariableSpecification_codec.
Proof.
  intros v b. cbn [c_ser c_len StandardVariableSpecification_codec]. rewrite StandardVariableSpecification_ser_field.
  intros [= <-]. apply StandardVariableSpecification_len.
Qed.
Lemma SimulationIdentifier_lo : len_ok SimulationIdentifier_codec.
Proof. eapply fixed_len_ok, SimulationIdentifier_fc. Qed.
Lemma DeadReckoningParameters_lo : len_ok DeadReckoningParameters_codec.
Proof. eapply fixed_len_ok, DeadReckoningParameters_fc. Qed.
Lemma FrozenBehavior_lo : len_ok FrozenBehavior_codec.
Proof. eapply fixed_len_ok, FrozenBehavior_fc. Qed.
Lemma ObjectStateAppearanceGeneral_lo : len_ok ObjectStateAppearanceGeneral_codec.
Proof. eapply fixed_len_ok, ObjectStateAppearanceGeneral_fc. Qed.
#[export] Hint Resolve vec_len_ok option_len_ok AttributeRecordSet_lo EmissionSystemData_lo VariableTransmitterParameters_lo
  AntennaPattern_lo ModulationParameters_lo GridAxisDescriptor_lo StandardVariableSpecification_lo SimulationIdentifier_lo
  DeadReckoningParameters_lo FrozenBehavior_lo ObjectStateAppearanceGeneral_lo : lo.
#[export] Hint Extern 5 (len_ok _) => (eapply fixed_len_ok; solve [eauto with cd nocore]) : lo.
Ltac len_fields := repeat (apply Forall_cons; [cbn [f_codec f_type plain u8_field len_field]; solve [eauto with lo nocore]|]); apply Forall_nil.
Lemma all_len_ok m c : In c (all_pdus m) -> exact_length c -> Forall (fun f => len_ok (f_codec f)) (cls_fields c).
Proof.
  revert c. by_class.
  all_classes ltac:(intros E; vm_compute in E; first [discriminate E | clear E; len_fields]).
Qed.

(** ** Ordinary classes *)
Lemma all_regular m c : In c (all_pdus m) -> ordinary c -> regular c.
Proof.
  revert c. by_class.
  all_classes ltac:(intros E; vm_compute in E; first [discriminate E |
    match goal with |- regular ?c => clear E; regular_tac c end]).
Qed.
