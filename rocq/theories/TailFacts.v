(** * What follows the wire maps (proofs only). *)
From Verif Require Import Base BaseFacts EnumModel Enums EnumFacts Fixed Header HeaderFacts PduMacro PduMacroFacts
  DataTypes DataTypesFacts Bitflags BitflagsFacts Pdus PdusFacts PduFields Spec RecordFacts ClassFacts PduProofs Wire WireProofs WireMaps SpecLayout.

(** The codec writes what [g] says, when it writes at all. *)
Definition wr {T} (c : codec T) (g : T -> bytes) : Prop := forall x b, c_ser c x = Ok b -> b = g x.
Lemma wr_of {T} (g : T -> bytes) r l : wr (mk_codec (fun x => Ok (g x)) r l) g.
Proof. intros x b [= <-]. reflexivity. Qed.
Lemma wr_uint {k} r l : wr (mk_codec (fun x : uint k => Ok (put_uint x)) r l) be.
Proof. intros x b [= <-]. unfold be. rewrite big_endian_eq. reflexivity. Qed.
Lemma wr_vec {T} (c : codec T) g : wr c g -> wr (vec_codec c) (each g).
Proof.
  intros H l. unfold each. cbn [c_ser vec_codec]. induction l as [|x l IH]; cbn [map wconcat List.concat]; intros b E.
  - injection E as <-. reflexivity.
  - apply wapp_ok in E. destruct E as [y [z [Hy [Hz ->]]]]. rewrite (H _ _ Hy), (IH _ Hz). reflexivity.
Qed.
Lemma wr_opt {T} (c : codec T) g : wr c g -> wr (option_codec c) (maybe g).
Proof. intros H [x|] b; cbn [c_ser option_codec maybe]; [apply H | intros [= <-]; reflexivity]. Qed.

Definition tail_at (n : nat) (fs : list field) (v : values fs) (t : bytes) : Prop :=
  forall b, body_serialize fs v = Ok b -> exists h, b = h ++ t /\ length h = n.
Lemma tail_end v : tail_at 0 [] v [].
Proof. intros b [= <-]. exists []. split; reflexivity. Qed.
Lemma tail_fixed f fs k n nf (v : values (f :: fs)) t : fixed_codec k nf (f_codec f) ->
  tail_at n fs (snd v) t -> tail_at (k + n) (f :: fs) v t.
Proof.
  intros F H b E. cbn [body_serialize] in E. apply wapp_ok in E. destruct E as [y [z [Hy [Hz ->]]]].
  destruct (fc_ser _ _ _ F (fst v)) as [y' [S [L _]]]. rewrite Hy in S. injection S as <-.
  destruct (H _ Hz) as [h [-> Lh]]. exists (y ++ h). rewrite app_length, app_assoc. split; [reflexivity | lia].
Qed.
Lemma tail_list f fs (v : values (f :: fs)) g t : wr (f_codec f) g -> tail_at 0 fs (snd v) t -> tail_at 0 (f :: fs) v (g (fst v) ++ t).
Proof.
  intros F H b E. cbn [body_serialize] in E. apply wapp_ok in E. destruct E as [y [z [Hy [Hz ->]]]].
  destruct (H _ Hz) as [h [-> Lh]]. rewrite (F _ _ Hy). destruct h; [|discriminate]. exists []. split; reflexivity.
Qed.
Lemma tail_last f (v : values [f]) g : wr (f_codec f) g -> tail_at 0 [f] v (g (fst v)).
Proof.
  intros F. rewrite <- (app_nil_r (g (fst v))). apply (tail_list f [] v g []); [exact F | apply tail_end].
Qed.
Lemma tail_prefix f fs k (v : values (f :: fs)) g t :
  (forall b, c_ser (f_codec f) (fst v) = Ok b -> exists h, b = h ++ g (fst v) /\ length h = k) ->
  tail_at 0 fs (snd v) t -> tail_at k (f :: fs) v (g (fst v) ++ t).
Proof.
  intros F H b E. cbn [body_serialize] in E. apply wapp_ok in E. destruct E as [y [z [Hy [Hz ->]]]].
  destruct (H _ Hz) as [h [-> Lh]]. destruct h; [|discriminate]. destruct (F _ Hy) as [h [-> L]].
  exists h. rewrite <- app_assoc. split; [reflexivity | exact L].
Qed.
Lemma tail_prefix_last f k (v : values [f]) g :
  (forall b, c_ser (f_codec f) (fst v) = Ok b -> exists h, b = h ++ g (fst v) /\ length h = k) -> tail_at k [f] v (g (fst v)).
Proof.
  intros F. rewrite <- (app_nil_r (g (fst v))). apply (tail_prefix f [] k v g []); [exact F | apply tail_end].
Qed.
Lemma tail_size n n' fs v t : tail_at n fs v t -> n = n' -> tail_at n' fs v t.
Proof. intros H <-. exact H. Qed.

(** Enumerations written with their own width. *)
Lemma MinefieldSensorTypes_wr : wr MinefieldSensorTypes_codec (coded 1).
Proof.
  intros x b [= <-]. unfold coded. rewrite big_endian_eq. unfold MinefieldSensorTypes_serialize_field, put_u8, put_uint, as_u8.
  rewrite as_uint_val by (apply (enum_fits MinefieldSensorTypes_spec)). reflexivity.
Qed.
Lemma VariableRecordTypes_wr : wr VariableRecordTypes_codec (coded 4).
Proof.
  intros x b [= <-]. unfold coded. rewrite big_endian_eq. unfold VariableRecordTypes_serialize_field, put_u32, put_uint, as_u32.
  rewrite as_uint_val by (apply (enum_fits VariableRecordTypes_spec)). reflexivity.
Qed.
Lemma EntityCapabilities_wr : wr EntityCapabilities_codec (coded 4).
Proof.
  intros x b [= <-]. unfold coded. rewrite big_endian_eq. unfold EntityCapabilities_serialize_field, put_u32, put_uint, as_u32.
  rewrite as_uint_val by (apply (enum_fits EntityCapabilities_spec)). reflexivity.
Qed.
Lemma element_wr m : wr (RecordSpecificationElement_codec m) element_sent.
Proof.
  intros v b. cbn [c_ser RecordSpecificationElement_codec]. rewrite element_serialize_spec.
  destruct (match m with Checked => _ | Wrapping => _ end); [|discriminate]. destruct (_ <=? _); [|discriminate].
  intros E. injection E as <-. unfold element_sent, element_header, be. rewrite !big_endian_eq. reflexivity.
Qed.
Lemma marking_prefix v b : c_ser EntityMarking_codec v = Ok b ->
  exists h, b = h ++ EntityMarking_entity_marking_string v /\ length h = 1%nat.
Proof. intros [= <-]. eexists. split; [reflexivity|]. apply put_uint_length. Qed.
Lemma specification_prefix m v b : c_ser (RecordSpecification_codec m) v = Ok b ->
  exists h, b = h ++ each element_sent (RecordSpecification_record_sets v) /\ length h = 4%nat.
Proof.
  cbn [c_ser RecordSpecification_codec]. unfold RecordSpecification_serialize. intros E. apply wapp_ok in E.
  destruct E as [y [z [[= <-] [Hz ->]]]]. assert (W := wr_vec _ _ (element_wr m) _ _ Hz). subst z.
  eexists. split; [reflexivity|]. apply put_uint_length.
Qed.
Lemma variable_prefix v b : c_ser StandardVariableSpecification_codec v = Ok b ->
  exists h, b = h ++ each StandardVariableRecords_serialize (StandardVariableSpecification_standard_variable_records v) /\ length h = 2%nat.
Proof.
  cbn [c_ser StandardVariableSpecification_codec]. rewrite StandardVariableSpecification_ser_field. intros [= <-].
  eexists. split; [reflexivity|]. apply put_uint_length.
Qed.

(** ** Class by class *)
Definition tail_ok (t : pdu_layout) : Prop :=
  forall p, tail_at (pl_end t - 12) (cls_fields (pl_class t)) (body p) (pl_tail t p).

Ltac wrx := cbn [f_codec f_type plain u8_field len_field];
  repeat first [ apply wr_vec | apply wr_opt ];
  first [ exact MinefieldSensorTypes_wr | exact VariableRecordTypes_wr | exact EntityCapabilities_wr
        | apply wr_uint | apply wr_of ].
Ltac lists := first [ apply tail_end | eapply tail_last; wrx | eapply tail_list; [wrx | lists] ].
Ltac tails :=
  lazymatch goal with
  | |- tail_at _ (plain _ (vec_codec _) _ :: _) _ _ => lists
  | |- tail_at _ (len_field _ _ _ _ _ :: _) _ _ => lists
  | |- tail_at _ (plain _ (RecordSpecification_codec _) _ :: _) _ _ =>
      lazymatch goal with |- tail_at _ [?f] ?y _ => eapply (tail_prefix_last f _ y (fun v => each element_sent (RecordSpecification_record_sets v))) end; intros ?; exact (specification_prefix _ _ _)
  | |- tail_at _ (plain _ StandardVariableSpecification_codec _ :: _) _ _ =>
      lazymatch goal with |- tail_at _ [?f] ?y _ => eapply (tail_prefix_last f _ y (fun v => each StandardVariableRecords_serialize (StandardVariableSpecification_standard_variable_records v))) end;
      intros ?; exact (variable_prefix _ _)
  | |- tail_at _ (plain _ EntityMarking_codec _ :: _) _ _ =>
      lazymatch goal with |- tail_at _ (?f :: ?fs) ?v _ => eapply (tail_prefix f fs 1 v EntityMarking_entity_marking_string) end; [exact (marking_prefix _) | lists]
  | |- tail_at _ [] _ _ => apply tail_end
  | |- _ => eapply tail_fixed; [first [cdx | exact DeadReckoningParameters_fc | exact SimulationIdentifier_fc] | tails]
  end.
Lemma ElectromagneticEmissionsPdu_tok : tail_ok (mk_pdu_layout ElectromagneticEmissionsPdu ElectromagneticEmissionsPdu_map 28 ElectromagneticEmissionsPdu_tail).
Proof.
  intros p. cbn [pl_class pl_end pl_tail]. unfold ElectromagneticEmissionsPdu_tail. eapply tail_size; [cbn [cls_fields ElectromagneticEmissionsPdu]; tails | reflexivity].
Qed.
Lemma DesignatorPdu_tok : tail_ok (mk_pdu_layout DesignatorPdu DesignatorPdu_map 88 (fun _ => [])).
Proof.
  intros p. cbn [pl_class pl_end pl_tail]. eapply tail_size; [cbn [cls_fields DesignatorPdu]; tails | reflexivity].
Qed.
Lemma UnderwaterAcousticPdu_tok : tail_ok (mk_pdu_layout UnderwaterAcousticPdu UnderwaterAcousticPdu_map 32 UnderwaterAcousticPdu_tail).
Proof.
  intros p. cbn [pl_class pl_end pl_tail]. unfold UnderwaterAcousticPdu_tail. eapply tail_size; [cbn [cls_fields UnderwaterAcousticPdu]; tails | reflexivity].
Qed.
Lemma IFFPdu_tok : tail_ok (mk_pdu_layout IFFPdu IFFPdu_map 88 IFFPdu_tail).
Proof.
  intros p. cbn [pl_class pl_end pl_tail]. unfold IFFPdu_tail. eapply tail_size; [cbn [cls_fields IFFPdu]; tails | reflexivity].
Qed.
Lemma SupplementalEmissionPdu_tok : tail_ok (mk_pdu_layout SupplementalEmissionPdu SupplementalEmissionPdu_map 28 SupplementalEmissionPdu_tail).
Proof.
  intros p. cbn [pl_class pl_end pl_tail]. unfold SupplementalEmissionPdu_tail. eapply tail_size; [cbn [cls_fields SupplementalEmissionPdu]; tails | reflexivity].
Qed.
Lemma EntityStatePdu_tok : tail_ok (mk_pdu_layout EntityStatePdu EntityStatePdu_map 129 EntityStatePdu_tail).
Proof.
  intros p. cbn [pl_class pl_end pl_tail]. unfold EntityStatePdu_tail. eapply tail_size; [cbn [cls_fields EntityStatePdu]; tails | reflexivity].
Qed.
Lemma CollisionPdu_tok : tail_ok (mk_pdu_layout CollisionPdu CollisionPdu_map 60 (fun _ => [])).
Proof.
  intros p. cbn [pl_class pl_end pl_tail]. eapply tail_size; [cbn [cls_fields CollisionPdu]; tails | reflexivity].
Qed.
Lemma CollisionElasticPdu_tok : tail_ok (mk_pdu_layout CollisionElasticPdu CollisionElasticPdu_map 100 (fun _ => [])).
Proof.
  intros p. cbn [pl_class pl_end pl_tail]. eapply tail_size; [cbn [cls_fields CollisionElasticPdu]; tails | reflexivity].
Qed.
Lemma EntityStateUpdatePdu_tok : tail_ok (mk_pdu_layout EntityStateUpdatePdu EntityStateUpdatePdu_map 72 EntityStateUpdatePdu_tail).
Proof.
  intros p. cbn [pl_class pl_end pl_tail]. unfold EntityStateUpdatePdu_tail. eapply tail_size; [cbn [cls_fields EntityStateUpdatePdu]; tails | reflexivity].
Qed.
Lemma AttributePdu_tok : tail_ok (mk_pdu_layout AttributePdu AttributePdu_map 32 AttributePdu_tail).
Proof.
  intros p. cbn [pl_class pl_end pl_tail]. unfold AttributePdu_tail. eapply tail_size; [cbn [cls_fields AttributePdu]; tails | reflexivity].
Qed.
Lemma AggregateStatePdu_tok : tail_ok (mk_pdu_layout AggregateStatePdu AggregateStatePdu_map 132 AggregateStatePdu_tail).
Proof.
  intros p. cbn [pl_class pl_end pl_tail]. unfold AggregateStatePdu_tail. eapply tail_size; [cbn [cls_fields AggregateStatePdu]; tails | reflexivity].
Qed.
Lemma IsGroupOfPdu_tok : tail_ok (mk_pdu_layout IsGroupOfPdu IsGroupOfPdu_map 40 IsGroupOfPdu_tail).
Proof.
  intros p. cbn [pl_class pl_end pl_tail]. unfold IsGroupOfPdu_tail. eapply tail_size; [cbn [cls_fields IsGroupOfPdu]; tails | reflexivity].
Qed.
Lemma TransferOwnershipPdu_tok m : tail_ok (mk_pdu_layout (TransferOwnershipPdu m) (TransferOwnershipPdu_map m) 40 TransferOwnershipPdu_tail).
Proof.
  intros p. cbn [pl_class pl_end pl_tail]. unfold TransferOwnershipPdu_tail. eapply tail_size; [cbn [cls_fields TransferOwnershipPdu]; tails | reflexivity].
Qed.
Lemma IsPartOfPdu_tok : tail_ok (mk_pdu_layout IsPartOfPdu IsPartOfPdu_map 52 (fun _ => [])).
Proof.
  intros p. cbn [pl_class pl_end pl_tail]. eapply tail_size; [cbn [cls_fields IsPartOfPdu]; tails | reflexivity].
Qed.
Lemma InformationOperationsReportPdu_tok : tail_ok (mk_pdu_layout InformationOperationsReportPdu InformationOperationsReportPdu_map 40 InformationOperationsReportPdu_tail).
Proof.
  intros p. cbn [pl_class pl_end pl_tail]. unfold InformationOperationsReportPdu_tail. eapply tail_size; [cbn [cls_fields InformationOperationsReportPdu]; tails | reflexivity].
Qed.
Lemma InformationOperationsActionPdu_tok : tail_ok (mk_pdu_layout InformationOperationsActionPdu InformationOperationsActionPdu_map 56 InformationOperationsActionPdu_tail).
Proof.
  intros p. cbn [pl_class pl_end pl_tail]. unfold InformationOperationsActionPdu_tail. eapply tail_size; [cbn [cls_fields InformationOperationsActionPdu]; tails | reflexivity].
Qed.
Lemma ServiceRequestPdu_tok : tail_ok (mk_pdu_layout ServiceRequestPdu ServiceRequestPdu_map 28 ServiceRequestPdu_tail).
Proof.
  intros p. cbn [pl_class pl_end pl_tail]. unfold ServiceRequestPdu_tail. eapply tail_size; [cbn [cls_fields ServiceRequestPdu]; tails | reflexivity].
Qed.
Lemma ResupplyOfferPdu_tok : tail_ok (mk_pdu_layout ResupplyOfferPdu ResupplyOfferPdu_map 28 ResupplyOfferPdu_tail).
Proof.
  intros p. cbn [pl_class pl_end pl_tail]. unfold ResupplyOfferPdu_tail. eapply tail_size; [cbn [cls_fields ResupplyOfferPdu]; tails | reflexivity].
Qed.
Lemma ResupplyReceivedPdu_tok : tail_ok (mk_pdu_layout ResupplyReceivedPdu ResupplyReceivedPdu_map 28 ResupplyReceivedPdu_tail).
Proof.
  intros p. cbn [pl_class pl_end pl_tail]. unfold ResupplyReceivedPdu_tail. eapply tail_size; [cbn [cls_fields ResupplyReceivedPdu]; tails | reflexivity].
Qed.
Lemma ResupplyCancelPdu_tok : tail_ok (mk_pdu_layout ResupplyCancelPdu ResupplyCancelPdu_map 24 (fun _ => [])).
Proof.
  intros p. cbn [pl_class pl_end pl_tail]. eapply tail_size; [cbn [cls_fields ResupplyCancelPdu]; tails | reflexivity].
Qed.
Lemma RepairCompletePdu_tok : tail_ok (mk_pdu_layout RepairCompletePdu RepairCompletePdu_map 28 (fun _ => [])).
Proof.
  intros p. cbn [pl_class pl_end pl_tail]. eapply tail_size; [cbn [cls_fields RepairCompletePdu]; tails | reflexivity].
Qed.
Lemma RepairResponsePdu_tok : tail_ok (mk_pdu_layout RepairResponsePdu RepairResponsePdu_map 28 (fun _ => [])).
Proof.
  intros p. cbn [pl_class pl_end pl_tail]. eapply tail_size; [cbn [cls_fields RepairResponsePdu]; tails | reflexivity].
Qed.
Lemma MinefieldStatePdu_tok : tail_ok (mk_pdu_layout MinefieldStatePdu MinefieldStatePdu_map 72 MinefieldStatePdu_tail).
Proof.
  intros p. cbn [pl_class pl_end pl_tail]. unfold MinefieldStatePdu_tail. eapply tail_size; [cbn [cls_fields MinefieldStatePdu]; tails | reflexivity].
Qed.
Lemma MinefieldQueryPdu_tok : tail_ok (mk_pdu_layout MinefieldQueryPdu MinefieldQueryPdu_map 40 MinefieldQueryPdu_tail).
Proof.
  intros p. cbn [pl_class pl_end pl_tail]. unfold MinefieldQueryPdu_tail. eapply tail_size; [cbn [cls_fields MinefieldQueryPdu]; tails | reflexivity].
Qed.
Lemma MinefieldDataPdu_tok : tail_ok (mk_pdu_layout MinefieldDataPdu MinefieldDataPdu_map 44 MinefieldDataPdu_tail).
Proof.
  intros p. cbn [pl_class pl_end pl_tail]. unfold MinefieldDataPdu_tail. eapply tail_size; [cbn [cls_fields MinefieldDataPdu]; tails | reflexivity].
Qed.
Lemma MinefieldResponseNackPdu_tok : tail_ok (mk_pdu_layout MinefieldResponseNackPdu MinefieldResponseNackPdu_map 26 MinefieldResponseNackPdu_tail).
Proof.
  intros p. cbn [pl_class pl_end pl_tail]. unfold MinefieldResponseNackPdu_tail. eapply tail_size; [cbn [cls_fields MinefieldResponseNackPdu]; tails | reflexivity].
Qed.
Lemma TransmitterPdu_tok : tail_ok (mk_pdu_layout TransmitterPdu TransmitterPdu_map 104 TransmitterPdu_tail).
Proof.
  intros p. cbn [pl_class pl_end pl_tail]. unfold TransmitterPdu_tail. eapply tail_size; [cbn [cls_fields TransmitterPdu]; tails | reflexivity].
Qed.
Lemma SignalPdu_tok : tail_ok (mk_pdu_layout SignalPdu SignalPdu_map 32 SignalPdu_tail).
Proof.
  intros p. cbn [pl_class pl_end pl_tail]. unfold SignalPdu_tail. eapply tail_size; [cbn [cls_fields SignalPdu]; tails | reflexivity].
Qed.
Lemma ReceiverPdu_tok : tail_ok (mk_pdu_layout ReceiverPdu ReceiverPdu_map 36 (fun _ => [])).
Proof.
  intros p. cbn [pl_class pl_end pl_tail]. eapply tail_size; [cbn [cls_fields ReceiverPdu]; tails | reflexivity].
Qed.
Lemma IntercomSignalPdu_tok : tail_ok (mk_pdu_layout IntercomSignalPdu IntercomSignalPdu_map 32 IntercomSignalPdu_tail).
Proof.
  intros p. cbn [pl_class pl_end pl_tail]. unfold IntercomSignalPdu_tail. eapply tail_size; [cbn [cls_fields IntercomSignalPdu]; tails | reflexivity].
Qed.
Lemma IntercomControlPdu_tok : tail_ok (mk_pdu_layout IntercomControlPdu IntercomControlPdu_map 40 IntercomControlPdu_tail).
Proof.
  intros p. cbn [pl_class pl_end pl_tail]. unfold IntercomControlPdu_tail. eapply tail_size; [cbn [cls_fields IntercomControlPdu]; tails | reflexivity].
Qed.
Lemma CreateEntityPdu_tok : tail_ok (mk_pdu_layout CreateEntityPdu CreateEntityPdu_map 28 (fun _ => [])).
Proof.
  intros p. cbn [pl_class pl_end pl_tail]. eapply tail_size; [cbn [cls_fields CreateEntityPdu]; tails | reflexivity].
Qed.
Lemma RemoveEntityPdu_tok : tail_ok (mk_pdu_layout RemoveEntityPdu RemoveEntityPdu_map 28 (fun _ => [])).
Proof.
  intros p. cbn [pl_class pl_end pl_tail]. eapply tail_size; [cbn [cls_fields RemoveEntityPdu]; tails | reflexivity].
Qed.
Lemma StartResumePdu_tok : tail_ok (mk_pdu_layout StartResumePdu StartResumePdu_map 44 (fun _ => [])).
Proof.
  intros p. cbn [pl_class pl_end pl_tail]. eapply tail_size; [cbn [cls_fields StartResumePdu]; tails | reflexivity].
Qed.
Lemma StopFreezePdu_tok : tail_ok (mk_pdu_layout StopFreezePdu StopFreezePdu_map 40 (fun _ => [])).
Proof.
  intros p. cbn [pl_class pl_end pl_tail]. eapply tail_size; [cbn [cls_fields StopFreezePdu]; tails | reflexivity].
Qed.
Lemma AcknowledgePdu_tok : tail_ok (mk_pdu_layout AcknowledgePdu AcknowledgePdu_map 32 (fun _ => [])).
Proof.
  intros p. cbn [pl_class pl_end pl_tail]. eapply tail_size; [cbn [cls_fields AcknowledgePdu]; tails | reflexivity].
Qed.
Lemma ActionRequestPdu_tok : tail_ok (mk_pdu_layout ActionRequestPdu ActionRequestPdu_map 40 ActionRequestPdu_tail).
Proof.
  intros p. cbn [pl_class pl_end pl_tail]. unfold ActionRequestPdu_tail. eapply tail_size; [cbn [cls_fields ActionRequestPdu]; tails | reflexivity].
Qed.
Lemma ActionResponsePdu_tok : tail_ok (mk_pdu_layout ActionResponsePdu ActionResponsePdu_map 40 ActionResponsePdu_tail).
Proof.
  intros p. cbn [pl_class pl_end pl_tail]. unfold ActionResponsePdu_tail. eapply tail_size; [cbn [cls_fields ActionResponsePdu]; tails | reflexivity].
Qed.
Lemma DataQueryPdu_tok : tail_ok (mk_pdu_layout DataQueryPdu DataQueryPdu_map 40 DataQueryPdu_tail).
Proof.
  intros p. cbn [pl_class pl_end pl_tail]. unfold DataQueryPdu_tail. eapply tail_size; [cbn [cls_fields DataQueryPdu]; tails | reflexivity].
Qed.
Lemma SetDataPdu_tok : tail_ok (mk_pdu_layout SetDataPdu SetDataPdu_map 40 SetDataPdu_tail).
Proof.
  intros p. cbn [pl_class pl_end pl_tail]. unfold SetDataPdu_tail. eapply tail_size; [cbn [cls_fields SetDataPdu]; tails | reflexivity].
Qed.
Lemma DataPdu_tok : tail_ok (mk_pdu_layout DataPdu DataPdu_map 40 DataPdu_tail).
Proof.
  intros p. cbn [pl_class pl_end pl_tail]. unfold DataPdu_tail. eapply tail_size; [cbn [cls_fields DataPdu]; tails | reflexivity].
Qed.
Lemma EventReportPdu_tok : tail_ok (mk_pdu_layout EventReportPdu EventReportPdu_map 40 EventReportPdu_tail).
Proof.
  intros p. cbn [pl_class pl_end pl_tail]. unfold EventReportPdu_tail. eapply tail_size; [cbn [cls_fields EventReportPdu]; tails | reflexivity].
Qed.
Lemma CommentPdu_tok : tail_ok (mk_pdu_layout CommentPdu CommentPdu_map 32 CommentPdu_tail).
Proof.
  intros p. cbn [pl_class pl_end pl_tail]. unfold CommentPdu_tail. eapply tail_size; [cbn [cls_fields CommentPdu]; tails | reflexivity].
Qed.
Lemma CreateEntityReliablePdu_tok : tail_ok (mk_pdu_layout CreateEntityReliablePdu CreateEntityReliablePdu_map 32 (fun _ => [])).
Proof.
  intros p. cbn [pl_class pl_end pl_tail]. eapply tail_size; [cbn [cls_fields CreateEntityReliablePdu]; tails | reflexivity].
Qed.
Lemma RemoveEntityReliablePdu_tok : tail_ok (mk_pdu_layout RemoveEntityReliablePdu RemoveEntityReliablePdu_map 32 (fun _ => [])).
Proof.
  intros p. cbn [pl_class pl_end pl_tail]. eapply tail_size; [cbn [cls_fields RemoveEntityReliablePdu]; tails | reflexivity].
Qed.
Lemma StartResumeReliablePdu_tok : tail_ok (mk_pdu_layout StartResumeReliablePdu StartResumeReliablePdu_map 48 (fun _ => [])).
Proof.
  intros p. cbn [pl_class pl_end pl_tail]. eapply tail_size; [cbn [cls_fields StartResumeReliablePdu]; tails | reflexivity].
Qed.
Lemma StopFreezeReliablePdu_tok : tail_ok (mk_pdu_layout StopFreezeReliablePdu StopFreezeReliablePdu_map 40 (fun _ => [])).
Proof.
  intros p. cbn [pl_class pl_end pl_tail]. eapply tail_size; [cbn [cls_fields StopFreezeReliablePdu]; tails | reflexivity].
Qed.
Lemma AcknowledgeReliablePdu_tok : tail_ok (mk_pdu_layout AcknowledgeReliablePdu AcknowledgeReliablePdu_map 32 (fun _ => [])).
Proof.
  intros p. cbn [pl_class pl_end pl_tail]. eapply tail_size; [cbn [cls_fields AcknowledgeReliablePdu]; tails | reflexivity].
Qed.
Lemma ActionRequestReliablePdu_tok : tail_ok (mk_pdu_layout ActionRequestReliablePdu ActionRequestReliablePdu_map 48 ActionRequestReliablePdu_tail).
Proof.
  intros p. cbn [pl_class pl_end pl_tail]. unfold ActionRequestReliablePdu_tail. eapply tail_size; [cbn [cls_fields ActionRequestReliablePdu]; tails | reflexivity].
Qed.
Lemma ActionResponseReliablePdu_tok : tail_ok (mk_pdu_layout ActionResponseReliablePdu ActionResponseReliablePdu_map 40 ActionResponseReliablePdu_tail).
Proof.
  intros p. cbn [pl_class pl_end pl_tail]. unfold ActionResponseReliablePdu_tail. eapply tail_size; [cbn [cls_fields ActionResponseReliablePdu]; tails | reflexivity].
Qed.
Lemma DataQueryReliablePdu_tok : tail_ok (mk_pdu_layout DataQueryReliablePdu DataQueryReliablePdu_map 44 DataQueryReliablePdu_tail).
Proof.
  intros p. cbn [pl_class pl_end pl_tail]. unfold DataQueryReliablePdu_tail. eapply tail_size; [cbn [cls_fields DataQueryReliablePdu]; tails | reflexivity].
Qed.
Lemma SetDataReliablePdu_tok : tail_ok (mk_pdu_layout SetDataReliablePdu SetDataReliablePdu_map 40 SetDataReliablePdu_tail).
Proof.
  intros p. cbn [pl_class pl_end pl_tail]. unfold SetDataReliablePdu_tail. eapply tail_size; [cbn [cls_fields SetDataReliablePdu]; tails | reflexivity].
Qed.
Lemma DataReliablePdu_tok : tail_ok (mk_pdu_layout DataReliablePdu DataReliablePdu_map 40 DataReliablePdu_tail).
Proof.
  intros p. cbn [pl_class pl_end pl_tail]. unfold DataReliablePdu_tail. eapply tail_size; [cbn [cls_fields DataReliablePdu]; tails | reflexivity].
Qed.
Lemma EventReportReliablePdu_tok : tail_ok (mk_pdu_layout EventReportReliablePdu EventReportReliablePdu_map 40 EventReportReliablePdu_tail).
Proof.
  intros p. cbn [pl_class pl_end pl_tail]. unfold EventReportReliablePdu_tail. eapply tail_size; [cbn [cls_fields EventReportReliablePdu]; tails | reflexivity].
Qed.
Lemma CommentReliablePdu_tok : tail_ok (mk_pdu_layout CommentReliablePdu CommentReliablePdu_map 32 CommentReliablePdu_tail).
Proof.
  intros p. cbn [pl_class pl_end pl_tail]. unfold CommentReliablePdu_tail. eapply tail_size; [cbn [cls_fields CommentReliablePdu]; tails | reflexivity].
Qed.
Lemma RecordQueryReliablePdu_tok : tail_ok (mk_pdu_layout RecordQueryReliablePdu RecordQueryReliablePdu_map 40 RecordQueryReliablePdu_tail).
Proof.
  intros p. cbn [pl_class pl_end pl_tail]. unfold RecordQueryReliablePdu_tail. eapply tail_size; [cbn [cls_fields RecordQueryReliablePdu]; tails | reflexivity].
Qed.
Lemma SetRecordReliablePdu_tok m : tail_ok (mk_pdu_layout (SetRecordReliablePdu m) (SetRecordReliablePdu_map m) 40 SetRecordReliablePdu_tail).
Proof.
  intros p. cbn [pl_class pl_end pl_tail]. unfold SetRecordReliablePdu_tail. eapply tail_size; [cbn [cls_fields SetRecordReliablePdu]; tails | reflexivity].
Qed.
Lemma EnvironmentalProcessPdu_tok : tail_ok (mk_pdu_layout EnvironmentalProcessPdu EnvironmentalProcessPdu_map 32 EnvironmentalProcessPdu_tail).
Proof.
  intros p. cbn [pl_class pl_end pl_tail]. unfold EnvironmentalProcessPdu_tail. eapply tail_size; [cbn [cls_fields EnvironmentalProcessPdu]; tails | reflexivity].
Qed.
Lemma GriddedDataPdu_tok : tail_ok (mk_pdu_layout GriddedDataPdu GriddedDataPdu_map 64 GriddedDataPdu_tail).
Proof.
  intros p. cbn [pl_class pl_end pl_tail]. unfold GriddedDataPdu_tail. eapply tail_size; [cbn [cls_fields GriddedDataPdu]; tails | reflexivity].
Qed.
Lemma PointObjectStatePdu_tok : tail_ok (mk_pdu_layout PointObjectStatePdu PointObjectStatePdu_map 88 (fun _ => [])).
Proof.
  intros p. cbn [pl_class pl_end pl_tail]. eapply tail_size; [cbn [cls_fields PointObjectStatePdu]; tails | reflexivity].
Qed.
Lemma LinearObjectStatePdu_tok : tail_ok (mk_pdu_layout LinearObjectStatePdu LinearObjectStatePdu_map 40 LinearObjectStatePdu_tail).
Proof.
  intros p. cbn [pl_class pl_end pl_tail]. unfold LinearObjectStatePdu_tail. eapply tail_size; [cbn [cls_fields LinearObjectStatePdu]; tails | reflexivity].
Qed.
Lemma ArealObjectStatePdu_tok : tail_ok (mk_pdu_layout ArealObjectStatePdu ArealObjectStatePdu_map 48 ArealObjectStatePdu_tail).
Proof.
  intros p. cbn [pl_class pl_end pl_tail]. unfold ArealObjectStatePdu_tail. eapply tail_size; [cbn [cls_fields ArealObjectStatePdu]; tails | reflexivity].
Qed.
Lemma FirePdu_tok : tail_ok (mk_pdu_layout FirePdu FirePdu_map 96 (fun _ => [])).
Proof.
  intros p. cbn [pl_class pl_end pl_tail]. eapply tail_size; [cbn [cls_fields FirePdu]; tails | reflexivity].
Qed.
Lemma DetonationPdu_tok : tail_ok (mk_pdu_layout DetonationPdu DetonationPdu_map 104 DetonationPdu_tail).
Proof.
  intros p. cbn [pl_class pl_end pl_tail]. unfold DetonationPdu_tail. eapply tail_size; [cbn [cls_fields DetonationPdu]; tails | reflexivity].
Qed.
Lemma DirectedEnergyFirePdu_tok : tail_ok (mk_pdu_layout DirectedEnergyFirePdu DirectedEnergyFirePdu_map 88 DirectedEnergyFirePdu_tail).
Proof.
  intros p. cbn [pl_class pl_end pl_tail]. unfold DirectedEnergyFirePdu_tail. eapply tail_size; [cbn [cls_fields DirectedEnergyFirePdu]; tails | reflexivity].
Qed.
Lemma EntityDamageStatusPdu_tok : tail_ok (mk_pdu_layout EntityDamageStatusPdu EntityDamageStatusPdu_map 24 EntityDamageStatusPdu_tail).
Proof.
  intros p. cbn [pl_class pl_end pl_tail]. unfold EntityDamageStatusPdu_tail. eapply tail_size; [cbn [cls_fields EntityDamageStatusPdu]; tails | reflexivity].
Qed.
Lemma all_tail_ok m : Forall tail_ok (layouts m).
Proof.
  unfold layouts. repeat (apply Forall_cons; [first [ exact ElectromagneticEmissionsPdu_tok | exact DesignatorPdu_tok | exact UnderwaterAcousticPdu_tok | exact IFFPdu_tok | exact SupplementalEmissionPdu_tok | exact EntityStatePdu_tok | exact CollisionPdu_tok | exact CollisionElasticPdu_tok | exact EntityStateUpdatePdu_tok | exact AttributePdu_tok | exact AggregateStatePdu_tok | exact IsGroupOfPdu_tok | exact (TransferOwnershipPdu_tok m) | exact IsPartOfPdu_tok | exact InformationOperationsReportPdu_tok | exact InformationOperationsActionPdu_tok | exact ServiceRequestPdu_tok | exact ResupplyOfferPdu_tok | exact ResupplyReceivedPdu_tok | exact ResupplyCancelPdu_tok | exact RepairCompletePdu_tok | exact RepairResponsePdu_tok | exact MinefieldStatePdu_tok | exact MinefieldQueryPdu_tok | exact MinefieldDataPdu_tok | exact MinefieldResponseNackPdu_tok | exact TransmitterPdu_tok | exact SignalPdu_tok | exact ReceiverPdu_tok | exact IntercomSignalPdu_tok | exact IntercomControlPdu_tok | exact CreateEntityPdu_tok | exact RemoveEntityPdu_tok | exact StartResumePdu_tok | exact StopFreezePdu_tok | exact AcknowledgePdu_tok | exact ActionRequestPdu_tok | exact ActionResponsePdu_tok | exact DataQueryPdu_tok | exact SetDataPdu_tok | exact DataPdu_tok | exact EventReportPdu_tok | exact CommentPdu_tok | exact CreateEntityReliablePdu_tok | exact RemoveEntityReliablePdu_tok | exact StartResumeReliablePdu_tok | exact StopFreezeReliablePdu_tok | exact AcknowledgeReliablePdu_tok | exact ActionRequestReliablePdu_tok | exact ActionResponseReliablePdu_tok | exact DataQueryReliablePdu_tok | exact SetDataReliablePdu_tok | exact DataReliablePdu_tok | exact EventReportReliablePdu_tok | exact CommentReliablePdu_tok | exact RecordQueryReliablePdu_tok | exact (SetRecordReliablePdu_tok m) | exact EnvironmentalProcessPdu_tok | exact GriddedDataPdu_tok | exact PointObjectStatePdu_tok | exact LinearObjectStatePdu_tok | exact ArealObjectStatePdu_tok | exact FirePdu_tok | exact DetonationPdu_tok | exact DirectedEnergyFirePdu_tok | exact EntityDamageStatusPdu_tok ]|]). apply Forall_nil.
Qed.
