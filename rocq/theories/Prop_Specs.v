(** * The classes holding specifications or flags (C21, C23, C25, C26, C46).
    Vocabulary in [Spec], [SpecDatum], [SpecSpecial]. *)
From Verif Require Import Base BaseFacts EnumModel Enums EnumFacts Fixed Header HeaderFacts PduMacro PduMacroFacts
  DataTypes DataTypesFacts Bitflags BitflagsFacts Pdus PduFields Spec Wire RecordFacts PdusFacts ClassFacts PduProofs
  SpecDatum DatumFacts SpecSpecial SpecialFacts SpecialExtent SpecialOthers PduProofs.

(** ** Stop/freeze and areal object states: flags with undeclared bits become 0 *)

Lemma norm_same k d (v : flags k d) : same_if_declared (flags_norm v) v.
Proof.
  unfold same_if_declared, declared_bits. split; intros H; [apply flags_norm_id, H|].
  rewrite flags_norm_empty by exact H. apply as_uint_val. apply pow256_pos.
Qed.
Theorem C21_stop_freeze_roundtrip : forall p buf p' out rest,
  serialize StopFreezePdu p buf = Ok (ROk tt, p', buf ++ out) ->
  exists q, deserialize StopFreezePdu (out ++ rest) = Ok (ROk q, rest) /\ length out = 40%nat /\
    same_except ["frozen_behavior"%string] q p' /\ same_if_declared (StopFreezePdu_frozen_behavior q) (StopFreezePdu_frozen_behavior p').
Proof.
  intros p buf p' out rest S. destruct sf_prefix as [tl [rb [nm [ev [P Hf]]]]].
  destruct (special_serialize _ _ _ _ _ _ _ _ _ _ _ _ P S) as [b2 [B2 [K2 [L2 [_ D]]]]]. specialize (D rest).
  cbn [body_serialize] in B2. injection B2 as <-. cbn [body_deserialize app] in D. unfold ret in D.
  eexists. split; [exact D|]. split.
  - assert (X := f_equal (@length byte) K2). rewrite skipn_length in X. cbn [length] in X. lia.
  - split; [split; [reflexivity|]; exact (keeps_reset _ _ _ _ _ _ _ _ P eq_refl (body p') _)|].
    assert (E := Hf (body p') tt). unfold StopFreezePdu_frozen_behavior. cbn [body].
    match goal with |- same_if_declared ?a ?b => assert (E' : a = flags_norm b) by exact E end. rewrite E'. apply norm_same.
Qed.
Theorem C21_stop_freeze_reliable_roundtrip : forall p buf p' out rest,
  serialize StopFreezeReliablePdu p buf = Ok (ROk tt, p', buf ++ out) ->
  exists q, deserialize StopFreezeReliablePdu (out ++ rest) = Ok (ROk q, rest) /\ length out = 40%nat /\
    same_except ["frozen_behavior"%string] q p' /\ same_if_declared (StopFreezeReliablePdu_frozen_behavior q) (StopFreezeReliablePdu_frozen_behavior p').
Proof.
  intros p buf p' out rest S. destruct sfr_prefix as [tl [rb [nm [ev [P Hf]]]]].
  destruct (special_serialize _ _ _ _ _ _ _ _ _ _ _ _ P S) as [b2 [B2 [K2 [L2 [_ D]]]]]. specialize (D rest).
  cbn [body_serialize] in B2. injection B2 as <-. cbn [body_deserialize app] in D. unfold ret in D.
  eexists. split; [exact D|]. split.
  - assert (X := f_equal (@length byte) K2). rewrite skipn_length in X. cbn [length] in X. lia.
  - split; [split; [reflexivity|]; exact (keeps_reset _ _ _ _ _ _ _ _ P eq_refl (body p') _)|].
    assert (E := Hf (body p') tt). unfold StopFreezeReliablePdu_frozen_behavior. cbn [body].
    match goal with |- same_if_declared ?a ?b => assert (E' : a = flags_norm b) by exact E end. rewrite E'. apply norm_same.
Qed.
(** The points of an areal object are dropped as well (C12). *)
Theorem C21_areal_object_roundtrip : forall p buf p' out rest,
  serialize ArealObjectStatePdu p buf = Ok (ROk tt, p', buf ++ out) ->
  exists q, deserialize ArealObjectStatePdu (out ++ rest) = Ok (ROk q, skipn 48 (out ++ rest)) /\
    same_except ["general_object_appearance"; "object_location"]%string q p' /\
    same_if_declared (ArealObjectStatePdu_general_object_appearance q) (ArealObjectStatePdu_general_object_appearance p') /\
    ArealObjectStatePdu_object_location q = [].
Proof.
  intros p buf p' out rest S. destruct ao_prefix as [tl [rb [nm [ev [P [Hrb [Htl Hf]]]]]]].
  destruct (special_serialize _ _ _ _ _ _ _ _ _ _ _ _ P S) as [b2 [B2 [K2 [L2 [_ D]]]]]. specialize (D rest).
  change (12 + 36)%nat with 48%nat in *.
  assert (K : skipn 48 (out ++ rest) = b2 ++ rest).
  { rewrite skipn_app, K2. replace (48 - length out)%nat with 0%nat by lia. reflexivity. }
  rewrite <- K in D. match type of D with context [body_deserialize ?e ?gs ?x] => change (body_deserialize e gs x) with (Ok (([] : list WorldCoordinate, tt), x)) in D end.
  cbv beta iota in D.
  eexists. split; [exact D|]. split; [|split].
  - split; [reflexivity|]; exact (keeps_reset _ _ _ _ _ _ _ _ P eq_refl (body p') _).
  - assert (E := Hf (body p') ([], tt)). unfold ArealObjectStatePdu_general_object_appearance. cbn [body].
    match goal with |- same_if_declared ?a ?b => assert (E' : a = flags_norm b) by exact E end. rewrite E'. apply norm_same.
  - assert (W := Hrb (nm (body p')) ([], tt)). rewrite Htl in W. exact (f_equal fst W).
Qed.

(** ** Record specifications: transfer of ownership, set record *)

Lemma element_panics_iff m e : (exists x, RecordSpecificationElement_serialize m e = Panic x) <-> element_panics m e.
Proof.
  rewrite element_serialize_spec. unfold element_panics, lenN.
  destruct m.
  - destruct (N.ltb_spec (element_product e) 65536) as [K|K].
    + destruct (N.leb_spec (element_product e mod 65536) (N.of_nat (length (RecordSpecificationElement_record_values e)))) as [L|L].
      * split; [intros [x [=]] | intros [[_ H]|H]; lia].
      * split; [right; exact L | eauto].
    + split; [left; auto | eauto].
  - destruct (N.leb_spec (element_product e mod 65536) (N.of_nat (length (RecordSpecificationElement_record_values e)))) as [L|L].
    + split; [intros [x [=]] | intros [[[=] _]|H]; lia].
    + split; [right; exact L | eauto].
Qed.
Lemma wconcat_panics {A} (w : A -> writer) l : (exists e, wconcat (map w l) = Panic e) <-> Exists (fun x => exists e, w x = Panic e) l.
Proof.
  induction l as [|x l IH]; cbn [map wconcat].
  - split; [intros [e [=]] | intros H; inversion H].
  - destruct (w x) as [b|e] eqn:E; cbn [wapp].
    + destruct (wconcat (map w l)) as [b2|e2].
      * split; [intros [e [=]]|]. intros H. apply Exists_cons in H as [[e H]|H]; [congruence|]. apply IH in H as [e [=]].
      * split; [intros _; apply Exists_cons_tl, IH; eauto | eauto].
    + split; [intros _; apply Exists_cons_hd; eauto | eauto].
Qed.
Lemma specification_panics m v : (exists e, RecordSpecification_serialize m v = Panic e) <-> Exists (element_panics m) (RecordSpecification_record_sets v).
Proof.
  unfold RecordSpecification_serialize. cbn [wapp].
  assert (W := wconcat_panics (RecordSpecificationElement_serialize m) (RecordSpecification_record_sets v)).
  assert (X : Exists (element_panics m) (RecordSpecification_record_sets v) <-> Exists (fun x => exists e, RecordSpecificationElement_serialize m x = Panic e) (RecordSpecification_record_sets v)).
  { rewrite !Exists_exists. split; intros [x [I H]]; exists x; (split; [exact I | apply element_panics_iff, H]). }
  rewrite X, <- W. destruct (wconcat _); [split; intros [e [=]] | split; eauto].
Qed.
Lemma single_panics (f : field) (w : values [f]) : (exists e, body_serialize [f] w = Panic e) <-> (exists e, c_ser (f_codec f) (fst w) = Panic e).
Proof. cbn [body_serialize]. destruct (c_ser (f_codec f) (fst w)); cbn [wapp]; [split; intros [e [=]] | split; eauto]. Qed.
Lemma special_panics names m c (I : In c (all_pdus m)) (N : auto_len_fields c = []) gs n tl rb nm ev : prefix names (cls_fields c) gs n tl rb nm ev ->
  forall p buf, (exists e, serialize c p buf = Panic e) <-> declared_size p <= 65535 /\ exists e, body_serialize gs (tl (body p)) = Panic e.
Proof.
  intros P p buf. assert (Pp := all_prep_ok m c I).
  assert (Ep : prep_body (cls_fields c) (body p) = body p) by (apply (prep_default _ Pp), N).
  destruct (serialize_cases c p buf Pp) as [[L [p' [E _]]]|[L [h' [_ E]]]]; rewrite E; cbv zeta in L.
  - split; [intros [e [=]] | intros [L' _]; lia].
  - rewrite Ep. destruct (prefix_encode _ _ _ _ _ _ _ _ P (body p)) as [b1 [_ [S1 _]]]. rewrite S1.
    destruct (body_serialize gs (tl (body p))) as [b2|e]; split; [intros [e [=]] | intros [_ [e [=]]] | eauto | eauto].
Qed.

(** Serialization of the two classes panics exactly when the PDU is not too large and one of
    the elements makes it panic. *)
Theorem C46_transfer_ownership_panics_iff : forall m (p : pdu (TransferOwnershipPdu m)) buf,
  (exists e, serialize (TransferOwnershipPdu m) p buf = Panic e) <->
  declared_size p <= 65535 /\ Exists (element_panics m) (RecordSpecification_record_sets (TransferOwnershipPdu_record_information p)).
Proof.
  intros m p buf. destruct (to_prefix m) as [tl [rb [nm [ev [P [_ [Htl _]]]]]]].
  assert (I : In (TransferOwnershipPdu m) (all_pdus m)) by (apply (nth_error_In _ 12); reflexivity).
  rewrite (special_panics _ m _ I eq_refl _ _ _ _ _ _ P p buf), single_panics, Htl.
  rewrite <- specification_panics. reflexivity.
Qed.
Theorem C46_set_record_panics_iff : forall m (p : pdu (SetRecordReliablePdu m)) buf,
  (exists e, serialize (SetRecordReliablePdu m) p buf = Panic e) <->
  declared_size p <= 65535 /\ Exists (element_panics m) (RecordSpecification_record_sets (SetRecordReliablePdu_record_sets p)).
Proof.
  intros m p buf. destruct (sr_prefix m) as [tl [rb [nm [ev [P [_ Htl]]]]]].
  assert (I : In (SetRecordReliablePdu m) (all_pdus m)) by (apply (nth_error_In _ 56); reflexivity).
  rewrite (special_panics _ m _ I eq_refl _ _ _ _ _ _ P p buf), single_panics, Htl.
  rewrite <- specification_panics. reflexivity.
Qed.

(** Decoding what was encoded. The record specification survives iff it is exact (C25); the
    reference numbers of the two identifiers are lost (C26). *)
Lemma single_decode (f : field) env bs x r : f_len_attr f = None -> c_des (f_codec f) bs = Ok (x, r) -> body_deserialize env [f] bs = Ok ((x, tt), r).
Proof.
  intros A D. refine (eq_trans (des_cons env f [] bs x r _) _); [|reflexivity]. unfold field_deserialize. rewrite A. exact D.
Qed.
Lemma single_decode_inv (f : field) env bs w r : f_len_attr f = None -> body_deserialize env [f] bs = Ok (w, r) -> c_des (f_codec f) bs = Ok (fst w, r).
Proof.
  intros A. cbn [body_deserialize]. unfold field_deserialize. rewrite A. unfold bind, ret.
  destruct (c_des (f_codec f) bs) as [[x q]|e]; [|discriminate]. intros E. injection E as <- <-. reflexivity.
Qed.
Lemma single_encode (f : field) (w : values [f]) b : body_serialize [f] w = Ok b -> c_ser (f_codec f) (fst w) = Ok b.
Proof. cbn [body_serialize]. destruct (c_ser (f_codec f) (fst w)) as [x|e]; cbn [wapp]; [rewrite app_nil_r; auto | discriminate]. Qed.
Lemma specification_rt_codec m v b rest : specification_exact m v -> c_ser (RecordSpecification_codec m) v = Ok b ->
  c_des (RecordSpecification_codec m) (b ++ rest) = Ok (v, rest).
Proof.
  intros X S. cbn [c_ser c_des RecordSpecification_codec] in *. rewrite (specification_ser_exact m v (proj2 X)) in S.
  apply (f_equal (fun o => match o with Ok x => x | Panic _ => [] end)) in S. cbv beta iota in S. rewrite <- S. apply specification_rt_exact, X.
Qed.
Lemma drop_same a : same_address (drop_reference a) a.
Proof. split; [reflexivity|]. reflexivity. Qed.

Theorem C25_transfer_ownership_roundtrip : forall m (p : pdu (TransferOwnershipPdu m)) buf p' out rest,
  serialize (TransferOwnershipPdu m) p buf = Ok (ROk tt, p', buf ++ out) ->
  (specification_exact m (TransferOwnershipPdu_record_information p') ->
   exists q, deserialize (TransferOwnershipPdu m) (out ++ rest) = Ok (ROk q, rest) /\
     same_except ["originating_id"; "receiving_id"]%string q p' /\
     same_address (TransferOwnershipPdu_originating_id q) (TransferOwnershipPdu_originating_id p') /\
     same_address (TransferOwnershipPdu_receiving_id q) (TransferOwnershipPdu_receiving_id p')) /\
  (forall q left, deserialize (TransferOwnershipPdu m) (out ++ rest) = Ok (ROk q, left) ->
     specification_exact m (TransferOwnershipPdu_record_information q)).
Proof.
  intros m p buf p' out rest S. destruct (to_prefix m) as [tl [rb [nm [ev [P [Hrb [Htl Hd]]]]]]].
  destruct (special_serialize _ _ _ _ _ _ _ _ _ _ _ _ P S) as [b2 [B2 [K2 [L2 [_ D]]]]]. specialize (D rest).
  apply single_encode in B2. cbn [plain f_codec] in B2. split.
  - intros X. assert (E : fst (tl (body p')) = TransferOwnershipPdu_record_information p') by (rewrite Htl; reflexivity).
    rewrite E in B2.
    rewrite (single_decode (plain "record_information" (RecordSpecification_codec m) RecordSpecification_default) _ _ _ _ eq_refl (specification_rt_codec _ _ _ rest X B2)) in D.
    eexists. split; [exact D|]. destruct (Hd (body p') (TransferOwnershipPdu_record_information p', tt)) as [H1 H2]. split; [|split].
    + split; [reflexivity|]. apply (keeps_reset_tail _ _ _ _ _ _ _ _ P). rewrite <- E. destruct (tl (body p')) as [x []]. reflexivity.
    + match goal with |- same_address ?a ?b => assert (E' : a = drop_reference b) by exact H1 end. rewrite E'. apply drop_same.
    + match goal with |- same_address ?a ?b => assert (E' : a = drop_reference b) by exact H2 end. rewrite E'. apply drop_same.
  - intros q left Q. rewrite D in Q. destruct (body_deserialize _ _ _) as [[w r]|e] eqn:W; [|discriminate Q].
    apply single_decode_inv in W; [|reflexivity]. injection Q as <- _.
    assert (E : TransferOwnershipPdu_record_information (mk_pdu (header p') (rb (nm (body p')) w)) = fst w).
    { assert (Y := Hrb (nm (body p')) w). rewrite Htl in Y. exact (f_equal fst Y). }
    rewrite E. exact (specification_des_exact _ _ _ _ W).
Qed.
Lemma reset_none fs (v : values fs) : reset_fields [] fs v = v.
Proof. induction fs as [|f fs IH]; cbn [reset_fields mem_string existsb]; [reflexivity|]. rewrite IH. destruct v; reflexivity. Qed.
Theorem C25_set_record_roundtrip : forall m (p : pdu (SetRecordReliablePdu m)) buf p' out rest,
  serialize (SetRecordReliablePdu m) p buf = Ok (ROk tt, p', buf ++ out) ->
  (specification_exact m (SetRecordReliablePdu_record_sets p') -> deserialize (SetRecordReliablePdu m) (out ++ rest) = Ok (ROk p', rest)) /\
  (forall q left, deserialize (SetRecordReliablePdu m) (out ++ rest) = Ok (ROk q, left) ->
     specification_exact m (SetRecordReliablePdu_record_sets q)).
Proof.
  intros m p buf p' out rest S. destruct (sr_prefix m) as [tl [rb [nm [ev [P [Hrb Htl]]]]]].
  destruct (special_serialize _ _ _ _ _ _ _ _ _ _ _ _ P S) as [b2 [B2 [K2 [L2 [_ D]]]]]. specialize (D rest).
  apply single_encode in B2. cbn [plain f_codec] in B2. split.
  - intros X. assert (E : fst (tl (body p')) = SetRecordReliablePdu_record_sets p') by (rewrite Htl; reflexivity).
    rewrite E in B2.
    rewrite (single_decode (plain "record_sets" (RecordSpecification_codec m) RecordSpecification_default) _ _ _ _ eq_refl (specification_rt_codec _ _ _ rest X B2)) in D.
    rewrite D. do 3 f_equal. destruct p' as [h' b']. cbn [header body] in *. f_equal.
    assert (Z := keeps_reset_tail _ _ _ _ _ _ _ _ P b' (SetRecordReliablePdu_record_sets {| header := h'; body := b' |}, tt)).
    rewrite !reset_none in Z. apply Z. rewrite <- E. destruct (tl b') as [x []]. reflexivity.
  - intros q left Q. rewrite D in Q. destruct (body_deserialize _ _ _) as [[w r]|e] eqn:W; [|discriminate Q].
    apply single_decode_inv in W; [|reflexivity]. injection Q as <- _.
    assert (E : SetRecordReliablePdu_record_sets (mk_pdu (header p') (rb (nm (body p')) w)) = fst w).
    { assert (Y := Hrb (nm (body p')) w). rewrite Htl in Y. exact (f_equal fst Y). }
    rewrite E. exact (specification_des_exact _ _ _ _ W).
Qed.

(** ** Standard variable specifications: information operations *)
Lemma variable_specification_rt_codec v b rest : counted_StandardVariableSpecification v -> c_ser StandardVariableSpecification_codec v = Ok b ->
  c_des StandardVariableSpecification_codec (b ++ rest) = Ok (v, rest).
Proof.
  intros X S. cbn [c_ser c_des StandardVariableSpecification_codec] in *. rewrite StandardVariableSpecification_ser_field in S.
  apply (f_equal (fun o => match o with Ok x => x | Panic _ => [] end)) in S. cbv beta iota in S. rewrite <- S.
  exact (StandardVariableSpecification_rt v rest X).
Qed.
Theorem C23_information_action_roundtrip : forall p buf p' out rest,
  serialize InformationOperationsActionPdu p buf = Ok (ROk tt, p', buf ++ out) ->
  (counted_StandardVariableSpecification (InformationOperationsActionPdu_io_records p') ->
   exists q, deserialize InformationOperationsActionPdu (out ++ rest) = Ok (ROk q, rest) /\
     same_except ["originating_simulation_id"; "receiving_simulation_id"]%string q p' /\
     same_address (InformationOperationsActionPdu_originating_simulation_id q) (InformationOperationsActionPdu_originating_simulation_id p') /\
     same_address (InformationOperationsActionPdu_receiving_simulation_id q) (InformationOperationsActionPdu_receiving_simulation_id p')) /\
  (forall q left, deserialize InformationOperationsActionPdu (out ++ rest) = Ok (ROk q, left) ->
     counted_StandardVariableSpecification (InformationOperationsActionPdu_io_records q)).
Proof.
  intros p buf p' out rest S. destruct ia_prefix as [tl [rb [nm [ev [P [Hrb [Htl Hd]]]]]]].
  destruct (special_serialize _ _ _ _ _ _ _ _ _ _ _ _ P S) as [b2 [B2 [K2 [L2 [_ D]]]]]. specialize (D rest).
  apply single_encode in B2. cbn [plain f_codec] in B2. split.
  - intros X. assert (E : fst (tl (body p')) = InformationOperationsActionPdu_io_records p') by (rewrite Htl; reflexivity).
    rewrite E in B2.
    rewrite (single_decode (plain "io_records" StandardVariableSpecification_codec StandardVariableSpecification_default) _ _ _ _ eq_refl (variable_specification_rt_codec _ _ rest X B2)) in D.
    eexists. split; [exact D|]. destruct (Hd (body p') (InformationOperationsActionPdu_io_records p', tt)) as [H1 H2]. split; [|split].
    + split; [reflexivity|]. apply (keeps_reset_tail _ _ _ _ _ _ _ _ P). rewrite <- E. destruct (tl (body p')) as [x []]. reflexivity.
    + match goal with |- same_address ?a ?b => assert (E' : a = drop_reference b) by exact H1 end. rewrite E'. apply drop_same.
    + match goal with |- same_address ?a ?b => assert (E' : a = drop_reference b) by exact H2 end. rewrite E'. apply drop_same.
  - intros q left Q. rewrite D in Q. destruct (body_deserialize _ _ _) as [[w r]|e] eqn:W; [|discriminate Q].
    apply single_decode_inv in W; [|reflexivity]. injection Q as <- _.
    assert (E : InformationOperationsActionPdu_io_records (mk_pdu (header p') (rb (nm (body p')) w)) = fst w).
    { assert (Y := Hrb (nm (body p')) w). rewrite Htl in Y. exact (f_equal fst Y). }
    rewrite E. exact (StandardVariableSpecification_des_counted _ _ _ W).
Qed.
Theorem C23_information_report_roundtrip : forall p buf p' out rest,
  serialize InformationOperationsReportPdu p buf = Ok (ROk tt, p', buf ++ out) ->
  (counted_StandardVariableSpecification (InformationOperationsReportPdu_io_records p') ->
   exists q, deserialize InformationOperationsReportPdu (out ++ rest) = Ok (ROk q, rest) /\
     same_except ["originating_simulation_id"]%string q p' /\
     same_address (InformationOperationsReportPdu_originating_simulation_id q) (InformationOperationsReportPdu_originating_simulation_id p')) /\
  (forall q left, deserialize InformationOperationsReportPdu (out ++ rest) = Ok (ROk q, left) ->
     counted_StandardVariableSpecification (InformationOperationsReportPdu_io_records q)).
Proof.
  intros p buf p' out rest S. destruct ir_prefix as [tl [rb [nm [ev [P [Hrb [Htl Hd]]]]]]].
  destruct (special_serialize _ _ _ _ _ _ _ _ _ _ _ _ P S) as [b2 [B2 [K2 [L2 [_ D]]]]]. specialize (D rest).
  apply single_encode in B2. cbn [plain f_codec] in B2. split.
  - intros X. assert (E : fst (tl (body p')) = InformationOperationsReportPdu_io_records p') by (rewrite Htl; reflexivity).
    rewrite E in B2.
    rewrite (single_decode (plain "io_records" StandardVariableSpecification_codec StandardVariableSpecification_default) _ _ _ _ eq_refl (variable_specification_rt_codec _ _ rest X B2)) in D.
    eexists. split; [exact D|]. assert (H1 := Hd (body p') (InformationOperationsReportPdu_io_records p', tt)). split.
    + split; [reflexivity|]. apply (keeps_reset_tail _ _ _ _ _ _ _ _ P). rewrite <- E. destruct (tl (body p')) as [x []]. reflexivity.
    + match goal with |- same_address ?a ?b => assert (E' : a = drop_reference b) by exact H1 end. rewrite E'. apply drop_same.
  - intros q left Q. rewrite D in Q. destruct (body_deserialize _ _ _) as [[w r]|e] eqn:W; [|discriminate Q].
    apply single_decode_inv in W; [|reflexivity]. injection Q as <- _.
    assert (E : InformationOperationsReportPdu_io_records (mk_pdu (header p') (rb (nm (body p')) w)) = fst w).
    { assert (Y := Hrb (nm (body p')) w). rewrite Htl in Y. exact (f_equal fst Y). }
    rewrite E. exact (StandardVariableSpecification_des_counted _ _ _ W).
Qed.

(** Concrete instances: a transfer of ownership with one exact element, one that panics, and
    an information operations report with one record. *)
Definition ownership_with (e : RecordSpecificationElement) : pdu (TransferOwnershipPdu Checked) :=
  let p := pdu_default (TransferOwnershipPdu Checked) (as_u32 1) in
  let b := body p in
  mk_pdu (c := TransferOwnershipPdu Checked) (header p)
    (fst b, (fst (snd b), (fst (snd (snd b)), (fst (snd (snd (snd b))), (fst (snd (snd (snd (snd b)))), (fst (snd (snd (snd (snd (snd b))))),
      (mk_RecordSpecification (as_u32 1) [e], tt))))))).
Definition small_element (vals : list N) : RecordSpecificationElement :=
  mk_RecordSpecificationElement (as_u32 1) (as_u32 2) (as_u16 2) (as_u16 2) (map B vals).
Example C25_ownership_example :
  specification_exact Checked (TransferOwnershipPdu_record_information (ownership_with (small_element [1; 2; 3; 4]))) /\
  (match serialize (TransferOwnershipPdu Checked) (ownership_with (small_element [1; 2; 3; 4])) [] with
   | Ok (ROk tt, _, out) => Some (length out) | _ => None end = Some 56%nat) /\
  (match serialize (TransferOwnershipPdu Checked) (ownership_with (small_element [1; 2; 3])) [] with
   | Panic e => Some e | _ => None end = Some IndexOutOfBounds).
Proof.
  split; [|split; vm_compute; reflexivity].
  split; [reflexivity|]. apply Forall_cons; [|apply Forall_nil]. split; [intros _; vm_compute; reflexivity | vm_compute; reflexivity].
Qed.

(** What the theorems above rest on (one traversal for all of them; not part of the model). *)
Definition Prop_Specs_theorems : True :=
  let _ := @C21_stop_freeze_roundtrip in
  let _ := @C21_stop_freeze_reliable_roundtrip in
  let _ := @C21_areal_object_roundtrip in
  let _ := @C46_transfer_ownership_panics_iff in
  let _ := @C46_set_record_panics_iff in
  let _ := @C25_transfer_ownership_roundtrip in
  let _ := @C25_set_record_roundtrip in
  let _ := @C23_information_action_roundtrip in
  let _ := @C23_information_report_roundtrip in
  I.
Print Assumptions Prop_Specs_theorems.
