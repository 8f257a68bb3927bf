(** * What is left behind when serialization panics (C55). Vocabulary in [Spec], [SpecSpecial], [SpecHistory]. *)
From Verif Require Import Base BaseFacts EnumModel Enums EnumFacts Fixed Header HeaderFacts PduMacro PduMacroFacts
  DataTypes DataTypesFacts Pdus PduFields Spec RecordFacts PdusFacts ClassFacts PduProofs
  SpecDatum DatumFacts SpecSpecial SpecialFacts SpecialExtent SpecialOthers SpecHistory Prop_Specs Crash.

(** ** Traces agree with the serializers *)
Definition agrees (w : writer) (t : trace) : Prop :=
  match w with Ok b => t = (b, None) | Panic e => snd t = Some e end.
Lemma agrees_app w1 w2 t1 t2 : agrees w1 t1 -> agrees w2 t2 -> agrees (wapp w1 w2) (then_write t1 t2).
Proof.
  unfold agrees, wapp, then_write. destruct w1 as [b1|e1].
  - intros ->. cbn [fst snd]. destruct w2 as [b2|e2]; [intros ->; reflexivity | intros H; exact H].
  - intros H _. rewrite H. exact H.
Qed.
Lemma agrees_at_once {T} (c : codec T) v : agrees (c_ser c v) (at_once c v).
Proof. unfold at_once. destruct (c_ser c v); reflexivity. Qed.
Lemma indexed_trace_spec n : forall l, indexed_trace n l =
  (firstn n l, if Nat.leb n (length l) then None else Some IndexOutOfBounds).
Proof.
  induction n as [|n IH]; intros [|x l]; cbn [indexed_trace firstn length Nat.leb]; [reflexivity..|].
  rewrite IH. unfold then_write. cbn [fst snd]. rewrite put_u8_single. reflexivity.
Qed.
Lemma element_trace_spec m v : element_trace m v =
  if (match m with Checked => element_product v <? 65536 | Wrapping => true end) then
    (element_header v ++ firstn (N.to_nat (element_product v mod 65536)) (RecordSpecificationElement_record_values v),
     if element_product v mod 65536 <=? lenN (RecordSpecificationElement_record_values v) then None else Some IndexOutOfBounds)
  else (element_header v, Some ArithOverflow).
Proof.
  unfold element_trace. rewrite element_mul. fold (element_header v).
  destruct (match m with Checked => _ | Wrapping => _ end); unfold then_write; cbn [fst snd]; [|rewrite app_nil_r; reflexivity].
  rewrite indexed_trace_spec. change (uval (as_u16 (element_product v))) with (element_product v mod 65536). cbn [fst snd].
  set (n := element_product v mod 65536). unfold lenN.
  replace (Nat.leb (N.to_nat n) (length (RecordSpecificationElement_record_values v)))
    with (n <=? N.of_nat (length (RecordSpecificationElement_record_values v))); [reflexivity|].
  apply eq_true_iff_eq. rewrite N.leb_le, Nat.leb_le. lia.
Qed.
Lemma element_agrees m v : agrees (RecordSpecificationElement_serialize m v) (element_trace m v).
Proof.
  rewrite element_serialize_spec, element_trace_spec. destruct (match m with Checked => _ | Wrapping => _ end); [|reflexivity].
  destruct (_ <=? _); reflexivity.
Qed.
Lemma specification_agrees m v : agrees (RecordSpecification_serialize m v) (specification_trace m v).
Proof.
  apply agrees_app; [reflexivity|]. induction (RecordSpecification_record_sets v) as [|e l IH]; [reflexivity|].
  apply agrees_app; [apply element_agrees | exact IH].
Qed.
(** A class's traces are faithful when each field's trace agrees with the field's serializer. *)
Fixpoint faithful (fs : list field) : field_traces fs -> Prop :=
  match fs return field_traces fs -> Prop with
  | [] => fun _ => True
  | f :: fs' => fun t => (forall v, agrees (c_ser (f_codec f) v) (fst t v)) /\ faithful fs' (snd t)
  end.
Lemma body_agrees fs : forall t, faithful fs t -> forall v, agrees (body_serialize fs v) (body_trace fs t v).
Proof.
  induction fs as [|f fs IH]; intros t H v; [reflexivity|]. destruct H as [H1 H2]. apply agrees_app; [apply H1 | apply IH, H2].
Qed.
Lemma serialize_agrees c t p buf : faithful (cls_fields c) t ->
  match serialize c p buf with
  | Ok (r, p', buf') => serialize_trace c t p buf = (Returned r, p', buf')
  | Panic e => exists p' buf', serialize_trace c t p buf = (Panicked e, p', buf')
  end.
Proof.
  intros H. unfold serialize, serialize_trace. destruct (calculate_length _ _); [|reflexivity].
  assert (A := body_agrees _ _ H (prep_body (cls_fields c) (body p))). unfold agrees in A.
  destruct (body_serialize _ _) as [b|e].
  - rewrite A. reflexivity.
  - rewrite A. eexists. eexists. reflexivity.
Qed.
Lemma to_faithful m : faithful _ (TransferOwnershipPdu_traces m).
Proof. cbn [faithful fst snd TransferOwnershipPdu_traces TransferOwnershipPdu cls_fields]. repeat split; intros v; first [apply agrees_at_once | apply specification_agrees]. Qed.
Lemma sr_faithful m : faithful _ (SetRecordReliablePdu_traces m).
Proof. cbn [faithful fst snd SetRecordReliablePdu_traces SetRecordReliablePdu cls_fields]. repeat split; intros v; first [apply agrees_at_once | apply specification_agrees]. Qed.

(** ** What a panic leaves *)
(** Bytes an element occupies when it is written completely, and what is written of an
    element that panics: its 12-byte head and, if it ran out of values, all the values. *)
Definition element_written (v : RecordSpecificationElement) : N := 12 + element_product v mod 65536.
Definition element_torn (e : panic) (v : RecordSpecificationElement) : N :=
  12 + match e with IndexOutOfBounds => lenN (RecordSpecificationElement_record_values v) | _ => 0 end.

Lemma element_no_panic m v : snd (element_trace m v) = None -> ~ element_panics m v /\ lenN (fst (element_trace m v)) = element_written v.
Proof.
  rewrite element_trace_spec. unfold element_panics, element_written, lenN.
  destruct (match m with Checked => _ | Wrapping => _ end) eqn:E; cbn [fst snd]; [|discriminate].
  destruct (N.leb_spec (element_product v mod 65536) (N.of_nat (length (RecordSpecificationElement_record_values v)))) as [L|L]; [|discriminate].
  intros _. split.
  - intros [[-> K]|K]; [apply N.ltb_lt in E; lia | lia].
  - rewrite app_length, element_header_len, firstn_length_le by lia. lia.
Qed.
Lemma element_panic m v e : snd (element_trace m v) = Some e -> element_panics m v /\ lenN (fst (element_trace m v)) = element_torn e v.
Proof.
  rewrite element_trace_spec. unfold element_panics, element_torn, lenN.
  destruct (match m with Checked => _ | Wrapping => _ end) eqn:E; cbn [fst snd].
  - destruct (N.leb_spec (element_product v mod 65536) (N.of_nat (length (RecordSpecificationElement_record_values v)))) as [L|L]; [discriminate|].
    intros [= <-]. split; [right; exact L|]. set (n := element_product v mod 65536) in *. rewrite app_length, element_header_len, firstn_all2 by (clearbody n; lia). cbv iota. exact (Nat2N.inj_add 12 _).
  - intros [= <-]. split; [|rewrite element_header_len; reflexivity]. left. destruct m; [|discriminate E]. apply N.ltb_ge in E. auto.
Qed.
Lemma elements_panic m e l : snd (elements_trace m l) = Some e ->
  exists good bad rest, l = good ++ bad :: rest /\ Forall (fun x => ~ element_panics m x) good /\ element_panics m bad /\
    lenN (fst (elements_trace m l)) = sumN (map element_written good) + element_torn e bad.
Proof.
  induction l as [|x l IH]; cbn [elements_trace]; [discriminate|]. unfold then_write.
  destruct (snd (element_trace m x)) as [e'|] eqn:E.
  - intros H. rewrite H in E. injection E as <-. exists [], x, l. destruct (element_panic _ _ _ H) as [P L].
    repeat split; [constructor | exact P | exact L].
  - cbn [fst snd]. intros H. destruct (IH H) as [good [bad [rest [-> [G [P L]]]]]]. destruct (element_no_panic _ _ E) as [N L'].
    exists (x :: good), bad, rest. repeat split; [constructor; assumption | exact P|].
    unfold lenN in *. rewrite app_length. cbn [map sumN]. lia.
Qed.

(** Common part of the two classes. *)
Lemma torn m c (I : In c (all_pdus m)) (t : field_traces (cls_fields c)) (F : faithful _ t) (sets : pdu c -> RecordSpecification) (fixed : N)
  (B : forall p, exists front, lenN front = fixed /\ body_trace (cls_fields c) t (body p) = then_write (front, None) (then_write (specification_trace m (sets p)) ([], None)))
  (A : auto_len_fields c = []) :
  forall p buf e, serialize c p buf = Panic e ->
  exists good bad rest p' piece,
    RecordSpecification_record_sets (sets p) = good ++ bad :: rest /\
    Forall (fun x => ~ element_panics m x) good /\ element_panics m bad /\
    serialize_trace c t p buf = (Panicked e, p', buf ++ piece) /\
    firstn 12 piece = PduHeader_serialize (header p') /\ body p' = body p /\
    (exists len, uval len = declared_size p /\ stamped (cls_type c) (cls_family c) len (header p) (header p')) /\
    lenN piece = 12 + fixed + 4 + sumN (map element_written good) + element_torn e bad.
Proof.
  intros p buf e S. assert (G := serialize_agrees c t p buf F). rewrite S in G. destruct G as [p' [buf' G]].
  assert (Pp := all_prep_ok m c I). assert (Ep : prep_body (cls_fields c) (body p) = body p) by (apply (prep_default _ Pp), A).
  unfold serialize_trace in G. rewrite Ep in G. unfold calculate_length in G. cbn [body] in G.
  destruct (try_uint 2 (PduHeader_LENGTH + body_len (cls_fields c) (body p))) as [len|] eqn:L; [|discriminate G].
  destruct (B p) as [front [Lf Eb]]. rewrite Eb in G. unfold then_write in G. cbn [fst snd] in G.
  destruct (snd (specification_trace m (sets p))) as [e'|] eqn:Es; [|discriminate G]. cbn [fst snd] in G. rewrite Es in G.
  injection G as -> <- <-.
  assert (Es' := Es). unfold specification_trace, then_write in Es'. cbn [fst snd] in Es'.
  destruct (elements_panic _ _ _ Es') as [good [bad [rest [El [Gd [Bd Ln]]]]]].
  exists good, bad, rest. eexists. eexists. split; [exact El|]. split; [exact Gd|]. split; [exact Bd|]. split.
  { unfold serialize_trace. rewrite Ep. unfold calculate_length. cbn [body]. rewrite L, Eb. unfold then_write. cbn [fst snd].
    rewrite Es. cbn [fst snd]. rewrite Es. reflexivity. }
  cbn [header body]. split; [|split; [reflexivity|split]].
  - rewrite firstn_app. rewrite firstn_all2 by (rewrite header_ser_length; lia). rewrite header_ser_length. cbn [firstn Nat.sub]. apply app_nil_r.
  - exists len. split; [|repeat split].
    unfold try_uint in L. destruct (_ <? _) eqn:K in L; [|discriminate L]. apply N.ltb_lt in K. injection L as <-. exact (as_uint_val _ _ K).
  - unfold specification_trace, then_write. cbn [fst snd]. unfold lenN in *. rewrite !app_length, header_ser_length. unfold put_u32. rewrite put_uint_length. lia.
Qed.

(** Serialization and its trace end alike, with the same PDU and buffer. *)
Theorem C55_transfer_ownership_trace : forall m (p : pdu (TransferOwnershipPdu m)) buf,
  match serialize (TransferOwnershipPdu m) p buf with
  | Ok (r, p', buf') => serialize_trace _ (TransferOwnershipPdu_traces m) p buf = (Returned r, p', buf')
  | Panic e => exists p' buf', serialize_trace _ (TransferOwnershipPdu_traces m) p buf = (Panicked e, p', buf')
  end.
Proof. intros. apply serialize_agrees, to_faithful. Qed.
Theorem C55_set_record_trace : forall m (p : pdu (SetRecordReliablePdu m)) buf,
  match serialize (SetRecordReliablePdu m) p buf with
  | Ok (r, p', buf') => serialize_trace _ (SetRecordReliablePdu_traces m) p buf = (Returned r, p', buf')
  | Panic e => exists p' buf', serialize_trace _ (SetRecordReliablePdu_traces m) p buf = (Panicked e, p', buf')
  end.
Proof. intros. apply serialize_agrees, sr_faithful. Qed.

Lemma peel {T} n norm (c : codec T) v k (x spec : trace) : fixed_codec n norm c ->
  (exists front, lenN front = k /\ x = then_write (front, None) spec) ->
  exists front, lenN front = N.of_nat n + k /\ then_write (at_once c v) x = then_write (front, None) spec.
Proof.
  intros F [front [L ->]]. destruct (fc_ser _ _ _ F v) as [b [Sb [Lb _]]]. exists (b ++ front). split.
  - unfold lenN in *. rewrite app_length. lia.
  - unfold at_once. rewrite Sb. unfold then_write. cbn [fst snd]. rewrite app_assoc. reflexivity.
Qed.
Lemma peel_end x : exists front, lenN front = 0 /\ x = then_write (front, None) x.
Proof. exists []. split; [reflexivity|]. unfold then_write. destruct x. reflexivity. Qed.

(** A panic leaves the buffer with what it held, followed by a piece of a datagram: a complete
    header that announces the size of the whole PDU, the fixed fields, the elements before
    the first one that panics, and a part of that one. The PDU is left with its header stamped. *)
Theorem C55_transfer_ownership_torn : forall m (p : pdu (TransferOwnershipPdu m)) buf e,
  serialize (TransferOwnershipPdu m) p buf = Panic e ->
  exists good bad rest p' piece,
    RecordSpecification_record_sets (TransferOwnershipPdu_record_information p) = good ++ bad :: rest /\
    Forall (fun x => ~ element_panics m x) good /\ element_panics m bad /\
    serialize_trace _ (TransferOwnershipPdu_traces m) p buf = (Panicked e, p', buf ++ piece) /\
    firstn 12 piece = PduHeader_serialize (header p') /\ body p' = body p /\
    (exists len, uval len = declared_size p /\
       stamped (cls_type (TransferOwnershipPdu m)) (cls_family (TransferOwnershipPdu m)) len (header p) (header p')) /\
    lenN piece = default_size (TransferOwnershipPdu m) + sumN (map element_written good) + element_torn e bad.
Proof.
  intros m. apply (torn m _ ltac:(apply (nth_error_In _ 12); reflexivity) _ (to_faithful m) (fun p => TransferOwnershipPdu_record_information p) 24); [|reflexivity].
  intros [h [a [b [c [d [f [g [s []]]]]]]]].
  change 24 with (N.of_nat 6 + (N.of_nat 6 + (N.of_nat 4 + (N.of_nat 1 + (N.of_nat 1 + (N.of_nat 6 + 0)))))).
  cbn [body_trace TransferOwnershipPdu_traces TransferOwnershipPdu cls_fields fst snd body].
  repeat (eapply peel; [first [exact SimulationIdentifier_fc | exact u32_fc | exact RequiredReliabilityService_fc | exact TransferControlTransferType_fc | exact EntityId_fc]|]). apply peel_end.
Qed.
Theorem C55_set_record_torn : forall m (p : pdu (SetRecordReliablePdu m)) buf e,
  serialize (SetRecordReliablePdu m) p buf = Panic e ->
  exists good bad rest p' piece,
    RecordSpecification_record_sets (SetRecordReliablePdu_record_sets p) = good ++ bad :: rest /\
    Forall (fun x => ~ element_panics m x) good /\ element_panics m bad /\
    serialize_trace _ (SetRecordReliablePdu_traces m) p buf = (Panicked e, p', buf ++ piece) /\
    firstn 12 piece = PduHeader_serialize (header p') /\ body p' = body p /\
    (exists len, uval len = declared_size p /\
       stamped (cls_type (SetRecordReliablePdu m)) (cls_family (SetRecordReliablePdu m)) len (header p) (header p')) /\
    lenN piece = default_size (SetRecordReliablePdu m) + sumN (map element_written good) + element_torn e bad.
Proof.
  intros m. apply (torn m _ ltac:(apply (nth_error_In _ 56); reflexivity) _ (sr_faithful m) (fun p => SetRecordReliablePdu_record_sets p) 24); [|reflexivity].
  intros [h [a [b [c [d [f [g [i [s []]]]]]]]]].
  change 24 with (N.of_nat 6 + (N.of_nat 6 + (N.of_nat 4 + (N.of_nat 1 + (N.of_nat 1 + (N.of_nat 2 + (N.of_nat 4 + 0))))))).
  cbn [body_trace SetRecordReliablePdu_traces SetRecordReliablePdu cls_fields fst snd body u8_field f_type].
  repeat (eapply peel; [first [exact EntityId_fc | exact u32_fc | exact RequiredReliabilityService_fc | exact u8_fc | exact u16_fc]|]). apply peel_end.
Qed.

(** "A failed serialization leaves the buffer alone" is false: here 40 fixed bytes, one whole
    element (14 bytes) and 13 bytes of the second one are left. *)
Definition torn_set_record : pdu (SetRecordReliablePdu Checked) :=
  mk_pdu (c := SetRecordReliablePdu Checked) (PduHeader_default (as_u32 0))
    (EntityId_default, (EntityId_default, (as_u32 7, (enum_default RequiredReliabilityService_spec, (as_u8 0, (as_u16 0, (as_u32 0,
      (mk_RecordSpecification (as_u32 3)
         [mk_RecordSpecificationElement (as_u32 1) (as_u32 2) (as_u16 1) (as_u16 2) [B 8; B 9];
          mk_RecordSpecificationElement (as_u32 3) (as_u32 4) (as_u16 1) (as_u16 2) [B 5];
          mk_RecordSpecificationElement (as_u32 5) (as_u32 6) (as_u16 1) (as_u16 1) [B 7]], tt)))))))).
Theorem C55_all_or_nothing_refuted : exists m (p : pdu (SetRecordReliablePdu m)) buf e p' buf',
  serialize (SetRecordReliablePdu m) p buf = Panic e /\
  serialize_trace _ (SetRecordReliablePdu_traces m) p buf = (Panicked e, p', buf') /\ lenN buf' = lenN buf + 67.
Proof.
  exists Checked, torn_set_record, [], IndexOutOfBounds.
  assert (S : serialize (SetRecordReliablePdu Checked) torn_set_record [] = Panic IndexOutOfBounds).
  { assert (V : match serialize (SetRecordReliablePdu Checked) torn_set_record [] with Panic IndexOutOfBounds => true | _ => false end = true) by (vm_compute; reflexivity).
    destruct (serialize (SetRecordReliablePdu Checked) torn_set_record []) as [|[]]; first [discriminate V | reflexivity]. }
  assert (L : lenN (snd (serialize_trace _ (SetRecordReliablePdu_traces Checked) torn_set_record [])) = 67) by (vm_compute; reflexivity).
  assert (T := C55_set_record_trace Checked torn_set_record []). rewrite S in T. destruct T as [p' [buf' T]]. exists p', buf'.
  rewrite T in L. repeat split; assumption.
Qed.

(** Nor can a receiver resynchronise: the header in front of the torn piece announces bytes
    that were never written, so as long as fewer than 300 more bytes follow, the buffer cannot be cut
    into datagrams at all, whatever complete datagrams are among those bytes. *)
Definition oversized_set_record : pdu (SetRecordReliablePdu Checked) :=
  mk_pdu (c := SetRecordReliablePdu Checked) (PduHeader_default (as_u32 0))
    (EntityId_default, (EntityId_default, (as_u32 7, (enum_default RequiredReliabilityService_spec, (as_u8 0, (as_u16 0, (as_u32 0,
      (mk_RecordSpecification (as_u32 1)
         [mk_RecordSpecificationElement (as_u32 1) (as_u32 2) (as_u16 256) (as_u16 256) (repeat (B 1) 300)], tt)))))))).
Theorem C55_framing_refuted : exists (p : pdu (SetRecordReliablePdu Checked)) p' piece,
  serialize (SetRecordReliablePdu Checked) p [] = Panic ArithOverflow /\
  serialize_trace _ (SetRecordReliablePdu_traces Checked) p [] = (Panicked ArithOverflow, p', piece) /\
  forall later frames, lenN later < 300 -> ~ framed (piece ++ later) frames.
Proof.
  exists oversized_set_record.
  assert (S : serialize (SetRecordReliablePdu Checked) oversized_set_record [] = Panic ArithOverflow).
  { assert (V : match serialize (SetRecordReliablePdu Checked) oversized_set_record [] with Panic ArithOverflow => true | _ => false end = true) by (vm_compute; reflexivity).
    destruct (serialize (SetRecordReliablePdu Checked) oversized_set_record []) as [|[]]; first [discriminate V | reflexivity]. }
  assert (L : let x := snd (serialize_trace _ (SetRecordReliablePdu_traces Checked) oversized_set_record []) in (lenN x, be2_at x 8) = (52, 352)) by (vm_compute; reflexivity).
  assert (T := C55_set_record_trace Checked oversized_set_record []). rewrite S in T. destruct T as [p' [piece T]]. exists p', piece.
  rewrite T in L. cbv zeta in L. cbn [snd] in L. injection L as L1 L2. split; [exact S|]. split; [exact T|].
  intros later frames H [E F].
  destruct frames as [|fr frs]; [cbn [List.concat] in E; destruct piece; [discriminate L1 | discriminate E]|].
  inversion F as [|x l [F1 F2] F3 EQ]; subst.
  assert (P : be2_at (piece ++ later) 8 = be2_at fr 8).
  { rewrite E. cbn [List.concat]. unfold be2_at, byte_at. rewrite !app_nth1 by lia. reflexivity. }
  assert (Q : be2_at (piece ++ later) 8 = be2_at piece 8).
  { unfold be2_at, byte_at. unfold lenN in L1. rewrite !app_nth1 by lia. reflexivity. }
  rewrite Q, L2 in P. rewrite <- P in F2. assert (X := f_equal (@length byte) E). cbn [List.concat] in X. rewrite !app_length in X.
  unfold lenN in *. lia.
Qed.
(** A transfer of ownership whose only element promises three values and holds one. *)
Definition torn_transfer (m : profile) : pdu (TransferOwnershipPdu m) :=
  mk_pdu (c := TransferOwnershipPdu m) (PduHeader_default (as_u32 0))
    (SimulationIdentifier_default, (SimulationIdentifier_default, (as_u32 7, (enum_default RequiredReliabilityService_spec,
     (enum_default TransferControlTransferType_spec, (EntityId_default,
      (mk_RecordSpecification (as_u32 1) [mk_RecordSpecificationElement (as_u32 1) (as_u32 2) (as_u16 3) (as_u16 1) [B 5]], tt))))))).
Example C55_example : forall m, (exists e, serialize (TransferOwnershipPdu m) (torn_transfer m) [] = Panic e) /\
  lenN (snd (serialize_trace _ (TransferOwnershipPdu_traces m) (torn_transfer m) [])) = 53.
Proof.
  intros m. split; [|destruct m; vm_compute; reflexivity].
  assert (V : match serialize (TransferOwnershipPdu m) (torn_transfer m) [] with Panic _ => true | _ => false end = true) by (destruct m; vm_compute; reflexivity).
  destruct (serialize (TransferOwnershipPdu m) (torn_transfer m) []) as [|e]; [discriminate V | exists e; reflexivity].
Qed.

(** What the theorems above rest on (one traversal for all of them; not part of the model). *)
Definition Prop_Crash_theorems : True :=
  let _ := @C55_transfer_ownership_trace in
  let _ := @C55_set_record_trace in
  let _ := @C55_transfer_ownership_torn in
  let _ := @C55_set_record_torn in
  let _ := @C55_all_or_nothing_refuted in
  let _ := @C55_framing_refuted in
  I.
Print Assumptions Prop_Crash_theorems.
