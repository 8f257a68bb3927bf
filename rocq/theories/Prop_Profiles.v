(** * Debug and release builds (C60). Vocabulary in [SpecProfiles]. *)
From Verif Require Import Base BaseFacts EnumModel Enums EnumFacts Fixed Header HeaderFacts PduMacro PduMacroFacts
  DataTypes DataTypesFacts Bitflags BitflagsFacts Pdus PduFields Spec Wire RecordFacts PdusFacts ClassFacts PduProofs
  SpecDatum DatumFacts SpecSpecial SpecialFacts SpecialExtent SpecialOthers Prop_Specs SpecProfiles.

Lemma agree_refl {A} (o : outcome A) : agree o o.
Proof. destruct o as [a|[]]; exact I || reflexivity. Qed.
Lemma agree_ok {A} (x : A) o : agree (Ok x) o -> o = Ok x.
Proof. auto. Qed.
Lemma agree_wapp a a' b b' : agree a a' -> agree b b' -> agree (wapp a b) (wapp a' b').
Proof.
  unfold agree. intros X Y. destruct a as [x|e].
  - subst a'. cbn [wapp]. destruct b as [y|e]; [rewrite Y; reflexivity|]. destruct e; try exact I; rewrite Y; reflexivity.
  - cbn [wapp]. destruct e; try exact I; rewrite X; reflexivity.
Qed.
Lemma agree_wconcat {A} (w w' : A -> writer) l : (forall x, agree (w x) (w' x)) -> agree (wconcat (map w l)) (wconcat (map w' l)).
Proof. intros H. induction l as [|x l IH]; cbn [map wconcat]; [apply agree_refl | apply agree_wapp; auto]. Qed.
Lemma agree_bind {A C} (r r' : reader A) (k k' : A -> reader C) bs : (forall b, agree (r b) (r' b)) -> (forall a b, agree (k a b) (k' a b)) ->
  agree (bind r k bs) (bind r' k' bs).
Proof.
  unfold bind. intros X Y. specialize (X bs). unfold agree in X. destruct (r bs) as [[a q]|e].
  - rewrite X. apply Y.
  - destruct e; try exact I; rewrite X; reflexivity.
Qed.
Lemma agree_repeat {A} (r r' : reader A) n : (forall b, agree (r b) (r' b)) -> forall b, agree (repeat_read n r b) (repeat_read n r' b).
Proof.
  intros H. induction n as [|n IH]; intros b; cbn [repeat_read]; [apply agree_refl|].
  apply agree_bind; [exact H|]. intros a b'. apply agree_bind; [exact IH|]. intros; apply agree_refl.
Qed.
Lemma mul_agree a b : agree (mul_u16 Checked a b) (mul_u16 Wrapping a b).
Proof. unfold mul_u16. destruct (_ <? _); [apply agree_refl | exact I]. Qed.

(** Record-specification elements and specifications. *)
Lemma element_ser_agree v : agree (RecordSpecificationElement_serialize Checked v) (RecordSpecificationElement_serialize Wrapping v).
Proof.
  unfold RecordSpecificationElement_serialize. apply agree_wapp; [apply agree_refl|].
  assert (M := mul_agree (RecordSpecificationElement_record_length v) (RecordSpecificationElement_record_count v)). unfold agree in M.
  destruct (mul_u16 Checked _ _) as [n|e]; [rewrite M; apply agree_refl|]. destruct e; try exact I; rewrite M; reflexivity.
Qed.
Lemma element_des_agree bs : agree (RecordSpecificationElement_deserialize Checked bs) (RecordSpecificationElement_deserialize Wrapping bs).
Proof.
  unfold RecordSpecificationElement_deserialize.
  do 4 (apply agree_bind; [intros; apply agree_refl|]; intros ? ?).
  apply agree_bind; [|intros; apply agree_refl]. intros bb. unfold rlift.
  match goal with |- context [mul_u16 Checked ?x ?y] => assert (M := mul_agree x y); destruct (mul_u16 Checked x y) as [n|e] end; unfold agree in M.
  - rewrite M. reflexivity.
  - destruct e; try exact I; rewrite M; reflexivity.
Qed.
Theorem C60_records :
  (forall v, agree (RecordSpecificationElement_serialize Checked v) (RecordSpecificationElement_serialize Wrapping v)) /\
  (forall bs, agree (RecordSpecificationElement_deserialize Checked bs) (RecordSpecificationElement_deserialize Wrapping bs)) /\
  (forall v, agree (RecordSpecification_serialize Checked v) (RecordSpecification_serialize Wrapping v)) /\
  (forall bs, agree (RecordSpecification_deserialize Checked bs) (RecordSpecification_deserialize Wrapping bs)) /\
  (forall v, RecordSpecification_field_len Checked v = RecordSpecification_field_len Wrapping v).
Proof.
  split; [exact element_ser_agree|]. split; [exact element_des_agree|]. split; [|split].
  - intros v. unfold RecordSpecification_serialize. apply agree_wapp; [apply agree_refl|]. apply agree_wconcat, element_ser_agree.
  - intros bs. unfold RecordSpecification_deserialize. apply agree_bind; [intros; apply agree_refl|]. intros n b.
    apply agree_bind; [|intros; apply agree_refl]. apply agree_repeat, element_des_agree.
  - reflexivity.
Qed.

(** The build profile matters for two classes only. *)
Theorem C60_classes : forall c, In c (all_pdus Checked) ->
  c = TransferOwnershipPdu Checked \/ c = SetRecordReliablePdu Checked \/ In c (all_pdus Wrapping).
Proof.
  intros c I. apply In_nth_error in I as [n E].
  assert (L : (n < length (all_pdus Checked))%nat) by (apply nth_error_Some; rewrite E; discriminate); change (length (all_pdus Checked)) with 66%nat in L.
  destruct (Nat.eq_dec n 12) as [->|N1]; [left; injection E as <-; reflexivity|].
  destruct (Nat.eq_dec n 56) as [->|N2]; [right; left; injection E as <-; reflexivity|].
  right. right. apply (nth_error_In _ n). rewrite <- E.
  do 66 (destruct n as [|n]; [first [reflexivity | lia]|]). lia.
Qed.

(** Those two: same defaults, same sizes, and the same outcomes except for overflow panics. *)
Lemma fs_agree_transfer v : agree (body_serialize (cls_fields (TransferOwnershipPdu Checked)) v) (body_serialize (cls_fields (TransferOwnershipPdu Wrapping)) v).
Proof.
  cbn [cls_fields TransferOwnershipPdu body_serialize].
  do 6 (apply agree_wapp; [apply agree_refl|]). apply agree_wapp; [|apply agree_refl]. apply C60_records.
Qed.
Lemma fs_agree_set v : agree (body_serialize (cls_fields (SetRecordReliablePdu Checked)) v) (body_serialize (cls_fields (SetRecordReliablePdu Wrapping)) v).
Proof.
  cbn [cls_fields SetRecordReliablePdu body_serialize].
  do 7 (apply agree_wapp; [apply agree_refl|]). apply agree_wapp; [|apply agree_refl]. apply C60_records.
Qed.
Lemma des_agree_transfer bs : agree (body_deserialize [] (cls_fields (TransferOwnershipPdu Checked)) bs) (body_deserialize [] (cls_fields (TransferOwnershipPdu Wrapping)) bs).
Proof.
  cbn [cls_fields TransferOwnershipPdu body_deserialize].
  do 6 (apply agree_bind; [intros; apply agree_refl|]; intros ? ?; apply agree_bind; [clear|intros; apply agree_refl]; intros).
  apply agree_bind; [apply C60_records|]. intros; apply agree_refl.
Qed.
Lemma des_agree_set bs : agree (body_deserialize [] (cls_fields (SetRecordReliablePdu Checked)) bs) (body_deserialize [] (cls_fields (SetRecordReliablePdu Wrapping)) bs).
Proof.
  cbn [cls_fields SetRecordReliablePdu body_deserialize].
  do 7 (apply agree_bind; [intros; apply agree_refl|]; intros ? ?; apply agree_bind; [clear|intros; apply agree_refl]; intros).
  apply agree_bind; [apply C60_records|]. intros; apply agree_refl.
Qed.
Lemma ser_agree (f : profile -> pdu_class) (same : values (cls_fields (f Checked)) -> values (cls_fields (f Wrapping))) :
  cls_type (f Checked) = cls_type (f Wrapping) -> cls_family (f Checked) = cls_family (f Wrapping) ->
  (forall b, same (prep_body _ b) = prep_body _ (same b)) -> (forall b, body_len _ (same b) = body_len _ b) ->
  (forall b, agree (body_serialize _ b) (body_serialize _ (same b))) ->
  forall p buf, agree (sent_as (in_release same) (serialize (f Checked) p buf)) (serialize (f Wrapping) (in_release same p) buf).
Proof.
  intros T F P L A p buf. unfold serialize, in_release. cbn [header body]. rewrite <- T, <- F, <- P.
  unfold calculate_length. cbn [body]. rewrite L.
  destruct (try_uint 2 _) as [l|]; [|reflexivity].
  specialize (A (prep_body (cls_fields (f Checked)) (body p))). unfold agree in A.
  destruct (body_serialize (cls_fields (f Checked)) (prep_body (cls_fields (f Checked)) (body p))) as [o|e].
  - rewrite A. reflexivity.
  - cbn [sent_as]. destruct e; try exact I; rewrite A; reflexivity.
Qed.
Lemma des_agree (f : profile -> pdu_class) (same : values (cls_fields (f Checked)) -> values (cls_fields (f Wrapping))) :
  cls_type (f Checked) = cls_type (f Wrapping) ->
  (forall bs, agree (match body_deserialize [] (cls_fields (f Checked)) bs with Ok (b, r) => Ok (same b, r) | Panic e => Panic e end)
                    (body_deserialize [] (cls_fields (f Wrapping)) bs)) ->
  forall bs, agree (received_as (in_release same) (deserialize (f Checked) bs)) (deserialize (f Wrapping) bs).
Proof.
  intros T A bs. unfold deserialize. rewrite <- T. destruct (PduHeader_deserialize bs) as [[h rest]|e]; [|apply agree_refl].
  destruct (enum_eqb (pdu_type h) (cls_type (f Checked))); [|reflexivity].
  specialize (A rest). unfold agree in A. destruct (body_deserialize [] (cls_fields (f Checked)) rest) as [[b r]|e].
  - rewrite A. reflexivity.
  - cbn [received_as]. destruct e; try exact I; rewrite A; reflexivity.
Qed.

Theorem C60_transfer_ownership :
  (forall ts, transfer_in_release (pdu_new (TransferOwnershipPdu Checked) ts) = pdu_new (TransferOwnershipPdu Wrapping) ts) /\
  (forall p, calculate_length (TransferOwnershipPdu Wrapping) (transfer_in_release p) = calculate_length (TransferOwnershipPdu Checked) p) /\
  (forall p buf, agree (sent_as transfer_in_release (serialize (TransferOwnershipPdu Checked) p buf))
                       (serialize (TransferOwnershipPdu Wrapping) (transfer_in_release p) buf)) /\
  (forall bs, agree (received_as transfer_in_release (deserialize (TransferOwnershipPdu Checked) bs))
                    (deserialize (TransferOwnershipPdu Wrapping) bs)).
Proof.
  split; [intros ts; reflexivity|]. split; [intros p; reflexivity|]. split.
  - refine (ser_agree TransferOwnershipPdu (fun b => b) eq_refl eq_refl _ _ fs_agree_transfer); reflexivity.
  - refine (des_agree TransferOwnershipPdu (fun b => b) eq_refl _). intros bs.
    assert (D := des_agree_transfer bs). unfold agree in *.
    destruct (body_deserialize [] (cls_fields (TransferOwnershipPdu Checked)) bs) as [[b r]|e]; exact D.
Qed.
Theorem C60_set_record :
  (forall ts, set_record_in_release (pdu_new (SetRecordReliablePdu Checked) ts) = pdu_new (SetRecordReliablePdu Wrapping) ts) /\
  (forall p, calculate_length (SetRecordReliablePdu Wrapping) (set_record_in_release p) = calculate_length (SetRecordReliablePdu Checked) p) /\
  (forall p buf, agree (sent_as set_record_in_release (serialize (SetRecordReliablePdu Checked) p buf))
                       (serialize (SetRecordReliablePdu Wrapping) (set_record_in_release p) buf)) /\
  (forall bs, agree (received_as set_record_in_release (deserialize (SetRecordReliablePdu Checked) bs))
                    (deserialize (SetRecordReliablePdu Wrapping) bs)).
Proof.
  split; [intros ts; reflexivity|]. split; [intros p; reflexivity|]. split.
  - refine (ser_agree SetRecordReliablePdu (fun b => b) eq_refl eq_refl _ _ fs_agree_set); reflexivity.
  - refine (des_agree SetRecordReliablePdu (fun b => b) eq_refl _). intros bs.
    assert (D := des_agree_set bs). unfold agree in *.
    destruct (body_deserialize [] (cls_fields (SetRecordReliablePdu Checked)) bs) as [[b r]|e]; exact D.
Qed.

(** From debug to release: what a debug build sends with correct counts, both builds decode alike. *)
Theorem C60_debug_to_release_set_record : forall (p p' : pdu (SetRecordReliablePdu Checked)) buf out rest,
  serialize (SetRecordReliablePdu Checked) p buf = Ok (ROk tt, p', buf ++ out) ->
  specification_exact Checked (SetRecordReliablePdu_record_sets p') ->
  deserialize (SetRecordReliablePdu Checked) (out ++ rest) = Ok (ROk p', rest) /\
  deserialize (SetRecordReliablePdu Wrapping) (out ++ rest) = Ok (ROk (set_record_in_release p'), rest).
Proof.
  intros p p' buf out rest S X. assert (D := proj1 (C25_set_record_roundtrip Checked p buf p' out rest S) X). split; [exact D|].
  assert (A := proj2 (proj2 (proj2 C60_set_record)) (out ++ rest)). rewrite D in A. exact A.
Qed.
Theorem C60_debug_to_release_transfer : forall (p p' : pdu (TransferOwnershipPdu Checked)) buf out rest,
  serialize (TransferOwnershipPdu Checked) p buf = Ok (ROk tt, p', buf ++ out) ->
  specification_exact Checked (TransferOwnershipPdu_record_information p') ->
  exists q, deserialize (TransferOwnershipPdu Checked) (out ++ rest) = Ok (ROk q, rest) /\
    deserialize (TransferOwnershipPdu Wrapping) (out ++ rest) = Ok (ROk (transfer_in_release q), rest) /\
    same_except ["originating_id"; "receiving_id"]%string q p'.
Proof.
  intros p p' buf out rest S X. destruct (proj1 (C25_transfer_ownership_roundtrip Checked p buf p' out rest S) X) as [q [D [Q _]]].
  exists q. split; [exact D|]. split; [|exact Q].
  assert (A := proj2 (proj2 (proj2 C60_transfer_ownership)) (out ++ rest)). rewrite D in A. exact A.
Qed.

(** From release to debug: a release build can send a datagram that every release build decodes
    to the same PDU, and on which a debug build panics. *)
Definition overflowing : RecordSpecification :=
  mk_RecordSpecification (as_uint 4 1) [mk_RecordSpecificationElement (as_uint 4 1) (as_uint 4 2) (as_uint 2 256) (as_uint 2 256) []].
Definition overflowing_pdu : pdu (SetRecordReliablePdu Wrapping) :=
  let b := body (pdu_new (SetRecordReliablePdu Wrapping) (as_uint 4 0)) in
  mk_pdu (c := SetRecordReliablePdu Wrapping) (header (pdu_new (SetRecordReliablePdu Wrapping) (as_uint 4 0)))
    (fst b, (fst (snd b), (fst (snd (snd b)), (fst (snd (snd (snd b))), (fst (snd (snd (snd (snd b)))), (fst (snd (snd (snd (snd (snd b))))),
     (fst (snd (snd (snd (snd (snd (snd b)))))), (overflowing, tt)))))))).
Theorem C60_release_to_debug_refuted :
  ~ (forall (p p' : pdu (SetRecordReliablePdu Wrapping)) buf out,
       serialize (SetRecordReliablePdu Wrapping) p buf = Ok (ROk tt, p', buf ++ out) ->
       deserialize (SetRecordReliablePdu Wrapping) out = Ok (ROk p', []) ->
       exists q, deserialize (SetRecordReliablePdu Checked) out = Ok (ROk q, [])).
Proof.
  intros H.
  assert (E : match serialize (SetRecordReliablePdu Wrapping) overflowing_pdu [] with
    | Ok (ROk tt, p', out) => match deserialize (SetRecordReliablePdu Checked) out with Panic ArithOverflow => true | _ => false end
    | _ => false end = true) by (vm_compute; reflexivity).
  destruct (serialize (SetRecordReliablePdu Wrapping) overflowing_pdu []) as [[[[[]|] p'] out]|] eqn:S; try discriminate E.
  assert (X : specification_exact Wrapping (SetRecordReliablePdu_record_sets p')).
  { assert (E2 : match serialize (SetRecordReliablePdu Wrapping) overflowing_pdu [] with
      | Ok (ROk tt, p', out) => SetRecordReliablePdu_record_sets p' | _ => RecordSpecification_default end = overflowing) by reflexivity.
    rewrite S in E2. rewrite E2. split; [reflexivity|]. constructor; [|constructor]. split; [discriminate | reflexivity]. }
  assert (D := proj1 (C25_set_record_roundtrip Wrapping overflowing_pdu [] p' out [] S) X). rewrite app_nil_r in D.
  destruct (H overflowing_pdu p' [] out S D) as [q Q]. rewrite Q in E. discriminate E.
Qed.
(** Non-vacuity of the debug-to-release theorems: one record set of two 3-byte records. *)
Example C60_nonvacuous : let s := mk_RecordSpecification (as_uint 4 1)
    [mk_RecordSpecificationElement (as_uint 4 1) (as_uint 4 2) (as_uint 2 3) (as_uint 2 2) (map as_u8 [1; 2; 3; 4; 5; 6])] in
  specification_exact Checked s /\ exists b, RecordSpecification_serialize Checked s = Ok b /\ length b = 22%nat.
Proof.
  split; [split; [reflexivity|]; constructor; [|constructor]; split; [intros _; vm_compute; reflexivity | vm_compute; reflexivity]|].
  eexists. split; [reflexivity|]. vm_compute. reflexivity.
Qed.

(** What the theorems above rest on (one traversal for all of them; not part of the model). *)
Definition Prop_Profiles_theorems : True :=
  let _ := @C60_records in
  let _ := @C60_classes in
  let _ := @C60_transfer_ownership in
  let _ := @C60_set_record in
  let _ := @C60_debug_to_release_set_record in
  let _ := @C60_debug_to_release_transfer in
  let _ := @C60_release_to_debug_refuted in
  I.
Print Assumptions Prop_Profiles_theorems.
