(** * How many bytes every class reads, and exactly when decoding panics (C14).
    Vocabulary in [Spec], [SpecSpecial]. *)
From Verif Require Import Base BaseFacts EnumModel Enums EnumFacts Fixed Header HeaderFacts PduMacro PduMacroFacts
  DataTypes DataTypesFacts Bitflags BitflagsFacts Pdus PduFields Spec Wire RecordFacts PdusFacts ClassFacts PduProofs
  SpecDatum DatumFacts SpecSpecial SpecialFacts SpecialExtent SpecialOthers Prop_Specs Prop_Special Prop_Aggregate Prop_Transmitter.

Ltac pick := match goal with
  | |- ?c = ?c \/ _ => left; reflexivity
  | |- ?c = ?c => reflexivity
  | |- _ \/ _ => right; pick
  end.
Lemma special_cases m : forall c, In c (all_pdus m) -> mem_string (cls_name c) special_pdus = true ->
  c = EntityStatePdu \/ c = TransmitterPdu \/ c = AggregateStatePdu \/ c = TransferOwnershipPdu m \/ c = SetRecordReliablePdu m \/
  c = InformationOperationsActionPdu \/ c = InformationOperationsReportPdu \/ c = StopFreezePdu \/ c = StopFreezeReliablePdu \/
  c = ArealObjectStatePdu.
Proof. by_class. all_classes ltac:(intros E; vm_compute in E; first [discriminate E | clear E; pick]). Qed.

(** What is to be shown of each class. *)
Definition reads_as_needed (m : profile) (c : pdu_class) : Prop := forall bs, wire_type bs = code (cls_type c) ->
  let bad := (length bs < bytes_needed c bs)%nat \/ decode_overflows m c bs in
  (bad -> exists e, deserialize c bs = Panic e) /\
  (~ bad -> exists p, deserialize c bs = Ok (ROk p, skipn (bytes_needed c bs) bs)).

Lemma no_overflow m c bs : cls_name c <> "TransferOwnershipPdu"%string -> cls_name c <> "SetRecordReliablePdu"%string -> ~ decode_overflows m c bs.
Proof. intros H1 H2 [_ [[H|H] _]]; contradiction. Qed.

(** All fields fixed, except for a tail [gs] that reads nothing. *)
Lemma fixed_reads names m c gs n tl rb nm ev k : prefix names (cls_fields c) gs n tl rb nm ev ->
  (forall env bs, exists w, body_deserialize env gs bs = Ok (w, bs)) ->
  (forall bs, bytes_needed c bs = k) -> k = (12 + n)%nat ->
  cls_name c <> "TransferOwnershipPdu"%string -> cls_name c <> "SetRecordReliablePdu"%string -> reads_as_needed m c.
Proof.
  intros P G K -> N1 N2 bs T bad. unfold bad. rewrite K. assert (NO := no_overflow m c bs N1 N2). split.
  - intros [L|O]; [|contradiction]. exists Underflow. exact (special_short _ _ _ _ _ _ _ _ P bs L T).
  - intros NB. assert (L : (12 + n <= length bs)%nat) by (destruct (Nat.lt_ge_cases (length bs) (12 + n)); [tauto | assumption]).
    destruct (special_deserialize _ _ _ _ _ _ _ _ P bs L T) as [h [v [_ D]]]. destruct (G (ev v []) (skipn (12 + n) bs)) as [w W].
    rewrite W in D. eauto.
Qed.
Lemma ordinary_reads m c : In c (all_pdus m) -> ordinary c -> reads_as_needed m c.
Proof.
  intros I O bs T bad.
  assert (N1 : cls_name c <> "TransferOwnershipPdu"%string) by (intros E; unfold ordinary in O; rewrite E in O; discriminate O).
  assert (N2 : cls_name c <> "SetRecordReliablePdu"%string) by (intros E; unfold ordinary in O; rewrite E in O; discriminate O).
  assert (K : bytes_needed c bs = N.to_nat (default_size c)).
  { unfold bytes_needed. unfold ordinary, mem_string, special_pdus in O. cbn [existsb] in O.
    repeat (apply orb_false_iff in O; destruct O as [? O]).
    repeat match goal with H : String.eqb (cls_name c) _ = false |- _ => rewrite H; clear H end. reflexivity. }
  unfold bad. rewrite K. assert (NO := no_overflow m c bs N1 N2). split.
  - intros [L|X]; [|contradiction]. apply (ordinary_panic m c I O bs). right. split; [exact T|]. unfold lenN. lia.
  - intros NB. assert (L : (N.to_nat (default_size c) <= length bs)%nat) by (destruct (Nat.lt_ge_cases (length bs) (N.to_nat (default_size c))); [tauto | assumption]).
    destruct (ordinary_local m c I O (firstn (N.to_nat (default_size c)) bs)) as [p D].
    + unfold lenN. rewrite firstn_length_le by exact L. lia.
    + rewrite <- T. assert (G := default_size_ge m c I). unfold wire_type, byte_at.
      destruct (N.to_nat (default_size c)) as [|[|[|k]]] eqn:E; [lia..|]. destruct bs as [|a [|b [|d bs]]]; [cbn in L; lia..|]. reflexivity.
    + exists p. specialize (D (skipn (N.to_nat (default_size c)) bs)). rewrite firstn_skipn in D. exact D.
Qed.
Lemma specification_reads names m c f gs tl rb nm ev : f_len_attr f = None -> c_des (f_codec f) = gs ->
  prefix names (cls_fields c) [f] 24 tl rb nm ev -> cls_name c = "TransferOwnershipPdu"%string \/ cls_name c = "SetRecordReliablePdu"%string ->
  (forall bs pos, let k := N.to_nat (be4_at bs pos) in
    let bad := (length bs < elements_end k bs (pos + 4))%nat \/ (m = Checked /\ product_overflows k bs (pos + 4)) in
    (bad -> exists e, gs (skipn pos bs) = Panic e) /\ (~ bad -> exists v, gs (skipn pos bs) = Ok (v, skipn (elements_end k bs (pos + 4)) bs))) ->
  reads_as_needed m c.
Proof.
  intros A G P Nm R bs T bad.
  assert (K : bytes_needed c bs = elements_end (N.to_nat (be4_at bs 36)) bs 40) by (unfold bytes_needed; destruct Nm as [-> | ->]; reflexivity).
  unfold bad. rewrite K. unfold decode_overflows. destruct (R bs 36%nat) as [R1 R2]. cbv zeta in R1, R2. change (36 + 4)%nat with 40%nat in *.
  assert (Ge := elements_end_ge (N.to_nat (be4_at bs 36)) bs 40).
  destruct (Nat.lt_ge_cases (length bs) 36) as [L|L].
  { split; [intros _; exists Underflow; exact (special_short _ _ _ _ _ _ _ _ P bs L T) | intros NB; exfalso; apply NB; left; lia]. }
  destruct (special_deserialize _ _ _ _ _ _ _ _ P bs L T) as [h [v [_ D]]]. change (12 + 24)%nat with 36%nat in D. split.
  - intros B. destruct R1 as [e E]; [tauto|]. exists e. rewrite <- G in E.
    rewrite (des_cons_panic _ f [] _ e) in D; [exact D|]. unfold field_deserialize. rewrite A. exact E.
  - intros B. destruct R2 as [w E]; [tauto|]. rewrite <- G in E. rewrite (single_decode f _ _ _ _ A E) in D. eauto.
Qed.
Lemma variable_reads names m c f gs n pos0 tl rb nm ev : f_len_attr f = None -> c_des (f_codec f) = gs ->
  prefix names (cls_fields c) [f] n tl rb nm ev -> (12 + n)%nat = pos0 ->
  (forall bs, bytes_needed c bs = records_end (N.to_nat (be2_at bs pos0)) bs (pos0 + 2)) ->
  cls_name c <> "TransferOwnershipPdu"%string -> cls_name c <> "SetRecordReliablePdu"%string ->
  (forall bs pos, let k := N.to_nat (be2_at bs pos) in
    ((length bs < records_end k bs (pos + 2))%nat -> exists e, gs (skipn pos bs) = Panic e) /\
    ((records_end k bs (pos + 2) <= length bs)%nat -> exists v, gs (skipn pos bs) = Ok (v, skipn (records_end k bs (pos + 2)) bs))) ->
  reads_as_needed m c.
Proof.
  intros A G P <- K N1 N2 R bs T bad. unfold bad. rewrite K. assert (NO := no_overflow m c bs N1 N2).
  destruct (R bs (12 + n)%nat) as [R1 R2]. cbv zeta in R1, R2.
  assert (Ge := records_end_ge (N.to_nat (be2_at bs (12 + n))) bs (12 + n + 2)).
  destruct (Nat.lt_ge_cases (length bs) (12 + n)) as [L|L].
  { split; [intros _; exists Underflow; exact (special_short _ _ _ _ _ _ _ _ P bs L T) | intros NB; exfalso; apply NB; left; lia]. }
  destruct (special_deserialize _ _ _ _ _ _ _ _ P bs L T) as [h [v [_ D]]]. split.
  - intros [B|B]; [|contradiction]. destruct R1 as [e E]; [exact B|]. exists e. rewrite <- G in E.
    rewrite (des_cons_panic _ f [] _ e) in D; [exact D|]. unfold field_deserialize. rewrite A. exact E.
  - intros B. destruct R2 as [w E]; [destruct (Nat.lt_ge_cases (length bs) (records_end (N.to_nat (be2_at bs (12 + n))) bs (12 + n + 2))); [tauto | assumption]|].
    rewrite <- G in E. rewrite (single_decode f _ _ _ _ A E) in D. eauto.
Qed.
Lemma overflows_dec k : forall bs pos, product_overflows k bs pos \/ ~ product_overflows k bs pos.
Proof.
  induction k as [|k IH]; intros bs pos; cbn [product_overflows]; [tauto|].
  destruct (N.le_gt_cases 65536 (product_at bs pos)); [tauto|].
  destruct (IH bs (pos + 12 + N.to_nat (product_at bs pos mod 65536))%nat) as [H1|H1]; [tauto|]. right. intros [H2|H2]; [lia | tauto].
Qed.
Lemma overflow_dec m c bs : decode_overflows m c bs \/ ~ decode_overflows m c bs.
Proof.
  unfold decode_overflows. destruct m; [|right; intros [[=] _]].
  destruct (String.string_dec (cls_name c) "TransferOwnershipPdu"), (String.string_dec (cls_name c) "SetRecordReliablePdu"),
    (overflows_dec (N.to_nat (be4_at bs 36)) bs 40); tauto.
Qed.
Lemma pdu_reads m c : In c (all_pdus m) -> reads_as_needed m c.
Proof.
  intros I. destruct (mem_string (cls_name c) special_pdus) eqn:E; [|exact (ordinary_reads m c I E)].
  apply (special_cases m c I) in E.
  destruct E as [->|[->|[->|[->|[->|[->|[->|[->|[->| ->]]]]]]]]].
  - intros bs T bad. destruct (C28_entity_state_decode bs T) as [H1 H2]. change (bytes_needed EntityStatePdu bs) with 133%nat in *. split.
    + intros [L|[_ [[X|X] _]]]; [eauto | discriminate X..].
    + intros NB. destruct H2 as [p [D _]]; [|eauto]. destruct (Nat.lt_ge_cases (length bs) 133); [exfalso; apply NB; left; assumption | assumption].
  - intros bs T bad. destruct (C29_transmitter_decode bs T) as [H1 H2]. change (bytes_needed TransmitterPdu bs) with (104 + N.to_nat (byte_at bs 100))%nat in *. split.
    + intros [L|[_ [[X|X] _]]]; [eauto | discriminate X..].
    + intros NB. destruct H2 as [p [D _]]; [|eauto]. destruct (Nat.lt_ge_cases (length bs) (104 + N.to_nat (byte_at bs 100))); [exfalso; apply NB; left; assumption | assumption].
  - intros bs T bad. destruct (C45_aggregate_decode bs T) as [H1 H2]. change (bytes_needed AggregateStatePdu bs) with 136%nat in *. split.
    + intros [L|[_ [[X|X] _]]]; [eauto | discriminate X..].
    + intros NB. destruct H2 as [p [D _]]; [|eauto]. destruct (Nat.lt_ge_cases (length bs) 136); [exfalso; apply NB; left; assumption | assumption].
  - destruct (to_prefix m) as [tl [rb [nm [ev [P _]]]]].
    exact (specification_reads _ m _ (plain "record_information" (RecordSpecification_codec m) RecordSpecification_default) _ _ _ _ _ eq_refl eq_refl P (or_introl eq_refl) (specification_read m)).
  - destruct (sr_prefix m) as [tl [rb [nm [ev [P _]]]]].
    exact (specification_reads _ m _ (plain "record_sets" (RecordSpecification_codec m) RecordSpecification_default) _ _ _ _ _ eq_refl eq_refl P (or_intror eq_refl) (specification_read m)).
  - destruct ia_prefix as [tl [rb [nm [ev [P _]]]]].
    refine (variable_reads _ m _ (plain "io_records" StandardVariableSpecification_codec StandardVariableSpecification_default) _ _ 54 _ _ _ _ eq_refl eq_refl P eq_refl (fun _ => eq_refl) _ _ variable_specification_read); discriminate.
  - destruct ir_prefix as [tl [rb [nm [ev [P _]]]]].
    refine (variable_reads _ m _ (plain "io_records" StandardVariableSpecification_codec StandardVariableSpecification_default) _ _ 38 _ _ _ _ eq_refl eq_refl P eq_refl (fun _ => eq_refl) _ _ variable_specification_read); discriminate.
  - destruct sf_prefix as [tl [rb [nm [ev [P _]]]]].
    refine (fixed_reads _ m _ _ _ _ _ _ _ 40 P _ (fun _ => eq_refl) eq_refl _ _); [intros; exists tt; reflexivity | discriminate..].
  - destruct sfr_prefix as [tl [rb [nm [ev [P _]]]]].
    refine (fixed_reads _ m _ _ _ _ _ _ _ 40 P _ (fun _ => eq_refl) eq_refl _ _); [intros; exists tt; reflexivity | discriminate..].
  - destruct ao_prefix as [tl [rb [nm [ev [P _]]]]].
    refine (fixed_reads _ m _ _ _ _ _ _ _ 48 P _ (fun _ => eq_refl) eq_refl _ _); [intros; exists ([], tt); reflexivity | discriminate..].
Qed.

(** ** C14: for every class, exactly when decoding panics *)
Theorem C14_panics_iff : forall m c bs, In c (all_pdus m) ->
  ((exists e, deserialize c bs = Panic e) <->
   (length bs < 12)%nat \/
   (wire_type bs = code (cls_type c) /\ ((length bs < bytes_needed c bs)%nat \/ decode_overflows m c bs))).
Proof.
  intros m c bs I. destruct (Nat.lt_ge_cases (length bs) 12) as [L|L].
  { split; [auto|]. intros _. exists Underflow. apply deserialize_short, L. }
  destruct (N.eq_dec (wire_type bs) (code (cls_type c))) as [T|T].
  - destruct (pdu_reads m c I bs T) as [H1 H2]. cbv zeta in H1, H2. split.
    + intros [e E]. right. split; [exact T|].
      destruct (Nat.lt_ge_cases (length bs) (bytes_needed c bs)) as [K|K]; [left; exact K|]. right.
      destruct (overflow_dec m c bs) as [O|O]; [exact O|]. destruct H2 as [p D]; [intros [H|H]; [lia | contradiction]|]. congruence.
    + intros [K|[_ K]]; [lia | exact (H1 K)].
  - destruct (deserialize_cases c bs L) as [h [_ [_ E]]]. apply N.eqb_neq in T. rewrite E, T. apply N.eqb_neq in T.
    split; [intros [e [=]] | intros [K|[K _]]; [lia | contradiction]].
Qed.
(** Otherwise exactly [bytes_needed] bytes are read. *)
Theorem C14_bytes_read : forall m c bs, In c (all_pdus m) -> wire_type bs = code (cls_type c) ->
  (bytes_needed c bs <= length bs)%nat -> ~ decode_overflows m c bs ->
  exists p, deserialize c bs = Ok (ROk p, skipn (bytes_needed c bs) bs).
Proof.
  intros m c bs I T L O. destruct (pdu_reads m c I bs T) as [_ H]. apply H. intros [K|K]; [lia | contradiction].
Qed.
(** Concretely: a transfer of ownership announcing one element of 2 * 2 value bytes needs 56 bytes. *)
Definition ownership_bytes : bytes :=
  map B ([7; 1; 35; 7] ++ repeat 0 32 ++ [0; 0; 0; 1] ++ repeat 0 8 ++ [0; 2; 0; 2] ++ [1; 2; 3]).
Example C14_needed_example : wire_type ownership_bytes = 35 /\ bytes_needed (TransferOwnershipPdu Checked) ownership_bytes = 56%nat /\
  length ownership_bytes = 55%nat /\ deserialize (TransferOwnershipPdu Checked) ownership_bytes = Panic Underflow.
Proof. repeat split; vm_compute; reflexivity. Qed.

(** What the theorems above rest on (one traversal for all of them; not part of the model). *)
Definition Prop_Needed_theorems : True :=
  let _ := @C14_panics_iff in
  let _ := @C14_bytes_read in
  I.
Print Assumptions Prop_Needed_theorems.
