(** * Layout of variable-size records (proofs only). *)
From Verif Require Import Base BaseFacts EnumModel Enums EnumFacts Fixed Header PduMacro PduMacroFacts
  DataTypes DataTypesFacts Bitflags BitflagsFacts Pdus PduFields Spec RecordFacts
  Wire WireMaps WireProofs WireFacts WireClass SpecLayout LayoutFacts.

(** ** Readers that invert a writer *)
Definition exactly {T} (w : T -> bytes) (r : reader T) : Prop := forall bs v rest, r bs = Ok (v, rest) -> bs = w v ++ rest.
Lemma exactly_repeat {T} (w : T -> bytes) r : exactly w r -> forall n, exactly (each w) (repeat_read n r).
Proof.
  intros H n. induction n as [|n IH]; intros bs v rest E; cbn [repeat_read] in E.
  - injection E as <- <-. reflexivity.
  - read_inv E. injection E as <- <-. apply H in E0. apply IH in E1. subst. unfold each. cbn [map List.concat]. now rewrite app_assoc.
Qed.
Lemma exactly_uint k : exactly (@be k) (get_uint k).
Proof.
  intros bs v rest H. destruct (Nat.ltb_spec (length bs) k) as [L|L]; [rewrite get_uint_short in H by exact L; discriminate|].
  destruct (put_get_uint k bs L) as [u [G [P _]]]. rewrite G in H. injection H as <- <-.
  unfold be. rewrite big_endian_eq. change (be_encode k (uval u)) with (put_uint u). rewrite P. symmetry. apply firstn_skipn.
Qed.

(** A record whose numbers tile its head: the head re-encodes to the bytes it came from iff
    all codes were known. *)
Definition intact {T} (bs : bytes) (e : entry T) : Prop :=
  let n := number (slice (en_off e) (en_width e) bs) in en_norm e n = n.
Lemma app_same_length {A} (a b c d : list A) : length a = length c -> a ++ b = c ++ d -> a = c /\ b = d.
Proof.
  revert c. induction a as [|x a IH]; intros [|y c] L E; try discriminate L; [split; [reflexivity | exact E]|].
  cbn in E. injection E as -> E. injection L as L. destruct (IH _ L E) as [-> ->]. split; reflexivity.
Qed.
Lemma received_laid {T} (M : list (entry T)) (v : T) bs : forall a b, tiles a b M -> (b <= length bs)%nat ->
  Forall bounded M -> Forall faithful M -> Forall (received bs v) M ->
  (laid_out M v = slice a (b - a) bs <-> Forall (intact bs) M).
Proof.
  induction M as [|e M IH]; intros a b H L Bo Fa Re.
  - cbn in H. subst b. rewrite Nat.sub_diag. split; [constructor | reflexivity].
  - destruct H as [<- H]. assert (K := tiles_le _ _ _ H). inversion Bo as [|? ? B1 B2]; subst. inversion Fa as [|? ? F1 F2]; subst.
    inversion Re as [|? ? R1 R2]; subst. specialize (IH _ _ H L B2 F2 R2).
    assert (Ls : length (slice (en_off e) (en_width e) bs) = en_width e) by (apply slice_length; lia).
    assert (Key : big_endian (en_width e) (en_put e v) = slice (en_off e) (en_width e) bs <-> intact bs e).
    { rewrite (F1 v), R1. unfold intact. assert (N1 := number_lt (slice (en_off e) (en_width e) bs)). rewrite Ls in N1.
      assert (N2 := big_endian_number (slice (en_off e) (en_width e) bs)). rewrite Ls in N2. split; intros E.
      - rewrite <- E at 2. rewrite number_big_endian; [reflexivity | apply B1, N1].
      - rewrite E. exact N2. }
    replace (b - en_off e)%nat with (en_width e + (b - (en_off e + en_width e)))%nat by lia.
    rewrite slice_split. unfold laid_out in *. cbn [map List.concat]. split.
    + intros E. apply app_same_length in E; [|rewrite big_endian_length, Ls; reflexivity]. constructor; [apply Key, E | apply IH, E].
    + intros F. inversion F as [|? ? I1 I2]; subst. f_equal; [apply Key, I1 | apply IH, I2].
Qed.
Definition plain_entry {T} (e : entry T) : Prop := (forall v, en_put e v = en_get e v) /\ forall n, en_norm e n = n.
Lemma plain_bounded {T} (M : list (entry T)) : Forall plain_entry M -> Forall bounded M /\ Forall faithful M.
Proof.
  intros P. rewrite !Forall_forall in *. split; intros e I; destruct (P e I) as [A B]; [intros n H; now rewrite B | exact A].
Qed.
Lemma plain_intact {T} (M : list (entry T)) bs : Forall plain_entry M -> Forall (intact bs) M.
Proof. intros P. rewrite !Forall_forall in *. intros e I. apply (P e I). Qed.
Ltac plains := repeat (apply Forall_cons; [split; intros ?; reflexivity|]); apply Forall_nil.

Lemma wire_exactly {T} n (M : list (entry T)) w r : wire n M w r -> tiles 0 n M -> Forall plain_entry M -> exactly w r.
Proof.
  intros [WS WD] Ti P bs v rest H. destruct (WD _ _ _ H) as [-> [L R]]. destruct (WS v) as [Lw Se].
  destruct (plain_bounded M P) as [Bo Fa].
  assert (E := proj2 (received_laid M v bs 0 n Ti L Bo Fa R) (plain_intact M bs P)).
  assert (E2 := laid_slice M v (w v) 0 n Ti Se). unfold slice in E, E2. change (skipn 0 ?x) with x in *. rewrite Nat.sub_0_r in *.
  rewrite firstn_all2 in E2 by lia. rewrite E2, E. symmetry. apply firstn_skipn.
Qed.
Lemma exactly_eq {T} (w w' : T -> bytes) r : exactly w r -> (forall v, w v = w' v) -> exactly w' r.
Proof. intros H E bs v rest D. rewrite <- E. exact (H _ _ _ D). Qed.
Lemma each_u8 l : List.concat (map put_u8 l) = each be l.
Proof. unfold each. f_equal. apply map_ext. intros x. unfold be. rewrite big_endian_eq. reflexivity. Qed.

(** ** Heads as parts *)
Lemma AttributeRecord_hparts : AttributeRecord_head =
  part "record_type"%string 0 AttributeRecord_record_type (uint_map 4) ++ part "record_length"%string 4 AttributeRecord_record_length (uint_map 2).
Proof. reflexivity. Qed.
Lemma AttributeRecordSet_hparts : AttributeRecordSet_head =
  part "entity_id"%string 0 AttributeRecordSet_entity_id EntityId_map ++
  part "number_of_attribute_records"%string 6 AttributeRecordSet_number_of_attribute_records (uint_map 2).
Proof. reflexivity. Qed.
Lemma StandardVariableRecords_hparts : StandardVariableRecords_head =
  part "record_type"%string 0 StandardVariableRecords_record_type (uint_map 4) ++ part "record_length"%string 4 StandardVariableRecords_record_length (uint_map 2).
Proof. reflexivity. Qed.
Lemma StandardVariableSpecification_hparts : StandardVariableSpecification_map =
  part "number_of_standard_variable_records"%string 0 StandardVariableSpecification_number_of_standard_variable_records (uint_map 2).
Proof. reflexivity. Qed.
Lemma ElectromagneticEmissionBeamData_hparts : ElectromagneticEmissionBeamData_head =
  part "beam_data_length"%string 0 ElectromagneticEmissionBeamData_beam_data_length (uint_map 1) ++
  part "beam_id_number"%string 1 ElectromagneticEmissionBeamData_beam_id_number (uint_map 1) ++
  part "beam_parameter_index"%string 2 ElectromagneticEmissionBeamData_beam_parameter_index (uint_map 2) ++
  part "fundamental_parameter_data"%string 4 ElectromagneticEmissionBeamData_fundamental_parameter_data FundamentalParameterData_map ++
  part "beam_function"%string 44 ElectromagneticEmissionBeamData_beam_function (uint_map 1) ++
  part "number_of_track_jam_targets"%string 45 ElectromagneticEmissionBeamData_number_of_track_jam_targets (uint_map 1) ++
  part "high_density_track_jam"%string 46 ElectromagneticEmissionBeamData_high_density_track_jam (uint_map 1) ++
  part "pad4"%string 47 ElectromagneticEmissionBeamData_pad4 (uint_map 1) ++
  part "jamming_mode_sequence"%string 48 ElectromagneticEmissionBeamData_jamming_mode_sequence (uint_map 4).
Proof. reflexivity. Qed.
Lemma ElectromagneticEmissionSystemData_hparts : ElectromagneticEmissionSystemData_head =
  part "system_data_length"%string 0 ElectromagneticEmissionSystemData_system_data_length (uint_map 1) ++
  part "number_of_beams"%string 1 ElectromagneticEmissionSystemData_number_of_beams (uint_map 1) ++
  part "emissionspadding2"%string 2 ElectromagneticEmissionSystemData_emissionspadding2 (uint_map 2) ++
  part "emitter_system"%string 4 ElectromagneticEmissionSystemData_emitter_system EmitterSystem_map ++
  part "location"%string 8 ElectromagneticEmissionSystemData_location Vector3Float_map.
Proof. reflexivity. Qed.
Lemma AcousticEmitterSystemData_hparts : AcousticEmitterSystemData_head =
  part "emitter_system_data_length"%string 0 AcousticEmitterSystemData_emitter_system_data_length (uint_map 1) ++
  part "number_of_beams"%string 1 AcousticEmitterSystemData_number_of_beams (uint_map 1) ++
  part "pad2"%string 2 AcousticEmitterSystemData_pad2 (uint_map 2) ++
  part "acoustic_emitter_system"%string 4 AcousticEmitterSystemData_acoustic_emitter_system AcousticEmitterSystem_map ++
  part "emitter_location"%string 8 AcousticEmitterSystemData_emitter_location Vector3Float_map.
Proof. reflexivity. Qed.

(** ** Encoding *)
Ltac ser_list :=
  lazymatch goal with
  | |- Forall (sent (?pre ++ ?x ++ ?post) _) (part _ _ _ ?M ++ _) =>
      let W := fresh "W" in eassert (W : wser _ M _) by wfind_ser;
      refine (sent_step _ _ _ _ _ _ _ _ _ _ W _ _); [clear W; len_pre | clear W; ser_list]
  | |- Forall (sent (?pre ++ ?x ++ ?post) _) (part _ _ _ ?M) =>
      let W := fresh "W" in eassert (W : wser _ M _) by wfind_ser;
      refine (sent_part _ _ _ _ _ _ _ _ _ (proj2 (W _))); clear W; len_pre
  end.
Definition enc_ok (t : variable_type) : Prop :=
  forall v, Forall (sent (vt_serialize t v) v) (vt_map t) /\ exists h, vt_serialize t v = h ++ vt_tail t v /\ length h = vt_head t.
Lemma enc_laid t : tiles 0 (vt_head t) (vt_map t) -> enc_ok t -> forall v, vt_serialize t v = laid_out (vt_map t) v ++ vt_tail t v.
Proof.
  intros Ti H v. destruct (H v) as [Se [h [E L]]]. rewrite <- (laid_slice (vt_map t) v _ 0 _ Ti Se). rewrite E. f_equal.
  unfold slice. change (skipn 0 ?x) with x. rewrite Nat.sub_0_r, <- L, firstn_app, Nat.sub_diag, firstn_all, firstn_O. symmetry. apply app_nil_r.
Qed.
Ltac enc parts ser :=
  let v := fresh "v" in intros v; cbn [vt_serialize vt_map vt_tail vt_head]; split;
  [ rewrite parts; unfold ser; fx_expose; match goal with |- Forall (sent ?b _) _ => change b with ([] ++ b) end; ser_list
  | unfold ser; rewrite ?each_u8; rewrite ?app_assoc; eexists; split; [reflexivity | fx_expose; len_pre] ].

Lemma SVR_ser l : concat (map StandardVariableRecords_serialize l) = each StandardVariableRecords_serialize l.
Proof. reflexivity. Qed.
Lemma all_enc : Forall enc_ok variable_types.
Proof.
  unfold variable_types, AttributeRecord_vt, AttributeRecordSet_vt, StandardVariableRecords_vt, StandardVariableSpecification_vt,
    ElectromagneticEmissionBeamData_vt, ElectromagneticEmissionSystemData_vt, AcousticEmitterSystemData_vt. repeat apply Forall_cons; [..|apply Forall_nil].
  - enc AttributeRecord_hparts AttributeRecord_serialize.
  - enc AttributeRecordSet_hparts AttributeRecordSet_serialize.
  - enc StandardVariableRecords_hparts StandardVariableRecords_serialize.
  - enc StandardVariableSpecification_hparts StandardVariableSpecification_serialize.
  - enc ElectromagneticEmissionBeamData_hparts ElectromagneticEmissionBeamData_serialize.
  - enc ElectromagneticEmissionSystemData_hparts ElectromagneticEmissionSystemData_serialize.
  - enc AcousticEmitterSystemData_hparts AcousticEmitterSystemData_serialize.
Qed.
Lemma all_heads : Forall (fun t => tiles 0 (vt_head t) (vt_map t)) variable_types.
Proof. unfold variable_types. repeat (apply Forall_cons; [apply tilesb_ok; vm_compute; reflexivity|]). apply Forall_nil. Qed.

(** ** Decoding *)
Definition dec_ok (t : variable_type) : Prop :=
  forall bs v rest, vt_deserialize t bs = Ok (v, rest) ->
  (vt_head t <= length bs)%nat /\ Forall (received bs v) (vt_map t) /\ skipn (vt_head t) bs = vt_tail t v ++ rest /\ vt_counted t v.
Lemma some_inj {A} (x y : A) : Some x = Some y -> x = y.
Proof. now intros [= ->]. Qed.
Ltac dec parts des tail cnt :=
  let bs := fresh "bs" in let v := fresh "v" in let rest := fresh "rest" in let H := fresh "H" in let K := fresh "K" in let C := fresh "C" in
  intros bs v rest H; cbn [vt_deserialize vt_map vt_tail vt_head vt_counted] in *; assert (C := cnt _ _ _ H);
  rewrite parts; unfold des in H; fx_expose_in H; read_inv H; injection H as <- <-;
  match goal with E : repeat_read _ _ ?b = Ok (?l, ?r) |- _ => assert (K := f_equal Some (tail _ _ _ _ E)); clear E end;
  repeat des_rest; rewrite ?skipn_add, ?skipn_length in *; cbn [Nat.add] in *;
  split; [try lia|]; split; [change bs with (skipn 0 bs) in *; des_steps | split; [exact (some_inj _ _ K) | exact C]].
Lemma exact_bytes : forall n, exactly (each be) (repeat_read n get_u8).
Proof. intros n. apply exactly_repeat, (exactly_uint 1). Qed.

Definition head_plain (t : variable_type) : Prop := Forall plain_entry (vt_map t).
Lemma exactly_of t : tiles 0 (vt_head t) (vt_map t) -> enc_ok t -> dec_ok t -> head_plain t -> exactly (vt_serialize t) (vt_deserialize t).
Proof.
  intros Ti En De P bs v rest H. destruct (De _ _ _ H) as [L [R [T _]]]. destruct (plain_bounded _ P) as [Bo Fa].
  rewrite (enc_laid t Ti En v). rewrite (proj2 (received_laid _ v bs 0 _ Ti L Bo Fa R) (plain_intact _ bs P)).
  rewrite <- app_assoc, <- T. unfold slice. change (skipn 0 ?x) with x. rewrite Nat.sub_0_r. symmetry. apply firstn_skipn.
Qed.
Lemma in_enc t : In t variable_types -> tiles 0 (vt_head t) (vt_map t) /\ enc_ok t.
Proof.
  intros I. assert (A := all_heads). assert (B := all_enc). rewrite Forall_forall in A, B. split; [exact (A _ I) | exact (B _ I)].
Qed.
Ltac inv := unfold variable_types; cbn [In]; tauto.
Ltac exact_vt D := apply exactly_of; [apply in_enc; inv | apply in_enc; inv | exact D | unfold head_plain; plains].

Lemma AttributeRecord_dec : dec_ok AttributeRecord_vt.
Proof. unfold AttributeRecord_vt. dec AttributeRecord_hparts AttributeRecord_deserialize exact_bytes AttributeRecord_des_counted. Qed.
Lemma AttributeRecord_exactly : exactly AttributeRecord_serialize AttributeRecord_deserialize.
Proof. change (exactly (vt_serialize AttributeRecord_vt) (vt_deserialize AttributeRecord_vt)). exact_vt AttributeRecord_dec. Qed.
Lemma AttributeRecordSet_dec : dec_ok AttributeRecordSet_vt.
Proof. unfold AttributeRecordSet_vt. dec AttributeRecordSet_hparts AttributeRecordSet_deserialize (exactly_repeat _ _ AttributeRecord_exactly) AttributeRecordSet_des_counted. Qed.
Lemma StandardVariableRecords_dec : dec_ok StandardVariableRecords_vt.
Proof. unfold StandardVariableRecords_vt. dec StandardVariableRecords_hparts StandardVariableRecords_deserialize exact_bytes StandardVariableRecords_des_counted. Qed.
Lemma StandardVariableRecords_exactly : exactly StandardVariableRecords_serialize StandardVariableRecords_deserialize.
Proof. change (exactly (vt_serialize StandardVariableRecords_vt) (vt_deserialize StandardVariableRecords_vt)). exact_vt StandardVariableRecords_dec. Qed.
Lemma StandardVariableSpecification_dec : dec_ok StandardVariableSpecification_vt.
Proof.
  unfold StandardVariableSpecification_vt.
  dec StandardVariableSpecification_hparts StandardVariableSpecification_deserialize (exactly_repeat _ _ StandardVariableRecords_exactly) StandardVariableSpecification_des_counted.
Qed.
Lemma TrackJamTarget_exactly : exactly TrackJamTarget_serialize TrackJamTarget_deserialize.
Proof. apply (wire_exactly _ _ _ _ TrackJamTarget_wire); [apply tilesb_ok; reflexivity | plains]. Qed.
Lemma AcousticBeamData_exactly : exactly AcousticBeamData_serialize AcousticBeamData_deserialize.
Proof. apply (wire_exactly _ _ _ _ AcousticBeamData_wire); [apply tilesb_ok; reflexivity | plains]. Qed.
Lemma EmissionBeamData_dec : dec_ok ElectromagneticEmissionBeamData_vt.
Proof.
  unfold ElectromagneticEmissionBeamData_vt.
  dec ElectromagneticEmissionBeamData_hparts ElectromagneticEmissionBeamData_deserialize (exactly_repeat _ _ TrackJamTarget_exactly) EmissionBeamData_des_counted.
Qed.
Lemma EmissionBeamData_exactly : exactly ElectromagneticEmissionBeamData_serialize ElectromagneticEmissionBeamData_deserialize.
Proof. change (exactly (vt_serialize ElectromagneticEmissionBeamData_vt) (vt_deserialize ElectromagneticEmissionBeamData_vt)). exact_vt EmissionBeamData_dec. Qed.
Lemma EmissionSystemData_dec : dec_ok ElectromagneticEmissionSystemData_vt.
Proof.
  unfold ElectromagneticEmissionSystemData_vt.
  dec ElectromagneticEmissionSystemData_hparts ElectromagneticEmissionSystemData_deserialize (exactly_repeat _ _ EmissionBeamData_exactly) EmissionSystemData_des_counted.
Qed.
Lemma AcousticEmitterSystemData_dec : dec_ok AcousticEmitterSystemData_vt.
Proof.
  unfold AcousticEmitterSystemData_vt.
  dec AcousticEmitterSystemData_hparts AcousticEmitterSystemData_deserialize (exactly_repeat _ _ AcousticBeamData_exactly) AcousticEmitterSystemData_des_counted.
Qed.
Lemma all_dec : Forall dec_ok variable_types.
Proof.
  unfold variable_types. repeat apply Forall_cons; [..|apply Forall_nil];
  [ exact AttributeRecord_dec | exact AttributeRecordSet_dec | exact StandardVariableRecords_dec | exact StandardVariableSpecification_dec
  | exact EmissionBeamData_dec | exact EmissionSystemData_dec | exact AcousticEmitterSystemData_dec ].
Qed.
Lemma all_counted_rt : Forall (fun t => forall v rest, vt_counted t v -> vt_deserialize t (vt_serialize t v ++ rest) = Ok (v, rest)) variable_types.
Proof.
  unfold variable_types. repeat apply Forall_cons; [..|apply Forall_nil];
  [ exact AttributeRecord_rt | exact AttributeRecordSet_rt | exact StandardVariableRecords_rt | exact StandardVariableSpecification_rt
  | exact EmissionBeamData_rt | exact EmissionSystemData_rt | exact AcousticEmitterSystemData_rt ].
Qed.

(** ** The only way to fail is to run out of bytes *)
Definition underflows {T} (r : reader T) : Prop := forall bs p, r bs = Panic p -> p = Underflow.
Lemma underflows_ret {T} (x : T) : underflows (ret x).
Proof. intros bs p. discriminate. Qed.
Lemma underflows_bind {A T} (r : reader A) (k : A -> reader T) : underflows r -> (forall a, underflows (k a)) -> underflows (bind r k).
Proof. intros H K bs p. unfold bind. destruct (r bs) as [[a b]|q] eqn:E; [apply K | intros [= <-]; exact (H _ _ E)]. Qed.
Lemma underflows_exact {T} (r : reader T) n : exact_reader r n -> underflows r.
Proof.
  intros [S E] bs p H. destruct (Nat.ltb_spec (length bs) n) as [L|L]; [rewrite S in H by exact L; now injection H as <-|].
  destruct (E (firstn n bs)) as [v Hv]; [rewrite firstn_length; lia|]. specialize (Hv (skipn n bs)). rewrite firstn_skipn, H in Hv. discriminate.
Qed.
Lemma underflows_repeat {T} (r : reader T) : underflows r -> forall n, underflows (repeat_read n r).
Proof.
  intros H n. induction n as [|n IH]; [apply underflows_ret|]. cbn [repeat_read].
  apply underflows_bind; [exact H|]. intros a. apply underflows_bind; [exact IH|]. intros. apply underflows_ret.
Qed.
Create HintDb uf.
Ltac uf :=
  lazymatch goal with
  | |- underflows (ret _) => apply underflows_ret
  | |- underflows (bind _ _) => apply underflows_bind; [uf | intros ?; uf]
  | |- underflows (repeat_read _ _) => apply underflows_repeat; uf
  | |- underflows (if ?c then _ else _) => destruct c; uf
  | |- _ => first [ solve [eauto with uf nocore] | solve [eapply underflows_exact; fx_exact1] ]
  end.
Lemma underflows_remaining : underflows read_remaining.
Proof. intros bs p. discriminate. Qed.
#[export] Hint Resolve underflows_remaining : uf.
Ltac ufd d := unfold d; fx_expose; uf.
Lemma AttributeRecord_uf : underflows AttributeRecord_deserialize. Proof. ufd AttributeRecord_deserialize. Qed.
#[export] Hint Resolve AttributeRecord_uf : uf.
Lemma AttributeRecordSet_uf : underflows AttributeRecordSet_deserialize. Proof. ufd AttributeRecordSet_deserialize. Qed.
Lemma StandardVariableRecords_uf : underflows StandardVariableRecords_deserialize. Proof. ufd StandardVariableRecords_deserialize. Qed.
#[export] Hint Resolve StandardVariableRecords_uf : uf.
Lemma StandardVariableSpecification_uf : underflows StandardVariableSpecification_deserialize. Proof. ufd StandardVariableSpecification_deserialize. Qed.
Lemma EmissionBeamData_uf : underflows ElectromagneticEmissionBeamData_deserialize. Proof. ufd ElectromagneticEmissionBeamData_deserialize. Qed.
#[export] Hint Resolve EmissionBeamData_uf : uf.
Lemma EmissionSystemData_uf : underflows ElectromagneticEmissionSystemData_deserialize. Proof. ufd ElectromagneticEmissionSystemData_deserialize. Qed.
Lemma AcousticEmitterSystemData_uf : underflows AcousticEmitterSystemData_deserialize. Proof. ufd AcousticEmitterSystemData_deserialize. Qed.
Lemma all_uf : Forall (fun t => underflows (vt_deserialize t)) variable_types.
Proof.
  unfold variable_types. repeat apply Forall_cons; [..|apply Forall_nil];
  [ exact AttributeRecord_uf | exact AttributeRecordSet_uf | exact StandardVariableRecords_uf | exact StandardVariableSpecification_uf
  | exact EmissionBeamData_uf | exact EmissionSystemData_uf | exact AcousticEmitterSystemData_uf ].
Qed.
Lemma GridAxisDescriptor_uf : underflows GridAxisDescriptor_deserialize. Proof. ufd GridAxisDescriptor_deserialize. Qed.
Lemma GridDataRecord_uf : underflows GridDataRecord_deserialize. Proof. ufd GridDataRecord_deserialize. Qed.
Lemma VariableTransmitterParameters_uf : underflows VariableTransmitterParameters_deserialize. Proof. ufd VariableTransmitterParameters_deserialize. Qed.
Lemma VariableDatumRecord_uf : underflows VariableDatumRecord_deserialize. Proof. ufd VariableDatumRecord_deserialize. Qed.

(** ** Grid records *)
Lemma put_be {k} (x : uint k) : put_uint x = be x.
Proof. unfold be. now rewrite big_endian_eq. Qed.
Lemma each_put {k} (l : list (uint k)) : List.concat (map put_uint l) = each be l.
Proof. unfold each. f_equal. apply map_ext. intros x. apply put_be. Qed.
Lemma each_be_bytes (l : bytes) : each be l = l.
Proof. rewrite <- each_put. exact (concat_put_u8 l). Qed.
Lemma enum_be {e} k (x : enum e) : e_bytes e = k -> put_uint (as_uint k (code x)) = big_endian k (code x).
Proof. intros <-. rewrite put_be. unfold be. now rewrite as_uint_val by apply enum_fits. Qed.
Lemma axis_encoding v : GridAxisDescriptor_serialize v = laid_out GridAxisDescriptor_head v ++ axis_data (GridAxisDescriptor_data v).
Proof.
  unfold GridAxisDescriptor_serialize. fx_expose. unfold laid_out, GridAxisDescriptor_head, num, cod. cbn [map en_width en_put List.concat].
  rewrite (enum_be 1) by reflexivity. rewrite !put_be. unfold be at 1 2 3 4. rewrite ?app_nil_r, <- !app_assoc. cbn [app]. do 5 f_equal.
  unfold axis_data. destruct (GridAxisDescriptor_data v) as [n i|n i s o xs p]; [now rewrite !put_be|].
  rewrite !put_be. change (@put_uint 1) with put_u8. rewrite concat_put_u8. rewrite <- (each_put (k := 2) xs). reflexivity.
Qed.
Lemma GridAxis_hparts : GridAxisDescriptor_head =
  part "domain_initial"%string 0 GridAxisDescriptor_domain_initial (uint_map 8) ++
  part "domain_final"%string 8 GridAxisDescriptor_domain_final (uint_map 8) ++
  part "domain_points"%string 16 GridAxisDescriptor_domain_points (uint_map 2) ++
  part "interleaf_factor"%string 18 GridAxisDescriptor_interleaf_factor (uint_map 1) ++
  part "axis_type"%string 19 GridAxisDescriptor_axis_type (enum_map 1 GridAxisDescriptorAxisType_spec).
Proof. reflexivity. Qed.
Lemma axis_code2 (x : enum GridAxisDescriptorAxisType_spec) : code x = 0 \/ code x = 1.
Proof. assert (H := proj1 (memb_In _ _) (code_ok x)). cbn [e_codes GridAxisDescriptorAxisType_spec In] in H. intuition congruence. Qed.
Lemma grid_code (x : enum GriddedDataDataRepresentation_spec) : code x = 0 \/ code x = 1 \/ code x = 2.
Proof. assert (H := proj1 (memb_In _ _) (code_ok x)). cbn [e_codes GriddedDataDataRepresentation_spec In] in H. intuition congruence. Qed.
Ltac ex k := match goal with E : get_uint k _ = Ok _ |- _ => apply exactly_uint in E; rewrite E; clear E end.
Lemma repeat_counts {A} (r : reader A) k (n : uint k) bs l rest : repeat_read (N.to_nat (uval n)) r bs = Ok (l, rest) -> counts n l.
Proof. intros H. apply repeat_read_length in H. unfold counts. rewrite H. lia. Qed.
Lemma axis_data_decoded (x : enum GridAxisDescriptorAxisType_spec) bs d rest :
  (if code x =? 0 then let* n := get_uint 2 in let* i := get_uint 2 in ret (FixedSpacing n i)
   else let* n := get_uint 2 in let* i := get_uint 2 in let* s := get_uint 8 in let* o := get_uint 8 in
        let* xs := repeat_read (N.to_nat (uval n)) (get_uint 2) in let* pad := read_remaining in ret (VariableSpacing n i s o xs pad)) bs = Ok (d, rest) ->
  bs = axis_data d ++ rest /\ axis_kind d = code x /\ axis_data_read d rest.
Proof.
  destruct (axis_code2 x) as [K|K]; rewrite K; cbn [N.eqb]; intros H; read_inv H.
  - injection H as <- <-. cbn [axis_data axis_kind axis_data_read]. apply exactly_uint in E, E0. subst. split; [now rewrite <- app_assoc | split; [reflexivity | exact I]].
  - injection H as <- <-. cbn [axis_data axis_kind axis_data_read].
    match goal with R : read_remaining _ = _ |- _ => injection R as <- <- end.
    match goal with R : repeat_read _ _ _ = _ |- _ => assert (C := repeat_counts _ _ _ _ _ _ R); apply (exactly_repeat _ _ (exactly_uint 2)) in R end.
    repeat match goal with R : get_uint _ _ = Ok _ |- _ => apply exactly_uint in R end. subst.
    split; [|split; [reflexivity | split; [exact C | reflexivity]]]. now rewrite app_nil_r, <- ?app_assoc.
Qed.
Lemma axis_decoding bs v rest : GridAxisDescriptor_deserialize bs = Ok (v, rest) ->
  (20 <= length bs)%nat /\ Forall (received bs v) GridAxisDescriptor_head /\
  skipn 20 bs = axis_data (GridAxisDescriptor_data v) ++ rest /\
  axis_kind (GridAxisDescriptor_data v) = code (GridAxisDescriptor_axis_type v) /\ axis_data_read (GridAxisDescriptor_data v) rest.
Proof.
  intros H. rewrite GridAxis_hparts. unfold GridAxisDescriptor_deserialize in H. fx_expose_in H. read_inv H. injection H as <- <-.
  apply axis_data_decoded in E4. destruct E4 as [K [K1 K2]]. apply (f_equal Some) in K.
  repeat des_rest. change (e_bytes GridAxisDescriptorAxisType_spec) with 1%nat in *. rewrite ?skipn_add, ?skipn_length in *; cbn [Nat.add] in *.
  split; [try lia|]; split; [change bs with (skipn 0 bs) in *; des_steps | split; [exact (some_inj _ _ K) | split; [exact K1 | exact K2]]].
Qed.
Lemma grid_encoding v : GridDataRecord_serialize v =
  big_endian 2 (code (GridDataRecord_sample_type v)) ++ big_endian 2 (code (GridDataRecord_data_representation v)) ++ grid_data (GridDataRecord_data v).
Proof.
  unfold GridDataRecord_serialize. fx_expose. rewrite !put_be. unfold be at 1 2.
  rewrite !as_uint_val by (eapply N.lt_trans; [apply enum_fits | reflexivity]). do 2 f_equal.
  destruct (GridDataRecord_data v) as [n d p|s o n d p|n p d]; cbn [grid_data]; rewrite !put_be; change (@put_uint 1) with put_u8; rewrite ?concat_put_u8; rewrite <- ?(each_put (k := 2) d), <- ?(each_put (k := 4) d); reflexivity.
Qed.
Lemma grid_data_decoded (x : enum GriddedDataDataRepresentation_spec) bs d rest :
  (if code x =? 0 then let* n := get_uint 2 in let* d := repeat_read (N.to_nat (uval n)) (get_uint 1) in let* p := read_remaining in ret (Type0 n d p)
   else if code x =? 1 then let* s := get_uint 4 in let* o := get_uint 4 in let* n := get_uint 2 in
     let* d := repeat_read (N.to_nat (uval n)) (get_uint 2) in let* p := read_remaining in ret (Type1 s o n d p)
   else let* n := get_uint 2 in let* p := get_uint 2 in let* d := repeat_read (N.to_nat (uval n)) (get_uint 4) in ret (Type2 n p d)) bs = Ok (d, rest) ->
  bs = grid_data d ++ rest /\ grid_kind d = code x /\ grid_data_read d rest.
Proof.
  destruct (grid_code x) as [K|[K|K]]; rewrite K; cbn [N.eqb Pos.eqb]; intros H; read_inv H; injection H as <- <-; cbn [grid_data grid_kind grid_data_read];
    try match goal with R : read_remaining _ = _ |- _ => injection R as <- <- end;
    match goal with R : repeat_read _ _ _ = _ |- _ => assert (C := repeat_counts _ _ _ _ _ _ R); apply (exactly_repeat _ _ (exactly_uint _)) in R end;
    repeat match goal with R : get_uint _ _ = Ok _ |- _ => apply exactly_uint in R end; subst; rewrite ?each_be_bytes;
    (split; [now rewrite ?app_nil_r, <- ?app_assoc | split; [reflexivity | first [exact C | split; [exact C | reflexivity]]]]).
Qed.
Lemma enum1_inv e bs (x : enum e) rest : e_bytes e = 1%nat -> enum_deserialize e bs = Ok (x, rest) ->
  rest = skipn 1 bs /\ (1 <= length bs)%nat /\ code x = known e (byte_at bs 0).
Proof.
  intros E H. destruct (proj2 (enum_wire 1 e E) _ _ _ H) as [-> [L F]]. split; [reflexivity|]. split; [exact L|].
  inversion F as [|? ? R _]; subst. unfold received, cod in R. cbn [en_get en_norm en_off en_width] in R. rewrite R. f_equal.
  destruct bs as [|b bs]; [cbn in L; lia|]. unfold slice, byte_at. cbn [skipn firstn nth]. apply number_1.
Qed.
Lemma grid_decoding bs v rest : GridDataRecord_deserialize bs = Ok (v, rest) ->
  (2 <= length bs)%nat /\ code (GridDataRecord_sample_type v) = known GriddedDataSampleType_spec (byte_at bs 0) /\
  code (GridDataRecord_data_representation v) = known GriddedDataDataRepresentation_spec (byte_at bs 1) /\
  skipn 2 bs = grid_data (GridDataRecord_data v) ++ rest /\
  grid_kind (GridDataRecord_data v) = code (GridDataRecord_data_representation v) /\ grid_data_read (GridDataRecord_data v) rest.
Proof.
  intros H. unfold GridDataRecord_deserialize in H. fx_expose_in H. read_inv H. injection H as <- <-.
  apply grid_data_decoded in E1. destruct E1 as [K [K1 K2]].
  apply enum1_inv in E; [|reflexivity]. apply enum1_inv in E0; [|reflexivity]. destruct E as [-> [L A]]. destruct E0 as [-> [L0 A0]].
  destruct bs as [|b0 bs]; [cbn in L; lia|]. destruct bs as [|b1 bs]; [cbn in L0; lia|]. cbn [skipn] in *.
  split; [cbn [length]; lia|]. split; [exact A|]. split; [exact A0|]. split; [exact K|]. split; [exact K1 | exact K2].
Qed.

(** ** VariableTransmitterParameters *)
Lemma vtp_encoding v : VariableTransmitterParameters_serialize v =
  big_endian 4 (code (VariableTransmitterParameters_record_type v)) ++ be (VariableTransmitterParameters_record_length v) ++
  VariableTransmitterParameters_record_specific_fields v.
Proof.
  unfold VariableTransmitterParameters_serialize. rewrite concat_put_u8. fx_expose. rewrite !put_be. unfold be at 1.
  rewrite !as_uint_val by (eapply N.lt_trans; [apply enum_fits | reflexivity]). reflexivity.
Qed.
Lemma vtp_decoding bs v rest : VariableTransmitterParameters_deserialize bs = Ok (v, rest) ->
  (3 <= length bs)%nat /\ code (VariableTransmitterParameters_record_type v) = known VariableParameterRecordType_spec (byte_at bs 0) /\
  skipn 1 bs = be (VariableTransmitterParameters_record_length v) ++ VariableTransmitterParameters_record_specific_fields v ++ rest /\
  counts (VariableTransmitterParameters_record_length v) (VariableTransmitterParameters_record_specific_fields v).
Proof.
  intros H. unfold VariableTransmitterParameters_deserialize in H. fx_expose_in H. read_inv H. injection H as <- <-.
  apply enum1_inv in E; [|reflexivity]. destruct E as [-> [L A]].
  assert (C := repeat_counts _ _ _ _ _ _ E1). apply (exactly_repeat _ _ (exactly_uint 1)) in E1. rewrite each_be_bytes in E1.
  assert (E0' := get_uint_inv _ _ _ _ E0). destruct E0' as [_ [L0 _]]. apply exactly_uint in E0. subst bs1.
  rewrite skipn_length in L0. split; [lia|]. split; [exact A|]. split; [exact E0 | exact C].
Qed.
