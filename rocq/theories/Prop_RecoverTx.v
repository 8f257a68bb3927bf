(** * The antenna pattern and the variable transmitter parameters of a received transmitter
    datagram can be recovered by the caller: C74 (continued). *)
From Verif Require Import Base BaseFacts EnumModel Enums EnumFacts Fixed Header PduMacro PduMacroFacts DataTypes DataTypesFacts Bitflags Pdus PduFields
  Spec ClassFacts PduProofs Wire WireMaps WireProofs SpecFaults SpecDatum DatumFacts RecordFacts SpecLayout LayoutFacts Prop_Pdu Prop_Records Prop_Layout SpecSpecial Prop_Specs Prop_Special SpecFresh Prop_Fresh Prop_Transmitter SpecRecover Prop_Recover.

(** A variable transmitter parameter record carries its type in four bytes, of which the
    crate's own [deserialize] reads one (C31). The caller drops three bytes first. *)
Definition mended_transmitter_parameters : reader VariableTransmitterParameters :=
  fun bs => VariableTransmitterParameters_deserialize (skipn 3 bs).
(** The record length of the record counts its record specific bytes. *)
Definition parameters_counted (v : VariableTransmitterParameters) : Prop :=
  uval (VariableTransmitterParameters_record_length v) = N.of_nat (length (VariableTransmitterParameters_record_specific_fields v)).

Lemma elem_transmitter_parameters : elem_rt parameters_counted VariableTransmitterParameters_serialize mended_transmitter_parameters.
Proof.
  intros v rest G. unfold mended_transmitter_parameters.
  set (c := code (VariableTransmitterParameters_record_type v)).
  assert (SE : VariableTransmitterParameters_serialize v = (B 0 :: put_u16 (as_u16 0)) ++ put_uint (as_u8 c) ++
    put_u16 (VariableTransmitterParameters_record_length v) ++ VariableTransmitterParameters_record_specific_fields v).
  { unfold VariableTransmitterParameters_serialize. rewrite concat_put_u8. fold c.
    assert (F : put_u32 (as_u32 c) = (B 0 :: put_u16 (as_u16 0)) ++ put_uint (as_u8 c)).
    { assert (A := proj1 (memb_In _ _) (code_ok (VariableTransmitterParameters_record_type v))). fold c in A.
      cbn [e_codes VariableParameterRecordType_spec In] in A.
      clear - A. decompose [or] A; try contradiction; match goal with H : _ = c |- _ => rewrite <- H end; (apply (f_equal (fun l => l)));
        repeat (apply f_equal2; [apply uint_eq; reflexivity|]); reflexivity. }
    rewrite F, <- !app_assoc. reflexivity. }
  rewrite SE. rewrite <- !app_assoc. change (skipn 3 ((B 0 :: put_u16 (as_u16 0)) ++ ?x)) with x.
  unfold VariableTransmitterParameters_deserialize.
  assert (R := enum_rt_gen VariableParameterRecordType_spec (VariableTransmitterParameters_record_type v)
    (put_u16 (VariableTransmitterParameters_record_length v) ++ VariableTransmitterParameters_record_specific_fields v ++ rest)).
  refine (eq_trans (bind_ok _ _ _ _ _ _ _ R) _). cbv beta.
  refine (eq_trans (bind_ok _ _ _ _ _ _ _ (get_put_uint 2 _ _)) _). cbv beta.
  refine (eq_trans (bind_ok _ _ _ _ _ _ _ (_ : _ = Ok (VariableTransmitterParameters_record_specific_fields v, rest))) _).
  - unfold parameters_counted in G. rewrite G, Nat2N.id. apply repeat_get_u8.
  - destruct v. reflexivity.
Qed.

Lemma modulation_bytes_maybe p : maybe ModulationParameters_serialize (TransmitterPdu_modulation_parameters p) = modulation_bytes p.
Proof. unfold maybe, modulation_bytes. destruct (TransmitterPdu_modulation_parameters p); [|reflexivity]. apply concat_put_u8. Qed.

(** If the modulation parameters have at most 255 bytes and the antenna pattern length field is
    right, then [deserialize] followed by the crate's reader of antenna patterns, with the
    decoded length, and by as many variable transmitter parameter records as announced gives
    back everything, and stops at the end of the datagram. *)
Theorem C74_transmitter : forall p buf p' out rest,
  serialize TransmitterPdu p buf = Ok (ROk tt, p', buf ++ out) ->
  (length (modulation_bytes p) <= 255)%nat ->
  match TransmitterPdu_antenna_pattern p with
  | Some a => uval (TransmitterPdu_antenna_pattern_length p) = N.of_nat (length (AntennaPattern_record_specific_fields a)) /\
              AntennaPattern_record_specific_fields a <> []
  | None => uval (TransmitterPdu_antenna_pattern_length p) = 0
  end ->
  uval (TransmitterPdu_number_of_variable_transmitter_parameters_records p) = N.of_nat (length (TransmitterPdu_variable_transmitter_parameters p)) ->
  Forall parameters_counted (TransmitterPdu_variable_transmitter_parameters p) ->
  exists q left more, deserialize TransmitterPdu (out ++ rest) = Ok (ROk q, left) /\
    AntennaPattern_deserialize (TransmitterPdu_antenna_pattern_length q) left = Ok (TransmitterPdu_antenna_pattern p, more) /\
    repeat_read (N.to_nat (uval (TransmitterPdu_number_of_variable_transmitter_parameters_records q))) mended_transmitter_parameters more =
      Ok (TransmitterPdu_variable_transmitter_parameters p, rest).
Proof.
  intros p buf p' out rest S Nm Na Nv G. destruct (C29_transmitter_roundtrip p buf p' out rest S) as [q [D [[_ K] _]]].
  destruct (tail_of (mk_pdu_layout TransmitterPdu TransmitterPdu_map 104 TransmitterPdu_tail) p buf p' out (nth_error_In (layouts Checked) 26 eq_refl) S) as [T L].
  cbn [pl_end pl_tail] in T, L. rewrite (proj2 (Nat.leb_le _ _) Nm) in D.
  set (n := length (modulation_bytes p)) in *.
  assert (X : skipn (104 + n) (out ++ rest) = maybe AntennaPattern_serialize (TransmitterPdu_antenna_pattern p) ++
     each VariableTransmitterParameters_serialize (TransmitterPdu_variable_transmitter_parameters p) ++ rest).
  { replace (104 + n)%nat with (n + 104)%nat by lia. rewrite <- PduProofs.skipn_add. rewrite skipn_app, T.
    replace (104 - length out)%nat with 0%nat by lia. unfold TransmitterPdu_tail. rewrite modulation_bytes_maybe, <- !app_assoc.
    cbn [skipn]. rewrite skipn_app. fold n. rewrite Nat.sub_diag. unfold n. rewrite skipn_all. reflexivity. }
  destruct (serialize_spec Checked TransmitterPdu ltac:(apply (nth_error_In _ 26); reflexivity) _ _ _ _ S) as [_ [_ [_ [_ [_ [Eb _]]]]]].
  assert (W : forall (f : values (cls_fields TransmitterPdu) -> N), (forall b, f (reset_fields ["modulation_parameters"; "antenna_pattern"; "variable_transmitter_parameters"]%string (cls_fields TransmitterPdu) b) = f b) ->
    (forall b, f (prep_body (cls_fields TransmitterPdu) b) = f b) -> f (body q) = f (body p)).
  { intros f R1 R2. apply (f_equal f) in K. rewrite !R1 in K. rewrite K, Eb. apply R2. }
  assert (Q1 : uval (TransmitterPdu_antenna_pattern_length q) = uval (TransmitterPdu_antenna_pattern_length p))
    by exact (W (fun b => uval (TransmitterPdu_antenna_pattern_length (mk_pdu (c := TransmitterPdu) (header q) b))) (fun _ => eq_refl) (fun _ => eq_refl)).
  assert (Q2 : uval (TransmitterPdu_number_of_variable_transmitter_parameters_records q) = uval (TransmitterPdu_number_of_variable_transmitter_parameters_records p))
    by exact (W (fun b => uval (TransmitterPdu_number_of_variable_transmitter_parameters_records (mk_pdu (c := TransmitterPdu) (header q) b))) (fun _ => eq_refl) (fun _ => eq_refl)).
  exists q, (skipn (104 + n) (out ++ rest)), (each VariableTransmitterParameters_serialize (TransmitterPdu_variable_transmitter_parameters p) ++ rest).
  split; [exact D|]. split.
  - rewrite X. set (m := each _ _ ++ rest). apply uint_eq in Q1. rewrite Q1. unfold AntennaPattern_deserialize, maybe.
    destruct (TransmitterPdu_antenna_pattern p) as [[a]|].
    + cbn [AntennaPattern_record_specific_fields] in Na. destruct Na as [Na Ne]. rewrite Na.
      destruct (N.eqb_spec (N.of_nat (length a)) 0) as [Z|_]; [destruct a; [congruence|discriminate Z]|].
      rewrite Nat2N.id. unfold AntennaPattern_serialize. rewrite concat_put_u8. cbn [AntennaPattern_record_specific_fields].
      unfold bind. rewrite repeat_get_u8. reflexivity.
    + rewrite Na. reflexivity.
  - rewrite Q2, Nv, Nat2N.id. unfold each. apply (repeat_read_concat_P _ parameters_counted); [|exact G].
    intros x r Gx. apply elem_transmitter_parameters, Gx.
Qed.

(** A transmitter with two modulation bytes, an antenna pattern of three bytes and one variable
    transmitter parameter record meets the hypotheses. *)
Definition transmitter_example : pdu TransmitterPdu :=
  mk_pdu (c := TransmitterPdu) (header (pdu_default TransmitterPdu (as_u32 0)))
    (EntityId_default, (as_uint 2 0, (RadioEntityType_default, (enum_default TransmitterTransmitState_spec, (enum_default TransmitterInputSource_spec,
     (as_uint 2 1, (WorldCoordinate_default, (EntityCoordinateVector_default, (enum_default TransmitterAntennaPatternType_spec, (as_uint 2 3,
     (as_uint 8 0, (as_uint 4 0, (as_uint 4 0, (ModulationType_default, (enum_default TransmitterCryptoSystem_spec, (as_uint 2 0,
     (as_uint 1 0, (as_uint 1 0, (as_uint 2 0, (Some (mk_ModulationParameters [B 1; B 2]), (Some (mk_AntennaPattern [B 3; B 4; B 5]),
     ([mk_VariableTransmitterParameters (variant VariableParameterRecordType_spec 3 eq_refl) (as_u16 2) [B 10; B 20]], tt)))))))))))))))))))))).
Example C74_transmitter_example :
  match serialize TransmitterPdu transmitter_example [] with
  | Ok (ROk tt, _, out) =>
      match deserialize TransmitterPdu (out ++ [B 77]) with
      | Ok (ROk q, more) => Some (uval (TransmitterPdu_antenna_pattern_length q),
          uval (TransmitterPdu_number_of_variable_transmitter_parameters_records q), map (@uval 1) more)
      | _ => None
      end
  | _ => None
  end = Some (3, 1, [3; 4; 5; 0; 0; 0; 3; 0; 2; 10; 20; 77]).
Proof. vm_compute. reflexivity. Qed.
Example C74_transmitter_hypotheses :
  (length (modulation_bytes transmitter_example) <= 255)%nat /\
  match TransmitterPdu_antenna_pattern transmitter_example with
  | Some a => uval (TransmitterPdu_antenna_pattern_length transmitter_example) = N.of_nat (length (AntennaPattern_record_specific_fields a)) /\
              AntennaPattern_record_specific_fields a <> []
  | None => False
  end /\
  Forall parameters_counted (TransmitterPdu_variable_transmitter_parameters transmitter_example).
Proof. split; [cbn; lia|]. split; [split; [reflexivity | discriminate]|]. repeat constructor. Qed.

(** What the theorems above rest on (one traversal for all of them; not part of the model). *)
Definition Prop_RecoverTx_theorems : True :=
  let _ := @C74_transmitter in
  I.
Print Assumptions Prop_RecoverTx_theorems.
