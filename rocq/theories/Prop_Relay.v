(** * Relaying: decoding a datagram and serializing the result (C49). Vocabulary in [Spec]. *)
From Verif Require Import Base BaseFacts EnumModel Enums EnumFacts Fixed Header HeaderFacts HeaderProofs PduMacro PduMacroFacts
  DataTypes DataTypesFacts Bitflags BitflagsFacts Pdus PduFields Spec Wire RecordFacts PdusFacts ClassFacts PduProofs
  SpecDatum DatumFacts SpecSpecial SpecialFacts SpecialTransmitter SpecialOthers Prop_Transmitter.

(** What was read can be written again in as many bytes as were consumed, and read back. *)
(** [full = false]: only the size is claimed. *)
Definition stable_rw (full : bool) {T} (r : reader T) (w : T -> writer) (l : T -> N) : Prop := forall bs x s, r bs = Ok (x, s) ->
  exists b, w x = Ok b /\ lenN b = l x /\ length bs = (length b + length s)%nat /\ (full = true -> forall t, r (b ++ t) = Ok (x, t)).
Definition stable_field (full : bool) (f : field) : Prop :=
  forall env, stable_rw full (field_deserialize env f) (c_ser (f_codec f)) (c_len (f_codec f)).

Lemma stable_body full fs : Forall (stable_field full) fs -> forall env, stable_rw full (body_deserialize env fs) (body_serialize fs) (body_len fs).
Proof.
  induction 1 as [|f fs Hf _ IH]; intros env bs v s E.
  - cbn in E. injection E as <- <-. exists []. repeat split.
  - cbn [body_deserialize] in E. apply bind_inv in E as [x [bs1 [E1 E]]]. apply bind_inv in E as [xs [bs2 [E2 E]]].
    injection E as <- <-. destruct (Hf env _ _ _ E1) as [b1 [W1 [L1 [N1 R1]]]].
    destruct (IH _ _ _ _ E2) as [b2 [W2 [L2 [N2 R2]]]].
    exists (b1 ++ b2). cbn [body_serialize body_len fst snd]. rewrite W1, W2. split; [reflexivity|].
    split; [rewrite lenN_app; lia|]. split; [rewrite app_length; lia|].
    intros Fu t. specialize (R1 Fu). specialize (R2 Fu). cbn [body_deserialize]. rewrite <- app_assoc. rewrite (bind_ok _ _ _ _ _ _ _ (R1 _)).
    rewrite (bind_ok _ _ _ _ _ _ _ (R2 _)). reflexivity.
Qed.

(** Fields of fixed size. *)
Lemma exact_inv {A} (r : reader A) n bs x s : exact_reader r n -> r bs = Ok (x, s) -> length bs = (n + length s)%nat.
Proof.
  intros [Sh Ex] E. destruct (Nat.lt_ge_cases (length bs) n) as [L|L]; [rewrite Sh in E by exact L; discriminate|].
  destruct (Ex (firstn n bs)) as [a Ea]; [apply firstn_length_le, L|].
  specialize (Ea (skipn n bs)). rewrite firstn_skipn in Ea. assert (K : s = skipn n bs) by congruence.
  subst s. rewrite skipn_length. lia.
Qed.
Lemma stable_fixed_on full f n nf : f_len_attr f = None -> fixed_codec n nf (f_codec f) ->
  (full = true -> forall bs x s, c_des (f_codec f) bs = Ok (x, s) -> nf x = x) -> stable_field full f.
Proof.
  intros A F Nf env bs x s. unfold field_deserialize. rewrite A. intros E.
  destruct (fc_ser _ _ _ F x) as [b [W [L R]]]. exists b. split; [exact W|].
  split; [rewrite (fc_len _ _ _ F); unfold lenN; now rewrite L|].
  split; [rewrite L; exact (exact_inv _ _ _ _ _ (fc_exact _ _ _ F) E)|].
  intros Fu t. rewrite R, (Nf Fu _ _ _ E). reflexivity.
Qed.
Lemma stable_fixed full f n nf : f_len_attr f = None -> fixed_codec n nf (f_codec f) -> (forall x, nf x = x) -> stable_field full f.
Proof. intros A F Nf. eapply stable_fixed_on; eauto. Qed.
(** Lists and options. *)
Lemma stable_vec full name T (c : codec T) d : stable_field full (plain name (vec_codec c) d).
Proof. intros env bs x s [= <- <-]. exists []. repeat split. Qed.
Lemma stable_option full name T (c : codec T) d : stable_field full (plain name (option_codec c) d).
Proof. intros env bs x s [= <- <-]. exists []. repeat split. Qed.
Lemma stable_simid name d : stable_field false (plain name SimulationIdentifier_codec d).
Proof. eapply stable_fixed_on; [reflexivity | exact SimulationIdentifier_fc | discriminate]. Qed.
(** Flags lose undeclared bits, but only once. *)
Lemma flags_norm_norm k d (v : flags k d) : flags_norm (flags_norm v) = flags_norm v.
Proof.
  destruct (N.eq_dec (N.ldiff (uval (bits v)) d) 0) as [E|E]; [rewrite (flags_norm_id _ _ v E); apply flags_norm_id, E|].
  rewrite (flags_norm_empty _ _ _ E). apply flags_norm_id. unfold flags_empty. cbn [bits]. rewrite as_uint_val by apply pow256_pos. apply N.ldiff_0_l.
Qed.
Lemma stable_frozen full name d : stable_field full (plain name FrozenBehavior_codec d).
Proof.
  eapply stable_fixed_on; [reflexivity | exact FrozenBehavior_fc|].
  intros _ bs x s. cbn [c_des FrozenBehavior_codec f_codec plain]. intros H. read_inv H. injection H as <- _.
  exact (flags_norm_norm _ _ (mk_flags _)).
Qed.
Lemma stable_appearance full name d : stable_field full (plain name ObjectStateAppearanceGeneral_codec d).
Proof.
  eapply stable_fixed_on; [reflexivity | exact ObjectStateAppearanceGeneral_fc|].
  intros _ bs x s. cbn [c_des ObjectStateAppearanceGeneral_codec f_codec plain]. intros H. read_inv H. injection H as <- _.
  exact (flags_norm_norm _ _ (mk_flags _)).
Qed.

(** Variable-length records: here even the bytes are the same. *)
Definition same_rw {T} (r : reader T) (w : T -> writer) (l : T -> N) : Prop := forall bs x s, r bs = Ok (x, s) ->
  exists b, w x = Ok b /\ lenN b = l x /\ bs = b ++ s /\ forall t, r (b ++ t) = Ok (x, t).
Lemma get_uint_inv k bs u s : get_uint k bs = Ok (u, s) -> bs = put_uint u ++ s.
Proof.
  intros E. destruct (Nat.lt_ge_cases (length bs) k) as [L|L]; [rewrite get_uint_short in E by exact L; discriminate|].
  destruct (put_get_uint k bs L) as [u' [E' [P _]]]. rewrite E' in E. injection E as <- <-. rewrite P. symmetry. apply firstn_skipn.
Qed.
Lemma get_u8s_inv n : forall bs l s, repeat_read n get_u8 bs = Ok (l, s) -> bs = l ++ s /\ length l = n.
Proof.
  induction n as [|n IH]; intros bs l s E; cbn [repeat_read] in E.
  - injection E as <- <-. split; reflexivity.
  - read_inv E. injection E as <- <-. apply get_uint_inv in E0. destruct (IH _ _ _ E1) as [-> <-].
    split; [|reflexivity]. rewrite E0. rewrite put_u8_single. reflexivity.
Qed.
Lemma same_repeat T (r : reader T) w l n : same_rw r w l -> forall bs xs s, repeat_read n r bs = Ok (xs, s) ->
  exists b, wconcat (map w xs) = Ok b /\ lenN b = sumN (map l xs) /\ bs = b ++ s /\ forall t, repeat_read n r (b ++ t) = Ok (xs, t).
Proof.
  intros H. induction n as [|n IH]; intros bs xs s E; cbn [repeat_read] in E.
  - injection E as <- <-. exists []. repeat split.
  - read_inv E. injection E as <- <-. destruct (H _ _ _ E0) as [b1 [W1 [L1 [-> R1]]]].
    destruct (IH _ _ _ E1) as [b2 [W2 [L2 [-> R2]]]]. exists (b1 ++ b2). cbn [map wconcat sumN].
    split; [cbn; rewrite W1, W2; reflexivity|]. split; [rewrite lenN_app; lia|]. split; [apply app_assoc|].
    intros t. cbn [repeat_read]. rewrite <- app_assoc, (bind_ok _ _ _ _ _ _ _ (R1 _)), (bind_ok _ _ _ _ _ _ _ (R2 _)). reflexivity.
Qed.
Lemma element_same m : same_rw (RecordSpecificationElement_deserialize m) (RecordSpecificationElement_serialize m) RecordSpecificationElement_field_len.
Proof.
  intros bs x s H. unfold RecordSpecificationElement_deserialize in H. read_inv H. injection H as <- <-.
  apply get_uint_inv in E, E0, E1, E2. unfold rlift in E3. destruct (mul_u16 m x2 x3) as [n|] eqn:M; [|discriminate].
  injection E3 as <- <-. apply get_u8s_inv in E4 as [-> L].
  exists (element_header (mk_RecordSpecificationElement x0 x1 x2 x3 x5) ++ x5).
  split; [|split; [|split]].
  - unfold RecordSpecificationElement_serialize. cbn. rewrite M. unfold put_indexed. rewrite <- L, Nat.leb_refl, firstn_all.
    change (fun x => put_uint x) with put_u8. rewrite concat_put_u8. cbn. unfold element_header. cbn. rewrite ?app_nil_r, <- ?app_assoc. reflexivity.
  - unfold element_header, RecordSpecificationElement_field_len. fx_expose. cbn [RecordSpecificationElement_record_id RecordSpecificationElement_record_set_serial_number RecordSpecificationElement_record_length RecordSpecificationElement_record_count RecordSpecificationElement_record_values]. rewrite vec_u8_len, !lenN_app, !lenN_put. reflexivity.
  - unfold element_header. fx_expose. cbn [RecordSpecificationElement_record_id RecordSpecificationElement_record_set_serial_number RecordSpecificationElement_record_length RecordSpecificationElement_record_count]. subst. rewrite <- ?app_assoc. reflexivity.
  - intros t. unfold RecordSpecificationElement_deserialize, element_header. fx_expose. rewrite <- ?app_assoc. do 4 fx_read1.
    unfold bind at 1. unfold rlift. cbn [RecordSpecificationElement_record_length RecordSpecificationElement_record_count]. rewrite M. unfold bind. rewrite <- L, repeat_get_u8. reflexivity.
Qed.
Lemma stable_specification full m name d : stable_field full (plain name (RecordSpecification_codec m) d).
Proof.
  intros env bs x s H. change (RecordSpecification_deserialize m bs = Ok (x, s)) in H.
  unfold RecordSpecification_deserialize in H. read_inv H. injection H as <- <-. apply get_uint_inv in E.
  destruct (same_repeat _ _ _ _ _ (element_same m) _ _ _ E0) as [b [W [L [-> R]]]].
  exists (put_u32 x0 ++ b). cbn [f_codec plain RecordSpecification_codec c_ser c_len].
  unfold RecordSpecification_serialize, RecordSpecification_field_len. cbn [RecordSpecification_number_of_record_sets RecordSpecification_record_sets].
  rewrite W. split; [reflexivity|]. split; [|split].
  - rewrite lenN_app, L. unfold put_u32. rewrite lenN_put. reflexivity.
  - rewrite E. unfold put_u32. rewrite !app_length. apply Nat.add_assoc.
  - intros _ t. change (RecordSpecification_deserialize m ((put_u32 x0 ++ b) ++ t) = Ok (mk_RecordSpecification x0 x1, t)).
    unfold RecordSpecification_deserialize. fx_expose. rewrite <- app_assoc. fx_read1. unfold bind. rewrite R. reflexivity.
Qed.
Lemma variable_record_same : same_rw StandardVariableRecords_deserialize (fun v => Ok (StandardVariableRecords_serialize v)) StandardVariableRecords_field_len.
Proof.
  intros bs x s H. assert (C := StandardVariableRecords_des_counted _ _ _ H).
  unfold StandardVariableRecords_deserialize in H. read_inv H. injection H as <- <-.
  apply get_uint_inv in E, E0. apply get_u8s_inv in E1 as [-> L].
  eexists. split; [reflexivity|]. split; [apply StandardVariableRecords_len|]. split; [|intros t; apply StandardVariableRecords_rt, C].
  unfold StandardVariableRecords_serialize. cbn [StandardVariableRecords_record_type StandardVariableRecords_record_length StandardVariableRecords_record_specific_fields]. rewrite concat_put_u8. subst. rewrite <- ?app_assoc. reflexivity.
Qed.
Lemma stable_variable_specification full name d : stable_field full (plain name StandardVariableSpecification_codec d).
Proof.
  intros env bs x s H. change (StandardVariableSpecification_deserialize bs = Ok (x, s)) in H.
  assert (C := StandardVariableSpecification_des_counted _ _ _ H).
  unfold StandardVariableSpecification_deserialize in H. read_inv H. injection H as <- <-. apply get_uint_inv in E.
  destruct (same_repeat _ _ _ _ _ variable_record_same _ _ _ E0) as [b [W [L [-> R]]]].
  eexists. cbn [f_codec plain StandardVariableSpecification_codec c_ser c_len]. rewrite StandardVariableSpecification_ser_field.
  split; [reflexivity|]. split; [apply StandardVariableSpecification_len|].
  split; [|intros _ t; exact (StandardVariableSpecification_rt _ t C)].
  assert (W' : List.concat (map StandardVariableRecords_serialize x1) = b).
  { rewrite wconcat_Ok in W. injection W as <-. reflexivity. }
  unfold StandardVariableSpecification_serialize. cbn [StandardVariableSpecification_number_of_standard_variable_records StandardVariableSpecification_standard_variable_records]. rewrite W', E. unfold put_u16. rewrite !app_length. apply Nat.add_assoc.
Qed.
(** The length-annotated field of the transmitter. *)
Lemma stable_modulation full name l d : stable_field full
  (len_field name (option_codec ModulationParameters_codec) d l (option_deserialize_with_len ModulationParameters_deserialize_with_len)).
Proof.
  intros env bs x s. unfold field_deserialize. cbn [f_len_attr len_field].
  destruct (lookup l env) as [n|]; [|discriminate]. intros E.
  assert (K : (n = 0 /\ x = None /\ s = bs) \/ (0 < n < 256 /\ x = Some (mk_ModulationParameters (firstn (N.to_nat n) bs)) /\ s = skipn (N.to_nat n) bs /\ (N.to_nat n <= length bs)%nat)).
  { destruct (N.eq_dec n 0) as [->|Z]; [left; injection E as <- <-; auto|]. right.
    destruct (N.ltb_spec n 256) as [L|L].
    - destruct (Nat.lt_ge_cases (length bs) (N.to_nat n)) as [K|K]; [rewrite mod_params_short in E by assumption; discriminate|].
      rewrite mod_params_des in E by (assumption || lia). injection E as <- <-. repeat split; lia || assumption || reflexivity.
    - exfalso. unfold option_deserialize_with_len, ModulationParameters_deserialize_with_len, try_uint in E. change (256 ^ N.of_nat 1) with 256 in E.
      apply N.eqb_neq in Z. rewrite Z in E. apply N.ltb_ge in L. rewrite L in E. discriminate. }
  destruct K as [[-> [-> ->]]|[Z [-> [-> L]]]].
  - exists []. repeat split.
  - exists (firstn (N.to_nat n) bs). cbn [f_codec len_field option_codec c_ser c_len ModulationParameters_codec].
    assert (Ln : length (firstn (N.to_nat n) bs) = N.to_nat n) by apply firstn_length_le, L.
    split; [unfold ModulationParameters_serialize; cbn; now rewrite concat_put_u8|].
    split; [unfold ModulationParameters_field_len; cbn [ModulationParameters_record_specific_fields]; now rewrite vec_u8_len|].
    split; [rewrite skipn_length; lia|]. intros _ t.
    rewrite mod_params_des; [|assumption|rewrite app_length; lia]. rewrite firstn_app, skipn_app, Ln, Nat.sub_diag, firstn_all2, skipn_all2 by lia.
    cbn [firstn skipn app]. rewrite app_nil_r. reflexivity.
Qed.

(** ** All classes *)
Ltac stab := cbv beta; lazymatch goal with
  | |- stable_field _ (plain _ (vec_codec _) _) => apply stable_vec
  | |- stable_field _ (plain _ (option_codec _) _) => apply stable_option
  | |- stable_field _ (plain _ (RecordSpecification_codec _) _) => apply stable_specification
  | |- stable_field _ (plain _ StandardVariableSpecification_codec _) => apply stable_variable_specification
  | |- stable_field _ (plain _ FrozenBehavior_codec _) => apply stable_frozen
  | |- stable_field _ (plain _ ObjectStateAppearanceGeneral_codec _) => apply stable_appearance
  | |- stable_field false (plain _ SimulationIdentifier_codec _) => apply stable_simid
  | |- stable_field _ (len_field _ _ _ _ _) => apply stable_modulation
  | |- _ => eapply stable_fixed; [reflexivity | cdx | intros; reflexivity]
  end.
Ltac stabs := repeat (apply Forall_cons; [stab|]); apply Forall_nil.

Definition reference_pdus : list string :=
  ["TransferOwnershipPdu"; "InformationOperationsActionPdu"; "InformationOperationsReportPdu"]%string.
Definition keeps_references (c : pdu_class) : bool := negb (mem_string (cls_name c) reference_pdus).
Lemma all_stable m c : In c (all_pdus m) -> cls_name c <> "EntityStatePdu"%string -> Forall (stable_field (keeps_references c)) (cls_fields c).
Proof.
  revert c. by_class.
  all_classes ltac:(intros E; match goal with |- Forall (stable_field (keeps_references ?c)) _ =>
     let b := eval vm_compute in (keeps_references c) in change (keeps_references c) with b end;
     first [exfalso; apply E; reflexivity | clear E; cbn [cls_fields]; stabs]).
Qed.

(** The stored length of decoded modulation parameters is the one [serialize] computes. *)
Lemma tx_prep_same (v : values (cls_fields TransmitterPdu)) h :
  TransmitterPdu_modulation_parameter_length (mk_pdu h v) =
    len_byte (c_len (option_codec ModulationParameters_codec) (TransmitterPdu_modulation_parameters (mk_pdu h v))) ->
  prep_body (cls_fields TransmitterPdu) v = v.
Proof.
  intros E. change (prep_body (cls_fields TransmitterPdu) v) with
    (assign_u8 "modulation_parameter_length" (len_byte (c_len (option_codec ModulationParameters_codec) (TransmitterPdu_modulation_parameters (mk_pdu h v)))) (cls_fields TransmitterPdu) v).
  rewrite <- E. do 22 (let a := fresh "a" in destruct v as [a v]). reflexivity.
Qed.
Lemma deserialize_ok_inv c bs p rest : deserialize c bs = Ok (ROk p, rest) ->
  exists bs1, PduHeader_deserialize bs = Ok (header p, bs1) /\ length bs = (12 + length bs1)%nat /\ pdu_type (header p) = cls_type c /\
    wire_type bs = code (cls_type c) /\ body_deserialize [] (cls_fields c) bs1 = Ok (body p, rest).
Proof.
  intros D. assert (L : (12 <= length bs)%nat).
  { destruct (Nat.lt_ge_cases (length bs) 12); [rewrite deserialize_short in D by assumption; discriminate | assumption]. }
  destruct (deserialize_cases c bs L) as [h [H1 [H2 H3]]]. rewrite H3 in D.
  destruct (N.eqb_spec (wire_type bs) (code (cls_type c))) as [K|]; [|discriminate].
  unfold deserialize_without_header in D. destruct (body_deserialize _ _ _) as [[b r]|] eqn:E; [|discriminate].
  injection D as <- <-. exists (skipn 12 bs). cbn [header body]. repeat split; try assumption.
  - rewrite skipn_length. lia.
  - apply enum_eq. congruence.
Qed.
Lemma transmitter_class m : forall c, In c (all_pdus m) -> cls_name c = "TransmitterPdu"%string -> c = TransmitterPdu.
Proof. by_class. all_classes ltac:(intros E; vm_compute in E; first [discriminate E | reflexivity]). Qed.
Lemma decoded_prep m c : In c (all_pdus m) -> forall bs p rest, deserialize c bs = Ok (ROk p, rest) ->
  prep_body (cls_fields c) (body p) = body p.
Proof.
  intros I bs p rest D. assert (P := all_prep_ok m c I).
  destruct (String.eqb_spec (cls_name c) "TransmitterPdu") as [E|E].
  2:{ apply (prep_default _ P). unfold auto_len_fields. apply String.eqb_neq in E. now rewrite E. }
  apply (transmitter_class m c I) in E. subst c.
  destruct (deserialize_ok_inv _ _ _ _ D) as [_ [_ [_ [_ [T _]]]]].
  destruct (C29_transmitter_decode bs T) as [H1 H2]. set (n := N.to_nat (byte_at bs 100)) in *. cbv zeta in H1, H2.
  destruct (Nat.lt_ge_cases (length bs) (104 + n)) as [K|K]; [rewrite (H1 K) in D; discriminate|].
  destruct (H2 K) as [q [D' [U [N0 [N1 _]]]]]. rewrite D' in D. injection D as -> _.
  destruct p as [h v]. apply (tx_prep_same v h). apply uint_eq. rewrite U, len_byte_val.
  assert (B : byte_at bs 100 < 256) by apply uint_lt.
  rewrite mod_len. destruct (Nat.eq_dec n 0) as [Z|Z].
  - rewrite (N0 Z). transitivity 0; [unfold n in Z; lia | reflexivity].
  - rewrite (N1 Z). cbn [mod_bytes ModulationParameters_record_specific_fields]. unfold lenN. rewrite firstn_length_le by (rewrite skipn_length; lia).
    unfold n. rewrite N2Nat.id. apply N.ltb_lt in B. rewrite B. reflexivity.
Qed.

(** ** C49: a decoded PDU can be sent on.
    For every class but EntityState, a PDU obtained by decoding any bytes serializes to
    exactly as many bytes as were consumed (unless that is more than 65535), its fields are
    untouched and its header is stamped with that size. *)
Theorem C49_relay_size : forall m c bs p rest buf, In c (all_pdus m) -> cls_name c <> "EntityStatePdu"%string ->
  deserialize c bs = Ok (ROk p, rest) ->
  (lenN bs - lenN rest <= 65535 ->
   exists p' out, serialize c p buf = Ok (ROk tt, p', buf ++ out) /\ lenN bs = lenN out + lenN rest /\
     body p' = body p /\ stamped (pdu_type (header p)) (cls_family c) (as_u16 (lenN out)) (header p) (header p')) /\
  (65535 < lenN bs - lenN rest ->
   exists p', serialize c p buf = Ok (RErr (PduSizeExceeded (lenN bs - lenN rest) 8192), p', buf) /\ body p' = body p).
Proof.
  intros m c bs p rest buf I N D. destruct (deserialize_ok_inv _ _ _ _ D) as [bs1 [H1 [L1 [T [_ E]]]]].
  destruct (stable_body _ _ (all_stable m c I N) [] _ _ _ E) as [b [W [L [Lb _]]]].
  assert (Pr := decoded_prep m c I _ _ _ D).
  assert (Sz : declared_size p = lenN bs - lenN rest) by (unfold declared_size, lenN in *; rewrite <- L; lia).
  destruct (serialize_cases c p buf (all_prep_ok m c I)) as [[G [p' [Es [_ Eb]]]]|[G [h' [St Es]]]].
  - rewrite Sz in G, Es. split; [lia|]. intros _. exists p'. split; [exact Es | congruence].
  - rewrite Sz in G. split; [intros _|lia]. rewrite Pr, W in Es.
    exists (mk_pdu h' (body p)), (PduHeader_serialize h' ++ b). split; [exact Es|].
    assert (Lo : lenN (PduHeader_serialize h' ++ b) = lenN bs - lenN rest).
    { unfold lenN in *. rewrite app_length, header_ser_length. lia. }
    split; [rewrite Lo; unfold lenN; lia|]. split; [reflexivity|]. rewrite Lo, <- Sz, T. exact St.
Qed.

(** And decoding what was sent gives the very PDU that was sent, reading all of it: for every
    class but EntityState and the three classes with a simulation identifier. *)
Theorem C49_relay_faithful : forall m c bs p rest buf p' out, In c (all_pdus m) ->
  ~ In (cls_name c) ["EntityStatePdu"; "TransferOwnershipPdu"; "InformationOperationsActionPdu"; "InformationOperationsReportPdu"]%string ->
  deserialize c bs = Ok (ROk p, rest) -> serialize c p buf = Ok (ROk tt, p', buf ++ out) ->
  forall rest', deserialize c (out ++ rest') = Ok (ROk p', rest').
Proof.
  intros m c bs p rest buf p' out I N D S rest'. destruct (deserialize_ok_inv _ _ _ _ D) as [bs1 [H1 [L1 [T [_ E]]]]].
  assert (N' : cls_name c <> "EntityStatePdu"%string) by (intros K; apply N; left; symmetry; exact K).
  assert (Kr : keeps_references c = true).
  { unfold keeps_references. destruct (mem_string (cls_name c) reference_pdus) eqn:M; [|reflexivity].
    exfalso. apply N. right. apply mem_string_In, M. }
  destruct (stable_body _ _ (all_stable m c I N') [] _ _ _ E) as [b [W [L [Lb R]]]]. specialize (R Kr).
  destruct (serialize_spec m c I _ _ _ _ S) as [fl [Eo [St [_ [_ [Eb Wb]]]]]]. apply app_inv_head in Eo. subst out.
  rewrite (decoded_prep m c I _ _ _ D) in Eb. rewrite Eb in Wb. assert (fl = b) by congruence. subst fl.
  rewrite <- app_assoc, deserialize_ok by apply St. rewrite R, <- Eb. destruct p'; reflexivity.
Qed.
(** Hence a second relay changes nothing any more, header included. *)
Theorem C49_relay_fixpoint : forall m c bs p rest buf p' out, In c (all_pdus m) ->
  ~ In (cls_name c) ["EntityStatePdu"; "TransferOwnershipPdu"; "InformationOperationsActionPdu"; "InformationOperationsReportPdu"]%string ->
  deserialize c bs = Ok (ROk p, rest) -> serialize c p buf = Ok (ROk tt, p', buf ++ out) ->
  forall rest' buf2, exists q, deserialize c (out ++ rest') = Ok (ROk q, rest') /\ serialize c q buf2 = Ok (ROk tt, q, buf2 ++ out).
Proof.
  intros m c bs p rest buf p' out I N D S rest' buf2. exists p'.
  split; [exact (C49_relay_faithful m c bs p rest buf p' out I N D S rest') | exact (serialize_idem m c I _ _ _ _ _ S)].
Qed.

(** A datagram of type 1 is altered by being relayed: an entity's marking grows digits. *)
Theorem C49_entity_state_refuted : exists bs p p' out q,
  deserialize EntityStatePdu bs = Ok (ROk p, []) /\ serialize EntityStatePdu p [] = Ok (ROk tt, p', out) /\
  lenN bs = 133 /\ lenN out = 134 /\ uval (header_length (header p')) = 144 /\
  deserialize EntityStatePdu out = Ok (ROk q, [B 0]) /\
  map uval (EntityMarking_entity_marking_string (EntityStatePdu_entity_marking p)) = [52] /\
  map uval (EntityMarking_entity_marking_string (EntityStatePdu_entity_marking q)) = [53].
Proof.
  exists (map B ([7; 1; 1; 1] ++ repeat 0 129)).
  assert (C : match deserialize EntityStatePdu (map B ([7; 1; 1; 1] ++ repeat 0 129)) with
    | Ok (ROk p, rest) => match serialize EntityStatePdu p [] with
        | Ok (ROk _, p', out) => match deserialize EntityStatePdu out with
            | Ok (ROk q, rest') => (map uval rest, map uval rest', (lenN out, uval (header_length (header p'))),
                map uval (EntityMarking_entity_marking_string (EntityStatePdu_entity_marking p)),
                map uval (EntityMarking_entity_marking_string (EntityStatePdu_entity_marking q)))
            | _ => ([1], [], (0, 0), [], []) end
        | _ => ([2], [], (0, 0), [], []) end
    | _ => ([3], [], (0, 0), [], []) end = ([], [0], (134, 144), [52], [53])) by (vm_compute; reflexivity).
  destruct (deserialize EntityStatePdu (map B _)) as [[[p|] rest]|]; [|discriminate C..].
  destruct (serialize EntityStatePdu p []) as [[[[[]|] p'] out]|] eqn:S; [|discriminate C..].
  destruct (deserialize EntityStatePdu out) as [[[q|] rest']|] eqn:Q; [|discriminate C..].
  injection C as C1 C2 C3 C4 C5 C6. exists p, p', out, q.
  destruct rest; [|discriminate C1]. destruct rest' as [|x [|y r]]; [discriminate C2| |discriminate C2].
  assert (x = B 0) by (apply uint_eq; injection C2 as ->; reflexivity). subst x.
  repeat split; try assumption.
Qed.
(** The reference number of a simulation identifier is lost. *)
Theorem C49_reference_refuted : forall m, exists bs p p' out q,
  deserialize (TransferOwnershipPdu m) bs = Ok (ROk p, []) /\ serialize (TransferOwnershipPdu m) p [] = Ok (ROk tt, p', out) /\
  deserialize (TransferOwnershipPdu m) out = Ok (ROk q, []) /\
  uval (SimulationIdentifier_reference_number (TransferOwnershipPdu_originating_id p)) = 5 /\
  uval (SimulationIdentifier_reference_number (TransferOwnershipPdu_originating_id q)) = 0.
Proof.
  intros m. pose (bs := map B ([7; 1; 35; 7] ++ repeat 0 13 ++ [5] ++ repeat 0 22)).
  assert (C : match deserialize (TransferOwnershipPdu m) bs with
    | Ok (ROk p, rest) => match serialize (TransferOwnershipPdu m) p [] with
        | Ok (ROk _, p', out) => match deserialize (TransferOwnershipPdu m) out with
            | Ok (ROk q, rest') => (lenN rest, lenN rest',
                uval (SimulationIdentifier_reference_number (TransferOwnershipPdu_originating_id p)),
                uval (SimulationIdentifier_reference_number (TransferOwnershipPdu_originating_id q)))
            | _ => (1, 0, 0, 0) end
        | _ => (2, 0, 0, 0) end
    | _ => (3, 0, 0, 0) end = (0, 0, 5, 0)) by (destruct m; vm_compute; reflexivity).
  exists bs. destruct (deserialize (TransferOwnershipPdu m) bs) as [[[p|] rest]|]; [|discriminate C..].
  destruct (serialize (TransferOwnershipPdu m) p []) as [[[[[]|] p'] out]|] eqn:S; [|discriminate C..].
  destruct (deserialize (TransferOwnershipPdu m) out) as [[[q|] rest']|] eqn:Q; [|discriminate C..].
  injection C as C1 C2 C3 C4. exists p, p', out, q.
  destruct rest; [|discriminate C1]. destruct rest'; [|discriminate C2]. repeat split; assumption.
Qed.
(** A transmitter datagram with three modulation parameter bytes and two bytes of garbage. *)
Definition relay_datagram : bytes := map B ([9; 1; 25; 4] ++ repeat 200 96 ++ [3; 0; 0; 0; 11; 12; 13; 99; 98]).
Example C49_example : exists p, deserialize TransmitterPdu relay_datagram = Ok (ROk p, map B [99; 98]) /\
  TransmitterPdu_modulation_parameters p = Some (mk_ModulationParameters (map B [11; 12; 13])) /\ code (protocol_version (header p)) = 7.
Proof.
  destruct (C29_transmitter_decode relay_datagram eq_refl) as [_ H].
  destruct H as [p [D [_ [_ [M _]]]]]; [vm_compute; lia|].
  exists p. split; [exact D|]. split; [apply M; vm_compute; discriminate|].
  destruct (deserialize_ok_inv _ _ _ _ D) as [bs1 [Hd _]].
  destruct (header_decode relay_datagram ltac:(vm_compute; lia)) as [h [Hd' [V _]]]. rewrite Hd' in Hd. injection Hd as -> _. exact V.
Qed.

(** What the theorems above rest on (one traversal for all of them; not part of the model). *)
Definition Prop_Relay_theorems : True :=
  let _ := @C49_relay_size in
  let _ := @C49_relay_faithful in
  let _ := @C49_relay_fixpoint in
  let _ := @C49_entity_state_refuted in
  let _ := @C49_reference_refuted in
  I.
Print Assumptions Prop_Relay_theorems.
