(** * Several PDUs in one buffer (C79). Vocabulary in [SpecBundle]. *)
From Verif Require Import Base BaseFacts EnumModel Enums EnumFacts Fixed Header HeaderFacts HeaderProofs PduMacro PduMacroFacts
  DataTypes DataTypesFacts Bitflags Pdus PduFields PdusFacts ClassFacts RecordFacts PduProofs Spec SpecDatum SpecSpecial Wire WireMaps WireFacts WireProofs WireClass
  SpecHistory SpecLayout Buf
  Prop_Header Prop_Pdu Prop_Specs Prop_Special Prop_Aggregate Prop_Transmitter Prop_Needed Prop_Wire SpecFaults Prop_Faults Prop_Local Prop_Macro Prop_Numbers SpecExercise
  Prop_History Prop_Layout Prop_Relay Prop_Exercise Prop_Buf SpecBundle.

(** ** The receiver in sequence *)
Lemma flat_suffix A (r : reader A) : is_buf_program r -> forall bs a rest, r bs = Ok (a, rest) -> (length rest <= length bs)%nat.
Proof.
  intros [P HP] bs a rest E. specialize (HP flat_buffer C72_flat_lawful bs). cbn [content flat_buffer] in HP. rewrite E in HP.
  destruct (run flat_buffer P bs) as [[a' rest']|e] eqn:R; [|contradiction].
  destruct HP as [_ K]. cbn [content flat_buffer] in K. subst rest'. exact (run_flat_suffix _ P bs _ _ R).
Qed.
Lemma progress m c bs r rest : In c (all_pdus m) -> deserialize c bs = Ok (r, rest) -> (12 + length rest <= length bs)%nat.
Proof.
  intros I D. destruct (Nat.lt_ge_cases (length bs) 12) as [L|L]; [rewrite (deserialize_short _ _ L) in D; discriminate|].
  destruct (deserialize_cases c bs L) as [h [_ [_ E]]]. rewrite E in D.
  assert (K : length (skipn 12 bs) = (length bs - 12)%nat) by apply skipn_length.
  destruct (wire_type bs =? code (cls_type c)).
  - assert (S : (length rest <= length (skipn 12 bs))%nat) by exact (flat_suffix _ _ (proj2 (C72_any_buffer m c I) h) _ _ _ D). lia.
  - assert (D2 : rest = skipn 12 bs) by (apply (f_equal (fun x => match x with Ok (_, y) => y | Panic _ => [] end)) in D; symmetry; exact D).
    rewrite D2, K. lia.
Qed.
Lemma rounds_enough m : forall f g bs, (length bs <= f)%nat -> (length bs <= g)%nat -> rounds m f bs = rounds m g bs.
Proof.
  induction f as [|f IH]; intros g bs Lf Lg.
  { destruct bs; [destruct g; reflexivity | cbn in Lf; lia]. }
  destruct g as [|g]. { destruct bs; [reflexivity | cbn in Lg; lia]. }
  cbn [rounds]. destruct bs as [|b bs]; [reflexivity|].
  destruct (PduHeader_get_pdu_type (b :: bs)) as [[t|]|e]; try reflexivity.
  destruct (find _ (all_pdus m)) as [c|] eqn:F; [|reflexivity].
  apply find_some in F as [I _].
  destruct (deserialize c (b :: bs)) as [[[p|e] rest]|e] eqn:D; try reflexivity.
  apply (progress m _ _ _ _ I) in D. rewrite (IH g rest) by lia. reflexivity.
Qed.
Lemma sequence_step m c p bs rest : In c (all_pdus m) -> deserialize c bs = Ok (ROk p, rest) ->
  taken_in_sequence m bs = (existT _ c p :: fst (taken_in_sequence m rest), snd (taken_in_sequence m rest)).
Proof.
  intros I D. assert (L := progress m _ _ _ _ I D). destruct (decoded_type _ _ _ _ D) as [L12 T].
  unfold taken_in_sequence at 1. destruct bs as [|b bs]; [cbn in L12; lia|]. cbn [length rounds].
  destruct (get_pdu_type_spec (b :: bs) L12) as [h [_ [G C]]]. rewrite G.
  assert (E : pdu_type h = cls_type c) by (apply enum_eq; congruence). rewrite E, (find_class m c I), D.
  unfold taken_in_sequence. rewrite (rounds_enough m (length bs) (length rest) rest) by (cbn in L; lia).
  now destruct (rounds m (length rest) rest).
Qed.

(** Whatever PDU of an ordinary class is sent: the receiver gets it without its elements, and
    takes the bytes of the elements for the following PDUs. *)
Theorem C79_elements_taken_for_pdus : forall m c p p' out, In c (all_pdus m) -> ordinary c ->
  serialize c p [] = Ok (ROk tt, p', out) ->
  exists fixed elements, out = fixed ++ elements /\ lenN fixed = default_size c /\
    forall rest, taken_in_sequence m (out ++ rest) =
      (existT _ c (clear_lists p') :: fst (taken_in_sequence m (elements ++ rest)), snd (taken_in_sequence m (elements ++ rest))).
Proof.
  intros m c p p' out I O S. destruct (C12_list_roundtrip_exact m c p [] p' out I O S) as [_ [fixed [lists [-> [L D]]]]].
  exists fixed, lists. cbn [app]. split; [reflexivity|]. split; [exact L|]. intros rest.
  rewrite <- app_assoc. exact (sequence_step m c _ _ _ I (D rest)).
Qed.


(** What [serialize_all] appends, PDU by PDU. *)
Definition sent_alone (q : any_pdu) (d : bytes) : Prop := serialize (projT1 q) (projT2 q) [] = Ok (ROk tt, projT2 q, d).
Lemma sendable_sent m p : sendable m p -> forall buf p' b,
  serialize (projT1 p) (projT2 p) buf = Ok (ROk tt, p', b) -> sendable m (existT _ (projT1 p) p').
Proof.
  intros H. destruct H as [c q I N|q X|q X|q X|q X]; intros buf p' b S; cbn [projT1 projT2] in p', S |- *.
  - apply sendable_plain; assumption.
  - assert (Eb : body p' = body q) by (eapply C62_fields_kept; [no_attrs | exact S]).
    apply sendable_transfer. unfold TransferOwnershipPdu_record_information in *. rewrite Eb. exact X.
  - assert (Eb : body p' = body q) by (eapply C62_fields_kept; [no_attrs | exact S]).
    apply sendable_set_record. unfold SetRecordReliablePdu_record_sets in *. rewrite Eb. exact X.
  - assert (Eb : body p' = body q) by (eapply C62_fields_kept; [no_attrs | exact S]).
    apply sendable_action. unfold InformationOperationsActionPdu_io_records in *. rewrite Eb. exact X.
  - assert (Eb : body p' = body q) by (eapply C62_fields_kept; [no_attrs | exact S]).
    apply sendable_report. unfold InformationOperationsReportPdu_io_records in *. rewrite Eb. exact X.
Qed.
Lemma all_pieces m : forall ps buf qs b, Forall (fun p => In (class_of p) (all_pdus m)) ps -> serialize_all ps buf = Some (qs, b) ->
  exists ds, b = buf ++ List.concat ds /\ Forall2 sent_alone qs ds /\
    Forall2 (fun p q => class_of q = class_of p /\ (sendable m p -> sendable m q)) ps qs.
Proof.
  induction ps as [|[c p] ps IH]; intros buf qs b F S; cbn [serialize_all] in S.
  { injection S as <- <-. exists []. rewrite app_nil_r. repeat split; constructor. }
  apply Forall_cons_iff in F as [I F]. cbn [class_of projT1] in I.
  destruct (serialize c p buf) as [[[[[]|e] p'] b1]|e] eqn:S1; try discriminate.
  destruct (serialize_all ps b1) as [[qs1 b2]|] eqn:S2; [|discriminate].
  apply (f_equal (fun o => match o with Some x => x | None => (qs, b) end)) in S.
  assert (Eq := f_equal fst S). assert (Eb := f_equal snd S). cbn [fst snd] in Eq, Eb. subst qs b. clear S.
  destruct (serialize_spec m c I _ _ _ _ S1) as [fl [E1 _]].
  destruct (IH _ _ _ F S2) as [ds [-> [A B]]].
  exists ((PduHeader_serialize (header p') ++ fl) :: ds). split; [|split].
  - rewrite E1. cbn [List.concat]. now rewrite <- !app_assoc.
  - constructor; [|exact A]. unfold sent_alone. cbn [projT1 projT2].
    rewrite E1 in S1. exact (serialize_idem m c I _ _ _ _ [] S1).
  - constructor; [|exact B]. split; [reflexivity|]. intros H. exact (sendable_sent m _ H buf p' b1 S1).
Qed.


Lemma reset_twice names fs : forall v, reset_fields names fs (reset_fields names fs v) = reset_fields names fs v.
Proof.
  induction fs as [|f fs IH]; intros v; cbn [reset_fields fst snd]; [reflexivity|]. rewrite IH.
  destruct (mem_string (f_name f) names); reflexivity.
Qed.
Lemma clear_cleared c (p : pdu c) : no_elements (existT _ c (clear_lists p)).
Proof. unfold no_elements, clear_lists. cbn [projT2 header body]. now rewrite reset_twice. Qed.
(** An ordinary PDU by itself: what is taken from its bytes. *)
Lemma ordinary_step m c (q : pdu c) d : In c (all_pdus m) -> ordinary c -> sent_alone (existT _ c q) d ->
  exists elements, (forall rest, taken_in_sequence m (d ++ rest) =
      (existT _ c (clear_lists q) :: fst (taken_in_sequence m (elements ++ rest)), snd (taken_in_sequence m (elements ++ rest)))) /\
    (no_elements (existT _ c q) -> elements = []).
Proof.
  intros I O S. unfold sent_alone in S. cbn [projT1 projT2] in S.
  destruct (C12_list_roundtrip_exact m c q [] q d I O S) as [_ [fixed [lists [E [L D]]]]]. cbn [app] in E.
  exists lists. split.
  - intros rest. rewrite E, <- app_assoc. exact (sequence_step m c _ _ _ I (D rest)).
  - intros N. change (clear_lists q = q) in N. specialize (D []). rewrite N, !app_nil_r, <- E in D.
    assert (NE : cls_name c <> "EntityStatePdu"%string) by (intros X; unfold ordinary in O; rewrite X in O; discriminate O).
    destruct (C49_relay_size m c d q lists [] I NE D) as [Small Large].
    destruct (N.le_gt_cases (lenN d - lenN lists) 65535) as [K|K].
    + destruct (Small K) as [p' [out [S' [Len _]]]]. rewrite S in S'. injection S' as _ Eo. subst out.
      destruct lists as [|b l]; [reflexivity|]. exfalso. unfold lenN in Len. cbn [length] in Len. lia.
    + destruct (Large K) as [p' [S' _]]. rewrite S in S'. discriminate.
Qed.
Lemma sequence_of_cleared m qs ds : Forall2 sent_alone qs ds -> Forall (fun q => In (class_of q) (all_pdus m) /\ ordinary (class_of q) /\ no_elements q) qs ->
  forall rest, taken_in_sequence m (List.concat ds ++ rest) = (qs ++ fst (taken_in_sequence m rest), snd (taken_in_sequence m rest)).
Proof.
  induction 1 as [|[c q] d qs ds S _ IH]; intros F rest; [apply surjective_pairing|].
  apply Forall_cons_iff in F as [[I [O N]] F]. destruct (ordinary_step m c q d I O S) as [el [E Z]].
  cbn [List.concat]. rewrite <- app_assoc, E, (Z N). cbn [app]. rewrite (IH F rest). cbn [fst snd].
  change (clear_lists q = q) in N. now rewrite N.
Qed.
Theorem C79_in_sequence_iff : forall m ps qs out,
  Forall (fun p => In (class_of p) (all_pdus m) /\ ordinary (class_of p)) ps -> serialize_all ps [] = Some (qs, out) ->
  (taken_in_sequence m out = (qs, AllTaken) <-> Forall no_elements qs).
Proof.
  intros m ps qs out F S. 
  assert (F1 : Forall (fun p => In (class_of p) (all_pdus m)) ps) by (eapply Forall_impl; [|exact F]; intros x [X _]; exact X).
  destruct (all_pieces m ps [] qs out F1 S) as [ds [-> [A B]]]. cbn [app].
  assert (G : Forall (fun q => In (class_of q) (all_pdus m) /\ ordinary (class_of q)) qs).
  { clear - B F. induction B as [|p q ps qs [E _] B IH]; [constructor|]. apply Forall_cons_iff in F as [H F].
    constructor; [rewrite E; exact H | exact (IH F)]. }
  clear - A G. split.
  - intros T. induction A as [|[c q] d qs ds S A IH]; [constructor|].
    apply Forall_cons_iff in G as [[I O] G]. destruct (ordinary_step m c q d I O S) as [el [E Z]].
    cbn [List.concat] in T. rewrite E in T.
    assert (T1 := f_equal (fun x => hd (existT _ c q) (fst x)) T). assert (T2 := f_equal (fun x => tl (fst x)) T).
    assert (T3 := f_equal snd T). cbn [fst snd hd tl] in T1, T2, T3. clear T.
    assert (N : no_elements (existT _ c q)) by (rewrite <- T1; apply clear_cleared).
    constructor; [exact N|]. rewrite (Z N) in T2, T3. cbn [app] in T2, T3. apply IH; [exact G|].
    rewrite <- T2, <- T3. apply surjective_pairing.
  - intros N. assert (H := sequence_of_cleared m qs ds A).
    rewrite <- (app_nil_r (List.concat ds)), H.
    + cbn. now rewrite app_nil_r.
    + rewrite Forall_forall in *. intros x Ix. destruct (G x Ix) as [? ?]. repeat split; auto.
Qed.


(** What the receiver in sequence takes for the next PDUs is in the hands of whoever fills the
    data of a Signal PDU: any bytes at all, the datagrams of other PDUs among them. *)
Lemma sum_of_ones (d : list u8) : sumN (map (c_len u8_codec) d) = N.of_nat (length d).
Proof. induction d as [|x d IH]; [reflexivity|]. cbn [map sumN length]. rewrite IH. cbn [u8_codec c_len]. lia. Qed.
Lemma each_be (d : list u8) : each be d = d.
Proof.
  unfold each. induction d as [|x d IH]; [reflexivity|]. cbn [map List.concat]. rewrite IH.
  unfold be. change (x :: d) with ([x] ++ d). f_equal. exact (big_endian_1 x).
Qed.
Lemma app_split {A} (a b x y : list A) : length a = length b -> a ++ x = b ++ y -> a = b /\ x = y.
Proof.
  revert b. induction a as [|h a IH]; intros [|k b] L E; cbn [length app] in *; try discriminate; [now split|].
  assert (E1 := f_equal (hd h) E). assert (E2 := f_equal (@tl _) E). cbn [hd tl] in E1, E2. subst k.
  destruct (IH b ltac:(lia) E2) as [-> ->]. now split.
Qed.
Definition carrier (d : list u8) : pdu SignalPdu :=
  mk_pdu (c := SignalPdu) (PduHeader_default (as_u32 0))
    (EntityId_default, (as_uint 2 0, (as_uint 2 0, (enum_default SignalTDLType_spec, (as_uint 4 0, (as_uint 2 0, (as_uint 2 0, (d, tt)))))))).
Lemma carrier_sent (m : profile) (d : list u8) : lenN d <= 65503 -> exists p' fixed,
  serialize SignalPdu (carrier d) [] = Ok (ROk tt, p', fixed ++ d) /\ SignalPdu_data p' = d /\
  forall rest, deserialize SignalPdu (fixed ++ d ++ rest) = Ok (ROk (clear_lists p'), d ++ rest).
Proof.
  intros Hd. assert (I : In SignalPdu (all_pdus m)) by (cbn; tauto).
  assert (Sz : declared_size (carrier d) <= 65535).
  { unfold declared_size, carrier. cbn [body]. 
    change (12 + (6 + (2 + (2 + (2 + (4 + (2 + (2 + (sumN (map (c_len u8_codec) d) + 0)))))))) <= 65535).
    rewrite sum_of_ones. unfold lenN in Hd. lia. }
  destruct (serialize SignalPdu (carrier d) []) as [[[[[]|e] p'] out]|e] eqn:S.
  2:{ exfalso. exact (proj2 (C09_oversize_refused m _ (carrier d) [] I) Sz _ _ _ S). }
  2:{ exfalso. revert S. apply (C46_serialize_never_panics m); [exact I | discriminate | discriminate]. }
  destruct (C12_list_roundtrip_exact m _ _ _ _ _ I eq_refl S) as [Eb [fixed [lists [E [L D]]]]]. cbn [app] in E.
  assert (Il : In (mk_pdu_layout SignalPdu SignalPdu_map 32 SignalPdu_tail) (layouts m)) by (apply (nth_error_In _ 27); reflexivity).
  destruct (C64_datagram m (mk_pdu_layout SignalPdu SignalPdu_map 32 SignalPdu_tail) (carrier d) [] p' out Il S) as [E2 [_ L2]]. cbn [pl_class pl_map pl_tail pl_end app] in E2, L2.
  change (SignalPdu_tail (carrier d)) with (each be d) in E2. rewrite each_be, app_assoc in E2.
  set (a := laid_out header_entries p' ++ laid_out SignalPdu_map p') in *.
  assert (La : length a = length fixed).
  { unfold laid_out in *. rewrite map_app, concat_app in L2. fold a in L2. 
    change (default_size SignalPdu) with 32 in L. unfold lenN in L. lia. }
  rewrite E in E2. destruct (app_split _ _ _ _ (eq_sym La) E2) as [-> ->].
  exists p', a. split; [rewrite E; reflexivity|]. split; [unfold SignalPdu_data; rewrite Eb; reflexivity|exact D].
Qed.
Theorem C79_phantoms : forall m d, lenN d <= 65503 -> exists p p' out,
  serialize SignalPdu p [] = Ok (ROk tt, p', out) /\ SignalPdu_data p' = d /\
  taken_in_sequence m out = (existT _ SignalPdu (clear_lists p') :: fst (taken_in_sequence m d), snd (taken_in_sequence m d)).
Proof.
  intros m d Hd. destruct (carrier_sent m d Hd) as [p' [fixed [S [Ed D]]]]. exists (carrier d), p', (fixed ++ d).
  split; [exact S|]. split; [exact Ed|]. assert (I : In SignalPdu (all_pdus m)) by (cbn; tauto).
  specialize (D []). rewrite app_nil_r in D. exact (sequence_step m SignalPdu _ _ _ I D).
Qed.
(** For instance the datagram of any PDU that its class decodes: the receiver gets two PDUs,
    although one was sent. *)
Theorem C79_one_sent_two_received : forall m c q q' d r rest, In c (all_pdus m) ->
  serialize c q [] = Ok (ROk tt, q', d) -> lenN d <= 65503 -> deserialize c d = Ok (ROk r, rest) ->
  exists p p' out more, serialize_all [existT _ SignalPdu p] [] = Some ([existT _ SignalPdu p'], out) /\
    fst (taken_in_sequence m out) = existT _ SignalPdu (clear_lists p') :: existT _ c r :: more.
Proof.
  intros m c q q' d r rest I S Hd D. destruct (C79_phantoms m d Hd) as [p [p' [out [Sp [_ T]]]]].
  exists p, p', out, (fst (taken_in_sequence m rest)). split; [cbn [serialize_all]; now rewrite Sp|].
  rewrite T, (sequence_step m c r d rest I D). reflexivity.
Qed.

(** ** The receiver by length *)
Lemma cuts_enough m : forall f g bs, (length bs <= f)%nat -> (length bs <= g)%nat -> cuts m f bs = cuts m g bs.
Proof.
  assert (Z : forall g, cuts m g [] = ([], [])) by (intros [|g]; reflexivity).
  induction f as [|f IH]; intros g bs Lf Lg.
  { destruct bs; [now rewrite !Z | cbn in Lf; lia]. }
  destruct g as [|g]. { destruct bs; [now rewrite !Z | cbn in Lg; lia]. }
  cbn [cuts]. destruct (PduHeader_deserialize bs) as [[h r]|e]; [|reflexivity].
  set (n := N.to_nat (uval (header_length h))). destruct ((n <? 12)%nat || (length bs <? n)%nat) eqn:C; [reflexivity|].
  apply Bool.orb_false_iff in C as [C1 C2]. apply Nat.ltb_ge in C1, C2.
  rewrite (IH g (skipn n bs)); [reflexivity | rewrite skipn_length; lia | rewrite skipn_length; lia].
Qed.
Lemma length_step m fr rest : one_frame fr ->
  taken_by_length m (fr ++ rest) = (receive m fr :: fst (taken_by_length m rest), snd (taken_by_length m rest)).
Proof.
  intros [L K]. unfold taken_by_length at 1. 
  assert (Lf : length (fr ++ rest) = (length fr + length rest)%nat) by apply app_length.
  destruct (length (fr ++ rest)) as [|f] eqn:Ef; [lia|]. cbn [cuts].
  assert (L12 : (12 <= length (fr ++ rest))%nat) by lia.
  destruct (header_decode (fr ++ rest) L12) as [h [-> [_ [_ [_ [_ [_ [Hl _]]]]]]]].
  rewrite Hl, be2_at_app, K by lia. unfold lenN. rewrite Nat2N.id.
  replace (length fr <? 12)%nat with false by (symmetry; apply Nat.ltb_ge; exact L).
  replace (length (fr ++ rest) <? length fr)%nat with false by (symmetry; apply Nat.ltb_ge; lia).
  cbn [orb]. rewrite firstn_app, firstn_all, Nat.sub_diag, firstn_O, app_nil_r.
  rewrite skipn_app, skipn_all, Nat.sub_diag. cbn [skipn app].
  unfold taken_by_length. rewrite (cuts_enough m f (length rest) rest) by lia. now destruct (cuts m (length rest) rest).
Qed.
Lemma by_length_frames m qs ds : Forall2 sent_alone qs ds -> Forall (sendable m) qs -> Forall one_frame ds ->
  exists rs, Forall2 (fun q r => exists r', r = Ok (Some r') /\ same_numbers m q r') qs rs /\
    forall rest, taken_by_length m (List.concat ds ++ rest) = (rs ++ fst (taken_by_length m rest), snd (taken_by_length m rest)).
Proof.
  induction 1 as [|[c q] d qs ds Sq A IH]; intros G Fr.
  { exists []. split; [constructor|]. intros rest. apply surjective_pairing. }
  apply Forall_cons_iff in G as [H G]. apply Forall_cons_iff in Fr as [F1 Fr]. destruct (IH G Fr) as [rs [R T]].
  unfold sent_alone in Sq. assert (Hin := sendable_in m _ H). cbn [class_of projT1 projT2] in *.
  exists (receive m d :: rs). split.
  - constructor; [|exact R]. destruct (datagram_whole m (existT _ c q) q d H Sq) as [W1 W2].
    destruct (delivery m (existT _ c q) q d (length d) H Sq) as [[K _]|[[K _]|[_ [r' [E N]]]]]; cbn [projT1 class_of] in *; [lia|lia|].
    rewrite firstn_all in E. exists r'. split; assumption.
  - intros rest. cbn [List.concat]. rewrite <- app_assoc, (length_step m d _ F1), T. reflexivity.
Qed.
Lemma pieces_after m ps qs : Forall (sendable m) ps -> Forall2 (fun p q => class_of q = class_of p /\ (sendable m p -> sendable m q)) ps qs ->
  Forall (sendable m) qs.
Proof. intros F B. induction B as [|p q ps qs [_ K] B IH]; [constructor|]. apply Forall_cons_iff in F as [H F]. constructor; auto. Qed.

Lemma frame_of m c (q : pdu c) d : sendable m (existT _ c q) -> announces_its_size (existT _ c q) ->
  serialize c q [] = Ok (ROk tt, q, d) -> one_frame d.
Proof.
  intros G1 N1 Sq. assert (Hin := sendable_in m _ G1). cbn [class_of projT1 projT2] in *.
  specialize (N1 q d Sq). cbn [projT2] in N1.
  destruct (serialize_spec m c Hin _ _ _ _ Sq) as [fl [E _]]. cbn [app] in E.
  split; [rewrite E, app_length, header_ser_length; lia|]. rewrite N1.
  rewrite E, header_layout, <- app_assoc. unfold be2_at, byte_at, be2, be4. cbn [app nth Nat.add].
  unfold B, as_u8. assert (U := uint_lt _ (header_length (header q))). change (256 ^ N.of_nat 2) with 65536 in U.
  assert (D := N.div_mod (uval (header_length (header q))) 256 ltac:(discriminate)).
  rewrite !as_uint_val; change (256 ^ N.of_nat 1) with 256; [symmetry; exact D | apply N.mod_lt; discriminate | apply N.div_lt_upper_bound; lia].
Qed.

(** Whatever the PDUs contain, the receiver by length gets one PDU for each that was sent, of
    its class and with its numbers, if each of them announces the bytes it is sent in. *)
Theorem C79_by_length : forall m ps qs out,
  Forall (sendable m) ps -> serialize_all ps [] = Some (qs, out) -> Forall announces_its_size qs ->
  exists rs, Forall2 (fun q r => exists r', r = Ok (Some r') /\ same_numbers m q r') qs rs /\
    forall rest, taken_by_length m (out ++ rest) = (rs ++ fst (taken_by_length m rest), snd (taken_by_length m rest)).
Proof.
  intros m ps qs out F S N.
  assert (F1 : Forall (fun p => In (class_of p) (all_pdus m)) ps)
    by (eapply Forall_impl; [|exact F]; intros x X; exact (sendable_in m x X)).
  destruct (all_pieces m ps [] qs out F1 S) as [ds [-> [A B]]]. cbn [app].
  assert (G := pieces_after m ps qs F B). apply by_length_frames; [exact A | exact G|].
  clear - A N G. induction A as [|[c q] d qs ds Sq A IH]; [constructor|].
  apply Forall_cons_iff in N as [N1 N]. apply Forall_cons_iff in G as [G1 G]. constructor; [|exact (IH N G)].
  exact (frame_of m c q d G1 N1 Sq).
Qed.
(** They do so if their classes announce exact lengths. *)
Theorem C79_by_length_exact : forall m ps qs out,
  Forall (fun p => sendable m p /\ exact_length (class_of p)) ps -> serialize_all ps [] = Some (qs, out) ->
  Forall announces_its_size qs.
Proof.
  intros m ps qs out F S.
  assert (F1 : Forall (fun p => In (class_of p) (all_pdus m)) ps)
    by (eapply Forall_impl; [|exact F]; intros x [X _]; exact (sendable_in m x X)).
  destruct (all_pieces m ps [] qs out F1 S) as [ds [_ [_ B]]].
  clear - F B. induction B as [|p q ps qs [E K] B IH]; [constructor|]. apply Forall_cons_iff in F as [[H X] F].
  constructor; [|exact (IH F)]. rewrite <- E in X. specialize (K H). assert (Hin := sendable_in m _ K).
  intros q' d Sq. destruct q as [c q]. cbn [class_of projT1 projT2] in *.
  destruct (exact_emitted m c Hin X _ _ _ _ Sq) as [out [E1 [L Hl]]]. cbn [app] in E1. subst out. congruence.
Qed.

(** Without exact lengths it does not: a new EntityStatePdu announces 144 bytes and is 133
    long; the FirePdu behind it is lost, and so is the rest of the bundle. *)
Theorem C79_by_length_refuted : forall m,
  let state := existT pdu EntityStatePdu (pdu_new EntityStatePdu (as_u32 1)) in
  let fire := existT pdu FirePdu (pdu_new FirePdu (as_u32 1)) in
  Forall (sendable m) [state; fire] /\
  exists state' fire' out, serialize_all [state; fire] [] = Some ([state'; fire'], out) /\ lenN out = 133 + 96 /\
    length (fst (taken_by_length m out)) = 1%nat /\ lenN (snd (taken_by_length m out)) = 85.
Proof.
  intros m state fire. split.
  { repeat apply Forall_cons; try apply Forall_nil;
    (apply sendable_plain; [unfold all_pdus; repeat (first [left; reflexivity | right])|]; cbn; intuition discriminate). }
  assert (L : match serialize_all [state; fire] [] with
    | Some ([a; b], out) => (lenN out, length (fst (taken_by_length m out)), lenN (snd (taken_by_length m out)))
    | _ => (0, 0%nat, 0) end = (229, 1%nat, 85)) by (destruct m; vm_compute; reflexivity).
  destruct (serialize_all [state; fire] []) as [[[|a [|b [|? ?]]] out]|]; try discriminate L.
  exists a, b, out. split; [reflexivity|].
  assert (L1 := f_equal (fun x => fst (fst x)) L). assert (L2 := f_equal (fun x => snd (fst x)) L). assert (L3 := f_equal snd L).
  cbn [fst snd] in L1, L2, L3. split; [exact L1|]. split; [exact L2|exact L3].
Qed.

(** ** The hypotheses are met *)
Definition bundle (m : profile) : list any_pdu := [existT pdu FirePdu (pdu_new FirePdu (as_u32 7)); existT pdu DetonationPdu (pdu_new DetonationPdu (as_u32 9))].
(** A bundle without elements: both receivers get both PDUs. *)
Example C79_example_plain : forall m,
  Forall (fun p => In (class_of p) (all_pdus m) /\ ordinary (class_of p)) (bundle m) /\
  Forall (fun p => sendable m p /\ exact_length (class_of p)) (bundle m) /\
  match serialize_all (bundle m) [] with
  | Some (qs, out) =>
      (lenN out, map (fun p => code (cls_type (class_of p))) (fst (taken_in_sequence m out)), snd (taken_in_sequence m out),
       map (fun r => match r with Ok (Some p) => code (cls_type (class_of p)) | _ => 0 end) (fst (taken_by_length m out)), snd (taken_by_length m out))
  | None => (0, [], AllTaken, [], [])
  end = (200, [2; 3], AllTaken, [2; 3], []).
Proof.
  intros m. split; [|split].
  - repeat apply Forall_cons; try apply Forall_nil; (split; [unfold all_pdus; cbn [class_of projT1]; repeat (first [left; reflexivity | right]) | reflexivity]).
  - repeat apply Forall_cons; try apply Forall_nil; (split;
    [apply sendable_plain; [unfold all_pdus; repeat (first [left; reflexivity | right])|]; cbn; intuition discriminate
    | unfold exact_length; cbn; intuition discriminate]).
  - destruct m; vm_compute; reflexivity.
Qed.
(** A Signal PDU that carries the datagram of a FirePdu: one PDU is sent, the receiver in
    sequence gets a SignalPdu without data and a FirePdu; the receiver by length one SignalPdu. *)
Example C79_example_phantom : forall m,
  match serialize FirePdu (pdu_new FirePdu (as_u32 7)) [] with
  | Ok (ROk _, _, d) =>
      match serialize_all [existT pdu SignalPdu (carrier d)] [] with
      | Some (qs, out) =>
          (lenN d, lenN out, map (fun p => code (cls_type (class_of p))) (fst (taken_in_sequence m out)), snd (taken_in_sequence m out),
           map (fun r => match r with Ok (Some p) => code (cls_type (class_of p)) | _ => 0 end) (fst (taken_by_length m out)), snd (taken_by_length m out))
      | None => (0, 0, [], AllTaken, [], [])
      end
  | _ => (0, 0, [], AllTaken, [], [])
  end = (96, 128, [26; 2], AllTaken, [26], []).
Proof. intros m. destruct m; vm_compute; reflexivity. Qed.

(** An EntityState whose marking is eleven characters long announces its size, and the FirePdu
    behind it is received. *)
Example C79_example_marking : forall m,
  let fresh := pdu_new EntityStatePdu (as_u32 1) in
  let named := mk_pdu (c := EntityStatePdu) (header fresh)
    (let '(a, (b, (c, (d, (e, (f, (g, (h, (i, (j, (k, t))))))))))) := body fresh in
     (a, (b, (c, (d, (e, (f, (g, (h, (i, (j, (mk_EntityMarking (EntityMarking_entity_marking_character_set k) (repeat (B 65) 11), t)))))))))))) in
  announces_its_size (existT pdu EntityStatePdu named) /\
  match serialize_all [existT pdu EntityStatePdu named; existT pdu FirePdu (pdu_new FirePdu (as_u32 1))] [] with
  | Some (_, out) => map (fun r => match r with Ok (Some p) => code (cls_type (class_of p)) | _ => 0 end) (fst (taken_by_length m out))
  | None => []
  end = [1; 2].
Proof.
  intros m fresh named. split; [|destruct m; vm_compute; reflexivity].
  intros p' d S. cbn [projT1 projT2] in p', S.
  assert (K : match serialize EntityStatePdu named [] with Ok (_, p', d) => lenN d =? uval (header_length (header p')) | Panic _ => false end = true)
    by (vm_compute; reflexivity).
  rewrite S in K. now apply N.eqb_eq.
Qed.

(** What the theorems above rest on (one traversal for all of them; not part of the model). *)
Definition Prop_Bundle_theorems : True :=
  let _ := @C79_elements_taken_for_pdus in
  let _ := @C79_in_sequence_iff in
  let _ := @C79_phantoms in
  let _ := @C79_one_sent_two_received in
  let _ := @C79_by_length in
  let _ := @C79_by_length_exact in
  let _ := @C79_by_length_refuted in
  I.
Print Assumptions Prop_Bundle_theorems.
