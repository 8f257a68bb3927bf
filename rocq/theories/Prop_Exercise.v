(** * Exercises over an unreliable network (C76). Vocabulary in [SpecExercise]. *)
From Verif Require Import Base BaseFacts EnumModel Enums EnumFacts Fixed Header HeaderFacts HeaderProofs PduMacro PduMacroFacts
  DataTypes DataTypesFacts Bitflags Pdus PduFields PdusFacts ClassFacts RecordFacts PduProofs Spec SpecDatum SpecSpecial Wire WireMaps WireFacts WireProofs WireClass
  Prop_Header Prop_Pdu Prop_Specs Prop_Special Prop_Aggregate Prop_Transmitter Prop_Needed Prop_Wire SpecFaults Prop_Faults Prop_Local Prop_Macro Prop_Numbers SpecExercise.

(** ** Sending and receiving one datagram *)
Lemma find_class m c : In c (all_pdus m) -> find (fun c' => enum_eqb (cls_type c') (cls_type c)) (all_pdus m) = Some c.
Proof. revert c. by_class. all_classes ltac:(reflexivity). Qed.
Lemma sendable_in m p : sendable m p -> In (class_of p) (all_pdus m).
Proof.
  intros [c p' I _|p' _|p' _|p' _|p' _]; cbn [class_of projT1]; [exact I|..];
  (unfold all_pdus; repeat (first [left; reflexivity | right])).
Qed.
Lemma no_panic_elements m v : specification_exact m v -> ~ Exists (element_panics m) (RecordSpecification_record_sets v).
Proof.
  intros [_ F] E. rewrite Forall_forall in F. apply Exists_exists in E as [e [Ie [[-> P]|P]]]; destruct (F e Ie) as [A B].
  - specialize (A eq_refl). lia.
  - lia.
Qed.
(** [serialize] of a sendable PDU does not panic. *)
Lemma sendable_serialize m p : sendable m p -> forall e, serialize (projT1 p) (projT2 p) [] <> Panic e.
Proof.
  intros [c q I N|q X|q X|q X|q X] e S; cbn [projT1 projT2] in S.
  - eapply (C46_serialize_never_panics m c); [exact I | | | exact S]; intros K; apply N; rewrite K; cbn; tauto.
  - destruct (proj1 (C46_transfer_ownership_panics_iff m q []) (ex_intro _ e S)) as [_ E]. exact (no_panic_elements _ _ X E).
  - destruct (proj1 (C46_set_record_panics_iff m q []) (ex_intro _ e S)) as [_ E]. exact (no_panic_elements _ _ X E).
  - revert S. apply (C46_serialize_never_panics m); [|discriminate|discriminate].
    apply (sendable_in m (existT _ _ q)). apply sendable_action, X.
  - revert S. apply (C46_serialize_never_panics m); [|discriminate|discriminate].
    apply (sendable_in m (existT _ _ q)). apply sendable_report, X.
Qed.
Ltac no_attrs := repeat (apply Forall_cons; [reflexivity|]); apply Forall_nil.
Lemma plain_decodes m c : In c (all_pdus m) ->
  ~ In (cls_name c) ["TransferOwnershipPdu"; "SetRecordReliablePdu"; "InformationOperationsActionPdu"; "InformationOperationsReportPdu"]%string ->
  forall p p' d, serialize c p [] = Ok (ROk tt, p', d) -> exists q rest, deserialize c d = Ok (ROk q, rest).
Proof.
  intros I N. destruct (mem_string (cls_name c) special_pdus) eqn:O.
  2: { intros p p' d S. destruct (C12_list_roundtrip_exact m c p [] p' d I O S) as [_ [f [l [E [_ D]]]]]. cbn [app] in E. subst d.
       specialize (D []). rewrite app_nil_r in D. eauto. }
  revert c I O N. by_class.
  all_classes ltac:(first
    [ intros O; vm_compute in O; discriminate O
    | intros _ N; first [ exfalso; apply N; cbn; tauto | clear N ]; intros p p' d S; rewrite <- (app_nil_r d);
      first [ destruct (C28_entity_state_roundtrip p [] p' d [] S) as [q [D _]]
            | destruct (C29_transmitter_roundtrip p [] p' d [] S) as [q [D _]]
            | destruct (C45_aggregate_roundtrip p [] p' d [] S) as [q [D _]]
            | destruct (C21_stop_freeze_roundtrip p [] p' d [] S) as [q [D _]]
            | destruct (C21_stop_freeze_reliable_roundtrip p [] p' d [] S) as [q [D _]]
            | destruct (C21_areal_object_roundtrip p [] p' d [] S) as [q [D _]] ];
      eexists _, _; exact D ]).
Qed.
Lemma sendable_decodes m p p' d : sendable m p -> serialize (projT1 p) (projT2 p) [] = Ok (ROk tt, p', d) ->
  exists q rest, deserialize (projT1 p) d = Ok (ROk q, rest).
Proof.
  intros H. revert p'. destruct H as [c q I N|q X|q X|q X|q X]; intros p' S; cbn [projT1 projT2] in p', S |- *.
  - exact (plain_decodes m c I N q p' d S).
  - assert (Eb : body p' = body q) by (eapply C62_fields_kept; [no_attrs | exact S]).
    destruct (C25_transfer_ownership_roundtrip m q [] p' d [] S) as [R _]. rewrite app_nil_r in R.
    destruct R as [r [D _]]; [|eauto]. unfold TransferOwnershipPdu_record_information in *. rewrite Eb. exact X.
  - assert (Eb : body p' = body q) by (eapply C62_fields_kept; [no_attrs | exact S]).
    destruct (C25_set_record_roundtrip m q [] p' d [] S) as [R _]. rewrite app_nil_r in R.
    eexists _, _. apply R. unfold SetRecordReliablePdu_record_sets in *. rewrite Eb. exact X.
  - assert (Eb : body p' = body q) by (eapply C62_fields_kept; [no_attrs | exact S]).
    destruct (C23_information_action_roundtrip q [] p' d [] S) as [R _]. rewrite app_nil_r in R.
    destruct R as [r [D _]]; [|eauto]. unfold InformationOperationsActionPdu_io_records in *. rewrite Eb. exact X.
  - assert (Eb : body p' = body q) by (eapply C62_fields_kept; [no_attrs | exact S]).
    destruct (C23_information_report_roundtrip q [] p' d [] S) as [R _]. rewrite app_nil_r in R.
    destruct R as [r [D _]]; [|eauto]. unfold InformationOperationsReportPdu_io_records in *. rewrite Eb. exact X.
Qed.

Lemma numbers_arrive m x (p p' q : pdu (pm_class x)) d rest : In x (wire_maps m) ->
  serialize (pm_class x) p [] = Ok (ROk tt, p', d) -> deserialize (pm_class x) d = Ok (ROk q, rest) ->
  Forall (fun e => en_get e q = en_norm e (en_put e p')) (datagram_entries x).
Proof.
  intros Ix S D. destruct (C61_maps m x Ix) as [_ [W R]].
  specialize (W p [] p' d S). specialize (R d q rest D). assert (F := map_fits m x p' Ix).
  rewrite Forall_forall in *. intros e He. specialize (W e He). specialize (R e He). specialize (F e He).
  unfold sent in W. unfold received in R. rewrite R, W, number_big_endian by exact F. reflexivity.
Qed.
Lemma wire_type_firstn k bs : (3 <= k)%nat -> wire_type (firstn k bs) = wire_type bs.
Proof.
  intros K. unfold wire_type, byte_at. do 3 (destruct k as [|k]; [lia|]). 
  do 3 (destruct bs as [|? bs]; [reflexivity|]). reflexivity.
Qed.
Lemma receive_own m c d : In c (all_pdus m) -> (12 <= length d)%nat -> wire_type d = code (cls_type c) ->
  receive m d = match deserialize c d with
                | Ok (ROk p, _) => Ok (Some (existT _ c p)) | Ok (RErr _, _) => Ok None | Panic e => Panic e end.
Proof.
  intros I L T. unfold receive. destruct (get_pdu_type_spec d L) as [h [_ [G C]]]. rewrite G.
  assert (E : pdu_type h = cls_type c) by (apply enum_eq; congruence). rewrite E, (find_class m c I). reflexivity.
Qed.
Lemma decoded_type c d q rest : deserialize c d = Ok (ROk q, rest) -> (12 <= length d)%nat /\ wire_type d = code (cls_type c).
Proof.
  intros D. destruct (Nat.lt_ge_cases (length d) 12) as [L|L]; [rewrite (deserialize_short _ _ L) in D; discriminate|].
  split; [exact L|]. destruct (deserialize_cases c d L) as [h [_ [_ E]]]. rewrite E in D.
  destruct (N.eqb_spec (wire_type d) (code (cls_type c))) as [T|T]; [exact T | discriminate].
Qed.
Lemma entity_state_class m c : In c (all_pdus m) -> cls_name c = "EntityStatePdu"%string -> c = EntityStatePdu.
Proof. revert c. by_class. all_classes ltac:(first [reflexivity | discriminate]). Qed.
Lemma entity_state_offsets m x : In x (wire_maps m) -> pm_class x = EntityStatePdu ->
  Forall (fun e => (en_off e + en_width e <= 129)%nat) (datagram_entries x).
Proof.
  intros Ix E. assert (E' : cls_name (pm_class x) = "EntityStatePdu"%string) by (rewrite E; reflexivity). clear E.
  assert (F : Forall (fun x => cls_name (pm_class x) = "EntityStatePdu"%string ->
     Forall (fun e => (en_off e + en_width e <= 129)%nat) (datagram_entries x)) (wire_maps m)).
  { unfold wire_maps. repeat (apply Forall_cons; [first [discriminate |
      intros _; unfold datagram_entries; apply Forall_app; split; cbn [pm_entries]; repeat (apply Forall_cons; [apply Nat.leb_le; reflexivity|]); apply Forall_nil]|]).
    apply Forall_nil. }
  rewrite Forall_forall in F. exact (F x Ix E').
Qed.
Lemma slice_firstn off w k (bs : bytes) : (off + w <= k)%nat -> slice off w (firstn k bs) = slice off w bs.
Proof.
  intros K. unfold slice. rewrite skipn_firstn_comm, firstn_firstn. f_equal. lia.
Qed.
(** Whatever part of the datagram of a PDU arrives. *)
Lemma delivery m p p' d k : sendable m p -> serialize (projT1 p) (projT2 p) [] = Ok (ROk tt, p', d) ->
  experience m (existT _ (projT1 p) p') d k (receive m (firstn k d)).
Proof.
  intros H S. assert (Ic := sendable_in m p H). destruct (sendable_decodes m p p' d H S) as [q0 [rest0 D0]].
  destruct p as [c v]. cbn [projT1 projT2 class_of] in *. clear H.
  destruct (decoded_type _ _ _ _ D0) as [Ld T].
  unfold experience. cbn [class_of projT1].
  destruct (Nat.lt_ge_cases k 12) as [K|K].
  { left. split; [exact K|]. unfold receive. rewrite get_pdu_type_short; [reflexivity|]. rewrite firstn_length. lia. }
  right. assert (Lk : (12 <= length (firstn k d))%nat) by (rewrite firstn_length; lia).
  assert (Tk : wire_type (firstn k d) = code (cls_type c)) by (rewrite wire_type_firstn by lia; exact T).
  rewrite (receive_own m c _ Ic Lk Tk).
  assert (NP : ~ ((length d < bytes_needed c d)%nat \/ decode_overflows m c d)).
  { intros X. assert (P : exists e, deserialize c d = Panic e) by (apply (C14_panics_iff m c d Ic); right; split; assumption).
    destruct P as [e P]. rewrite P in D0. discriminate. }
  assert (Ln : (bytes_needed c d <= length d)%nat) by (destruct (Nat.lt_ge_cases (length d) (bytes_needed c d)); tauto).
  destruct (C14_bytes_read m c d Ic T Ln) as [q1 D1]; [tauto|]. rewrite D0 in D1. injection D1 as <- ->.
  destruct (proj1 (in_map_iff _ _ _) (eq_ind_r (fun l => In c l) Ic (proj1 (C43_maps m)))) as [x [Ex Ix]].
  set (need := bytes_needed c d) in *.
  destruct (String.eqb_spec (cls_name c) "EntityStatePdu") as [Es|Es].
  - assert (c = EntityStatePdu) as -> by (apply (entity_state_class m); assumption).
    change need with 133%nat in *. clear need.
    destruct (C28_entity_state_decode (firstn k d) Tk) as [Sh Lg].
    destruct (Nat.lt_ge_cases k 133) as [C|C].
    + left. split; [lia|]. rewrite Sh; [reflexivity|]. rewrite firstn_length. lia.
    + right. split; [exact C|]. destruct Lg as [q [Dq _]]; [rewrite firstn_length; lia|]. rewrite Dq.
      exists (existT _ EntityStatePdu q). split; [reflexivity|].
      assert (Of := entity_state_offsets m x Ix Ex). clear - Ix Ex Dq S Of C. revert v p' S q Dq. rewrite <- Ex. intros v p' S q Dq.
      exists x, p', q. split; [exact Ix|]. split; [reflexivity|]. split; [reflexivity|].
      destruct (C61_maps m x Ix) as [_ [W R]].
      specialize (W v [] p' d S). specialize (R _ q _ Dq). assert (F := map_fits m x p' Ix).
      rewrite Forall_forall in *. intros e He. specialize (W e He). specialize (R e He). specialize (F e He). specialize (Of e He).
      unfold sent in W. unfold received in R. rewrite slice_firstn in R by lia. rewrite R, W, number_big_endian by exact F. reflexivity.
  - destruct (C42_every_class m c d _ _ Ic Es D0) as [u [Eu [U1 U2]]].
    assert (Lu : length u = need).
    { apply (f_equal (@length byte)) in Eu. rewrite app_length, skipn_length in Eu. lia. }
    destruct (Nat.lt_ge_cases k need) as [C|C].
    + left. split; [lia|]. replace (firstn k d) with (firstn k u); [rewrite U2 by lia; reflexivity|].
      rewrite Eu at 1. rewrite firstn_app. replace (k - length u)%nat with 0%nat by lia. rewrite firstn_O, app_nil_r. reflexivity.
    + right. split; [exact C|]. assert (E : firstn k d = u ++ firstn (k - need) (skipn need d)).
      { rewrite Eu at 1. rewrite firstn_app, firstn_all2 by lia. rewrite Lu. reflexivity. }
      rewrite E, U1. exists (existT _ c q0). split; [reflexivity|].
      subst c. exists x, p', q0. split; [exact Ix|]. split; [reflexivity|]. split; [reflexivity|].
      eapply numbers_arrive; eassumption.
Qed.

(** The whole datagram holds everything its class decodes. *)
Lemma datagram_whole m p p' d : sendable m p -> serialize (projT1 p) (projT2 p) [] = Ok (ROk tt, p', d) ->
  (12 <= length d)%nat /\ (bytes_needed (projT1 p) d <= length d)%nat.
Proof.
  intros H S. assert (Ic := sendable_in m p H). destruct (sendable_decodes m p p' d H S) as [q0 [rest0 D0]].
  destruct p as [c v]. cbn [projT1 projT2 class_of] in *. clear H.
  destruct (decoded_type _ _ _ _ D0) as [Ld T]. split; [exact Ld|].
  destruct (Nat.lt_ge_cases (length d) (bytes_needed c d)) as [L|L]; [|exact L]. exfalso.
  assert (P : exists e, deserialize c d = Panic e) by (apply (C14_panics_iff m c d Ic); right; split; [exact T | left; exact L]).
  destruct P as [e P]. rewrite P in D0. discriminate.
Qed.

(** ** Exercises *)

(** Whoever sends what, whatever the network loses, duplicates or reorders, and however large
    the receive buffers are: if all PDUs sent are sendable, no sender panics; everything
    received is (the beginning of) a datagram sent before, and the receiver experiences what
    [experience] says, independently of everything else that happens: the numbers sent, if the
    part its class decodes has arrived; a panic, if that part was cut off after the header;
    nothing, if even the header was. *)
Lemma exercise_air m acts : Forall (sendable m) (sends acts) -> forall past air,
  (forall d, In d air -> exists p p', In (WasSent p p' d) past /\ sendable m p /\ class_of p = class_of p' /\
      ((12 <= length d)%nat /\ (bytes_needed (class_of p') d <= length d)%nat) /\
      forall k, experience m p' d k (receive m (firstn k d))) ->
  let es := exercise m acts air in
  (forall p, ~ In (SenderCrashed p) es) /\
  (forall i d size r, nth_error es i = Some (Received d size r) -> exists p p',
     In (WasSent p p' d) (past ++ firstn i es) /\ experience m p' d size r /\
     (12 <= length d)%nat /\ (bytes_needed (class_of p') d <= length d)%nat).
Proof.
  induction acts as [|a acts IH]; intros F past air A.
  { split; [intros p []|]. intros i d size r E. destruct i; discriminate. }
  destruct a as [[c p]|i size]; cbn [exercise]; cbv zeta.
  - cbn [sends flat_map app] in F. inversion F as [|? ? Fp Fs]; subst.
    destruct (serialize c p []) as [[[[u|e] p'] d]|e] eqn:S.
    + destruct u. destruct (IH Fs (past ++ [WasSent (existT _ c p) (existT _ c p') d]) (air ++ [d])) as [I1 I2].
      { intros d0 H0. apply in_app_or in H0 as [H0|[<-|[]]].
        - destruct (A d0 H0) as [q [q' [J1 J2]]]. exists q, q'. split; [apply in_or_app; now left | exact J2].
        - exists (existT _ c p), (existT _ c p'). split; [apply in_or_app; right; now left|]. split; [exact Fp|]. split; [reflexivity|].
          split; [exact (datagram_whole m (existT _ c p) p' d Fp S)|].
          intros k. exact (delivery m (existT _ c p) p' d k Fp S). }
      split; [intros q [X|X]; [discriminate | exact (I1 q X)]|].
      intros j d0 size r E. destruct j as [|j]; [discriminate|]. cbn [nth_error firstn] in *.
      destruct (I2 j d0 size r E) as [q [q' [J1 J2]]]. exists q, q'. split; [|exact J2].
      rewrite <- app_assoc in J1. exact J1.
    + destruct (IH Fs (past ++ [NotSent (existT _ c p) e]) air) as [I1 I2].
      { intros d0 H0. destruct (A d0 H0) as [q [q' [J1 J2]]]. exists q, q'. split; [apply in_or_app; now left | exact J2]. }
      split; [intros q [X|X]; [discriminate | exact (I1 q X)]|].
      intros j d0 size r E. destruct j as [|j]; [discriminate|]. cbn [nth_error firstn] in *.
      destruct (I2 j d0 size r E) as [q [q' [J1 J2]]]. exists q, q'. split; [|exact J2].
      rewrite <- app_assoc in J1. exact J1.
    + exfalso. exact (sendable_serialize m _ Fp e S).
  - cbn [sends flat_map app] in F.
    destruct (nth_error air i) as [d|] eqn:Ei.
    + destruct (IH F (past ++ [Received d size (receive m (firstn size d))]) air) as [I1 I2].
      { intros d0 H0. destruct (A d0 H0) as [q [q' [J1 J2]]]. exists q, q'. split; [apply in_or_app; now left | exact J2]. }
      split; [intros q [X|X]; [discriminate | exact (I1 q X)]|].
      intros j d0 sz r E. destruct j as [|j]; cbn [nth_error firstn] in *.
      * injection E as <- <- <-. destruct (A d (nth_error_In _ _ Ei)) as [q [q' [J1 [_ [_ [J3 J2]]]]]]. exists q, q'.
        rewrite app_nil_r. split; [exact J1|]. split; [apply J2 | exact J3].
      * destruct (I2 j d0 sz r E) as [q [q' [J1 J2]]]. exists q, q'. split; [|exact J2].
        rewrite <- app_assoc in J1. exact J1.
    + destruct (IH F (past ++ [NothingThere]) air) as [I1 I2].
      { intros d0 H0. destruct (A d0 H0) as [q [q' [J1 J2]]]. exists q, q'. split; [apply in_or_app; now left | exact J2]. }
      split; [intros q [X|X]; [discriminate | exact (I1 q X)]|].
      intros j d0 sz r E. destruct j as [|j]; [discriminate|]. cbn [nth_error firstn] in *.
      destruct (I2 j d0 sz r E) as [q [q' [J1 J2]]]. exists q, q'. split; [|exact J2].
      rewrite <- app_assoc in J1. exact J1.
Qed.
Theorem C76_exercise : forall m acts, Forall (sendable m) (sends acts) ->
  let es := exercise m acts [] in
  (forall p, ~ In (SenderCrashed p) es) /\
  (forall i d size r, nth_error es i = Some (Received d size r) -> exists p p',
     In (WasSent p p' d) (firstn i es) /\ experience m p' d size r).
Proof.
  intros m acts F. destruct (exercise_air m acts F [] []) as [A B]; [intros d []|]. split; [exact A|].
  intros i d size r E. destruct (B i d size r E) as [p [p' [J1 [J2 _]]]]. exists p, p'. split; assumption.
Qed.

(** In particular, with receive buffers as large as the datagrams nobody ever panics and
    everything received is the PDU some sender sent. *)
Theorem C76_nobody_crashes : forall m acts, Forall (sendable m) (sends acts) ->
  forall i d size r, nth_error (exercise m acts []) i = Some (Received d size r) -> (length d <= size)%nat ->
  exists p p' q, In (WasSent p p' d) (firstn i (exercise m acts [])) /\ r = Ok (Some q) /\ same_numbers m p' q.
Proof.
  intros m acts F i d size r E L. destruct (exercise_air m acts F [] []) as [_ B]; [intros ? []|].
  destruct (B i d size r E) as [p [p' [J1 [J2 [J3 J4]]]]].
  destruct J2 as [[K _]|[[[_ K] _]|[_ [q [-> Q]]]]]; [lia|lia|]. exists p, p', q. split; [exact J1|]. split; [reflexivity | exact Q].
Qed.

(** The hypotheses are needed. A report that announces one record and carries none is sent
    without complaint and panics whoever receives it, with a buffer of any size. *)
Definition miscounted : pdu InformationOperationsReportPdu :=
  let p := pdu_new InformationOperationsReportPdu (as_u32 1) in
  let b := body p in
  mk_pdu (c := InformationOperationsReportPdu) (header p)
    (fst b, (fst (snd b), (fst (snd (snd b)), (fst (snd (snd (snd b))), (fst (snd (snd (snd (snd b)))), (fst (snd (snd (snd (snd (snd b))))),
     (fst (snd (snd (snd (snd (snd (snd b)))))), (fst (snd (snd (snd (snd (snd (snd (snd b))))))),
      (mk_StandardVariableSpecification (as_u16 1) [], tt))))))))).
Theorem C76_miscounted_refuted : forall m, exists p p' d, forall size, (length d <= size)%nat ->
  exercise m [Send p; Deliver 0 size] [] = [WasSent p p' d; Received d size (Panic Underflow)].
Proof.
  intros m. exists (existT _ InformationOperationsReportPdu miscounted).
  assert (E : match serialize InformationOperationsReportPdu miscounted [] with
    | Ok (ROk _, _, d) => map (uval (k := 1)) d | _ => [] end =
    [7; 1; 71; 13; 0; 0; 0; 1; 0; 40; 0; 0; 0; 1; 0; 1; 0; 0; 0; 0; 0; 0; 0; 1; 0; 1; 0; 0; 0; 1; 0; 1; 0; 0; 0; 0; 0; 0; 0; 1]) by (vm_compute; reflexivity).
  destruct (serialize InformationOperationsReportPdu miscounted []) as [[[[[]|e] p'] d]|e] eqn:S; [|discriminate E ..].
  exists (existT _ InformationOperationsReportPdu p'), d. intros size L. cbn [exercise]. rewrite S. cbn [app nth_error].
  rewrite firstn_all2 by exact L. do 2 f_equal. f_equal. clear L S.
  assert (E' : d = map B (map (uval (k := 1)) d)) by (rewrite map_map; symmetry; rewrite <- map_id; apply map_ext; intros b; apply as_uint_id).
  rewrite E', E. destruct m; vm_compute; reflexivity.
Qed.

(** And a receiver whose buffer is smaller than a Fire PDU panics when one arrives. *)
Theorem C76_small_buffer_refuted : forall m size, (12 <= size < 96)%nat -> exists d p',
  let p := existT pdu FirePdu (pdu_new FirePdu (as_u32 1)) in
  sendable m p /\ length d = 96%nat /\
  exercise m [Send p; Deliver 0 size] [] = [WasSent p p' d; Received d size (Panic Underflow)].
Proof.
  intros m size L. set (p := existT pdu FirePdu (pdu_new FirePdu (as_u32 1))).
  assert (Sp : sendable m p).
  { apply sendable_plain; [unfold all_pdus; repeat (first [left; reflexivity | right])|]. cbn. intuition discriminate. }
  assert (Ld : match serialize FirePdu (pdu_new FirePdu (as_u32 1)) [] with Ok (ROk _, _, d) => length d | _ => 0%nat end = 96%nat) by (vm_compute; reflexivity).
  destruct (serialize FirePdu (pdu_new FirePdu (as_u32 1)) []) as [[[[[]|e] p'] d]|e] eqn:S; [|discriminate Ld ..].
  exists d, (existT _ FirePdu p'). cbv zeta. split; [exact Sp|]. split; [exact Ld|].
  subst p. cbn [exercise]. rewrite S. cbn [app nth_error]. do 2 f_equal. f_equal.
  destruct (delivery m (existT pdu FirePdu (pdu_new FirePdu (as_u32 1))) p' d size Sp S) as [[K _]|[[_ K]|[K _]]]; [lia | exact K|]. exfalso.
  change (bytes_needed _ d) with 96%nat in K. lia.
Qed.

(** A concrete exercise: two different PDUs are sent; the second arrives first, the first
    arrives twice, once cut to its header; what was never sent never arrives. *)
Example C76_example : forall m,
  let fire := existT pdu FirePdu (pdu_new FirePdu (as_u32 7)) in
  let detonation := existT pdu DetonationPdu (pdu_new DetonationPdu (as_u32 9)) in
  let acts := [Deliver 0 1500; Send fire; Send detonation; Deliver 1 1500; Deliver 0 1500; Deliver 0 11; Deliver 0 1500; Deliver 2 1500] in
  Forall (sendable m) (sends acts) /\
  map (fun e => match e with WasSent _ _ d => (1, lenN d) | Received _ _ (Ok (Some p)) => (2, code (cls_type (class_of p)))
                           | Received _ _ (Ok None) => (3, 0) | NothingThere => (4, 0) | _ => (5, 0) end) (exercise m acts []) =
  [(4, 0); (1, 96); (1, 104); (2, 3); (2, 2); (3, 0); (2, 2); (4, 0)].
Proof.
  intros m fire detonation acts. split.
  - repeat apply Forall_cons; try apply Forall_nil;
    (apply sendable_plain; [unfold all_pdus; repeat (first [left; reflexivity | right])|]; cbn; intuition discriminate).
  - destruct m; vm_compute; reflexivity.
Qed.

(** What the theorems above rest on (one traversal for all of them; not part of the model). *)
Definition Prop_Exercise_theorems : True :=
  let _ := @C76_exercise in
  let _ := @C76_nobody_crashes in
  let _ := @C76_miscounted_refuted in
  let _ := @C76_small_buffer_refuted in
  I.
Print Assumptions Prop_Exercise_theorems.
