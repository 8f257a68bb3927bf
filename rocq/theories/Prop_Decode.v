(** * C65: what decoding returns, completely.

    [regular] is defined in [SpecDecode]; [layouts] (one entry per class: the numbers of its
    fixed part and where that part ends) in [SpecLayout]; [received] in [Wire]; the numbers of
    the header ([header_entries]) in [SpecFaults]; [clear_lists] in [Spec]. *)
From Verif Require Import Base BaseFacts EnumModel Enums EnumFacts Header HeaderProofs PduMacro DataTypes Bitflags Pdus PduFields
  Spec SpecDatum SpecSpecial ClassFacts PduProofs Wire WireMaps WireProofs WireClass SpecFaults Prop_Faults SpecLayout TailFacts LayoutFacts RecLayoutFacts
  RecordFacts DatumFacts Prop_Relay
  SpecialFacts SpecialOthers Prop_Special Prop_Transmitter Prop_Aggregate Prop_Specs Prop_Needed DecodeFacts DecodeSpecial DecodeTail SpecDecode.

(** Decoding succeeds with [p] and [rest] if and only if the type byte is the class's own, the
    fixed part is there, every number of [p] is the one at its place (unknown enumeration codes
    and undeclared flags replaced), its lists are empty, and [rest] is what follows. *)
Definition decoded (l : pdu_layout) (bs : bytes) (p : pdu (pl_class l)) (rest : bytes) : Prop :=
  wire_type bs = code (cls_type (pl_class l)) /\ (pl_end l <= length bs)%nat /\ rest = skipn (pl_end l) bs /\
  Forall (received bs p) (header_entries ++ pl_map l) /\ clear_lists p = p.

Lemma flag_decode m l : In l (layouts m) -> N.of_nat (pl_end l) = default_size (pl_class l) ->
  (forall bs, bytes_needed (pl_class l) bs = pl_end l) -> (forall bs, ~ decode_overflows m (pl_class l) bs) ->
  (forall bs p rest, deserialize (pl_class l) bs = Ok (ROk p, rest) -> clear_lists p = p) ->
  (forall p q : pdu (pl_class l), Forall (fun e => en_get e p = en_get e q) (pl_map l) -> clear_lists p = p -> clear_lists q = q -> body p = body q) ->
  forall bs p rest, deserialize (pl_class l) bs = Ok (ROk p, rest) <-> decoded l bs p rest.
Proof.
  intros I En Nd Ov Cl Ag bs. assert (Ic := layout_class m l I). assert (Im := layout_map m l I).
  apply (determined (pl_class l) bs (wire_type bs = code (cls_type (pl_class l)) /\ (pl_end l <= length bs)%nat)).
  - intros p r (T & L & _). exact (conj T L).
  - intros [T L]. destruct (C14_bytes_read m _ bs Ic T) as [p D]; [rewrite Nd; exact L | apply Ov | eauto].
  - intros p r D. destruct (accept_type _ _ _ _ D) as [_ T].
    assert (L : (pl_end l <= length bs)%nat).
    { destruct (Nat.lt_ge_cases (length bs) (pl_end l)) as [K|K]; [|exact K]. exfalso.
      destruct (proj2 (C14_panics_iff m _ bs Ic)) as [e E]; [right; split; [exact T | left; rewrite Nd; exact K]|]. rewrite E in D. discriminate. }
    split; [exact T|]. split; [exact L|]. split; [|split].
    + destruct (C14_bytes_read m _ bs Ic T) as [q E]; [rewrite Nd; exact L | apply Ov|]. rewrite E in D. injection D as _ <-. now rewrite Nd.
    + apply Forall_app. split; [exact (header_received _ _ _ _ D) | exact (map_received m _ Im _ _ _ D)].
    + exact (Cl _ _ _ D).
  - intros p r q s (_ & _ & -> & Rp & Cp) (_ & _ & -> & Rq & Cq). split; [|reflexivity].
    assert (A := received_agree _ _ _ _ Rp Rq). apply Forall_app in A. destruct A as [A1 A2].
    apply body_eq; [exact (header_entries_inj _ _ _ A1) | exact (Ag p q A2 Cp Cq)].
Qed.

Lemma no_overflow_other m c bs : cls_name c <> "TransferOwnershipPdu"%string -> cls_name c <> "SetRecordReliablePdu"%string -> ~ decode_overflows m c bs.
Proof. intros A B [_ [[H|H] _]]; contradiction. Qed.
Lemma unread_clear c : Forall (unread_field (list_fields c)) (cls_fields c) -> forall bs p rest,
  deserialize c bs = Ok (ROk p, rest) -> clear_lists p = p.
Proof.
  intros U bs p rest D. destruct (accept_type _ _ _ _ D) as [H E].
  destruct (deserialize_cases c bs H) as [h [_ [_ T]]]. rewrite T, E, N.eqb_refl in D. unfold deserialize_without_header in D.
  destruct (body_deserialize _ _ _) as [[b r]|] eqn:B; [|discriminate]. injection D as <- _.
  unfold clear_lists. cbn [header body]. rewrite (decoded_reset _ _ U _ _ _ _ B). reflexivity.
Qed.
Ltac unread_tac := repeat (apply Forall_cons; [intros M; first [vm_compute in M; discriminate M | split; [reflexivity | intros ?; reflexivity]]|]); apply Forall_nil.

Definition flag_ok l := forall bs p rest, deserialize (pl_class l) bs = Ok (ROk p, rest) <-> decoded l bs p rest.
Lemma sf_decoded (m : profile) : flag_ok (mk_pdu_layout StopFreezePdu StopFreezePdu_map 40 (fun _ => [])).
Proof.
  refine (flag_decode m (mk_pdu_layout StopFreezePdu StopFreezePdu_map 40 (fun _ => [])) _ _ _ _ _ _); cbn [pl_class pl_map pl_end].
  - apply (nth_error_In _ 34). reflexivity.
  - reflexivity.
  - reflexivity.
  - intros; apply no_overflow_other; discriminate.
  - apply unread_clear. unread_tac.
  - intros p q F _ _. exact (sf_agree p q F).
Qed.
Lemma sfr_decoded (m : profile) : flag_ok (mk_pdu_layout StopFreezeReliablePdu StopFreezeReliablePdu_map 40 (fun _ => [])).
Proof.
  refine (flag_decode m (mk_pdu_layout StopFreezeReliablePdu StopFreezeReliablePdu_map 40 (fun _ => [])) _ _ _ _ _ _); cbn [pl_class pl_map pl_end].
  - apply (nth_error_In _ 46). reflexivity.
  - reflexivity.
  - reflexivity.
  - intros; apply no_overflow_other; discriminate.
  - apply unread_clear. unread_tac.
  - intros p q F _ _. exact (sfr_agree p q F).
Qed.
Lemma ao_decoded (m : profile) : flag_ok (mk_pdu_layout ArealObjectStatePdu ArealObjectStatePdu_map 48 ArealObjectStatePdu_tail).
Proof.
  refine (flag_decode m (mk_pdu_layout ArealObjectStatePdu ArealObjectStatePdu_map 48 ArealObjectStatePdu_tail) _ _ _ _ _ _); cbn [pl_class pl_map pl_end].
  - apply (nth_error_In _ 61). reflexivity.
  - reflexivity.
  - reflexivity.
  - intros; apply no_overflow_other; discriminate.
  - apply unread_clear. unread_tac.
  - intros p q F Cp Cq. apply (ao_agree p q F); [rewrite <- Cp | rewrite <- Cq]; reflexivity.
Qed.

Theorem C65_decode_iff : forall m l bs p rest, In l (layouts m) -> regular (pl_class l) ->
  (deserialize (pl_class l) bs = Ok (ROk p, rest) <-> decoded l bs p rest).
Proof.
  intros m l bs p rest I R.
  destruct (mem_string (cls_name (pl_class l)) special_pdus) eqn:E; [|exact (decode_spec m l I E bs p rest)].
  revert bs p rest. change (flag_ok l).
  enough (G : Forall (fun l => mem_string (cls_name (pl_class l)) special_pdus = true -> regular (pl_class l) -> flag_ok l) (layouts m)).
  { rewrite Forall_forall in G. exact (G l I E R). }
  clear l I R E. unfold layouts.
  repeat (apply Forall_cons; [first [intros E; discriminate E | intros _ E; discriminate E
    | intros _ _; first [exact (sf_decoded m) | exact (sfr_decoded m) | exact (ao_decoded m)]]|]); apply Forall_nil.
Qed.

(** ** The irregular classes *)

(** Entity state: the marking string is replaced by the number of bytes left, in decimal, and
    the capabilities are read from the place of the marking string. *)
Theorem C65_entity_state : forall bs p rest,
  deserialize EntityStatePdu bs = Ok (ROk p, rest) <->
  wire_type bs = 1 /\ (133 <= length bs)%nat /\ rest = skipn 133 bs /\
  Forall (received bs p) (header_entries ++ EntityStatePdu_map) /\
  decimal_of (N.of_nat (length bs) - 129) (EntityMarking_entity_marking_string (EntityStatePdu_entity_marking p)) /\
  code (EntityStatePdu_entity_capabilities p) = known EntityCapabilities_spec (be4_at bs 129) /\
  EntityStatePdu_articulation_parameter p = [].
Proof.
  intros bs. apply (determined EntityStatePdu bs (wire_type bs = 1 /\ (133 <= length bs)%nat)).
  - intros p r (T & L & _). exact (conj T L).
  - intros [T L]. destruct (proj2 (C28_entity_state_decode bs T) L) as [p [D _]]. eauto.
  - intros p r D. destruct (accept_type _ _ _ _ D) as [_ T]. change (wire_type bs = 1) in T. split; [exact T|].
    destruct (C28_entity_state_decode bs T) as [H1 H2].
    assert (L : (133 <= length bs)%nat) by (destruct (Nat.lt_ge_cases (length bs) 133) as [K|K]; [rewrite (H1 K) in D; discriminate | exact K]).
    destruct (H2 L) as [q [D' [_ [X [Y Z]]]]]. rewrite D' in D. injection D as -> <-. split; [exact L|]. split; [reflexivity|]. split; [|auto].
    apply Forall_app. split; [exact (header_received _ _ _ _ D')|].
    refine (map_received Checked (mk_pdu_map EntityStatePdu EntityStatePdu_map 129) _ _ _ _ D'). apply (nth_error_In _ 5). reflexivity.
  - intros p r q s (_ & _ & -> & Rp & Xp & Yp & Zp) (_ & _ & -> & Rq & Xq & Yq & Zq). split; [|reflexivity].
    assert (A := received_agree _ _ _ _ Rp Rq). apply Forall_app in A. destruct A as [A1 A2].
    apply body_eq; [exact (header_entries_inj _ _ _ A1)|]. apply (es_agree p q A2); [exact (decimal_unique _ _ _ Xp Xq) | apply enum_eq; congruence | congruence].
Qed.

(** Transmitter: the length byte at 100 says how many bytes of modulation parameters are read. *)
Theorem C65_transmitter : forall bs p rest, let n := N.to_nat (byte_at bs 100) in
  deserialize TransmitterPdu bs = Ok (ROk p, rest) <->
  wire_type bs = 25 /\ (104 + n <= length bs)%nat /\ rest = skipn (104 + n) bs /\
  Forall (received bs p) (header_entries ++ TransmitterPdu_map) /\
  TransmitterPdu_modulation_parameters p = (if Nat.eqb n 0 then None else Some (mk_ModulationParameters (slice 104 n bs))) /\
  TransmitterPdu_antenna_pattern p = None /\ TransmitterPdu_variable_transmitter_parameters p = [].
Proof.
  intros bs p rest n. revert p rest. apply (determined TransmitterPdu bs (wire_type bs = 25 /\ (104 + n <= length bs)%nat)).
  - intros p r (T & L & _). exact (conj T L).
  - intros [T L]. destruct (proj2 (C29_transmitter_decode bs T) L) as [p [D _]]. eauto.
  - intros p r D. destruct (accept_type _ _ _ _ D) as [_ T]. change (wire_type bs = 25) in T. split; [exact T|].
    destruct (C29_transmitter_decode bs T) as [H1 H2]. cbv zeta in H1, H2. fold n in H1, H2.
    assert (L : (104 + n <= length bs)%nat) by (destruct (Nat.lt_ge_cases (length bs) (104 + n)) as [K|K]; [rewrite (H1 K) in D; discriminate | exact K]).
    destruct (H2 L) as [q [D' [_ [X [X' [Y Z]]]]]]. rewrite D' in D. injection D as -> <-. split; [exact L|]. split; [reflexivity|]. split; [|split; [|auto]].
    + apply Forall_app. split; [exact (header_received _ _ _ _ D')|].
      refine (map_received Checked (mk_pdu_map TransmitterPdu TransmitterPdu_map 104) _ _ _ _ D'). apply (nth_error_In _ 26). reflexivity.
    + destruct (Nat.eqb_spec n 0) as [E|E]; [exact (X E) | exact (X' E)].
  - intros p r q s (_ & _ & -> & Rp & Xp & Yp & Zp) (_ & _ & -> & Rq & Xq & Yq & Zq). split; [|reflexivity].
    assert (A := received_agree _ _ _ _ Rp Rq). apply Forall_app in A. destruct A as [A1 A2].
    apply body_eq; [exact (header_entries_inj _ _ _ A1)|]. apply (tx_agree p q A2); congruence.
Qed.

(** Aggregate state: the lists are empty and the count is read right behind the fixed part. *)
Theorem C65_aggregate_state : forall bs p rest,
  deserialize AggregateStatePdu bs = Ok (ROk p, rest) <->
  wire_type bs = 33 /\ (136 <= length bs)%nat /\ rest = skipn 136 bs /\
  Forall (received bs p) (header_entries ++ AggregateStatePdu_map) /\
  uval (AggregateStatePdu_number_of_variable_datum_records p) = be4_at bs 132 /\
  AggregateStatePdu_aggregate_id_list p = [] /\ AggregateStatePdu_entity_id_list p = [] /\ AggregateStatePdu_padding p = [] /\
  AggregateStatePdu_silent_aggregate_system_list p = [] /\ AggregateStatePdu_silent_entity_system_list p = [] /\
  AggregateStatePdu_variable_datum_list p = [].
Proof.
  intros bs. apply (determined AggregateStatePdu bs (wire_type bs = 33 /\ (136 <= length bs)%nat)).
  - intros p r (T & L & _). exact (conj T L).
  - intros [T L]. destruct (proj2 (C45_aggregate_decode bs T) L) as [p [D _]]. eauto.
  - intros p r D. destruct (accept_type _ _ _ _ D) as [_ T]. change (wire_type bs = 33) in T. split; [exact T|].
    destruct (C45_aggregate_decode bs T) as [H1 H2].
    assert (L : (136 <= length bs)%nat) by (destruct (Nat.lt_ge_cases (length bs) 136) as [K|K]; [rewrite (H1 K) in D; discriminate | exact K]).
    destruct (H2 L) as [q [D' (X1 & X2 & X3 & X4 & X5 & X6 & X7)]]. rewrite D' in D. injection D as -> <-. split; [exact L|]. split; [reflexivity|]. split; [|auto 8].
    apply Forall_app. split; [exact (header_received _ _ _ _ D')|].
    refine (map_received Checked (mk_pdu_map AggregateStatePdu AggregateStatePdu_map 132) _ _ _ _ D'). apply (nth_error_In _ 10). reflexivity.
  - intros p r q s (_ & _ & -> & Rp & X1 & X2 & X3 & X4 & X5 & X6 & X7) (_ & _ & -> & Rq & Y1 & Y2 & Y3 & Y4 & Y5 & Y6 & Y7). split; [|reflexivity].
    assert (A := received_agree _ _ _ _ Rp Rq). apply Forall_app in A. destruct A as [A1 A2].
    apply body_eq; [exact (header_entries_inj _ _ _ A1)|]. apply (ag_agree p q A2); congruence.
Qed.

(** ** Completeness of the maps: a value is determined by its numbers and lists *)
Theorem C65_map_complete : forall m l (p q : pdu (pl_class l)), In l (layouts m) -> ordinary (pl_class l) ->
  clear_lists p = p -> clear_lists q = q ->
  Forall (fun e => en_get e p = en_get e q) (header_entries ++ pl_map l) -> p = q.
Proof. intros m l p q I O. exact (maps_complete m l I O p q). Qed.

(** ** Concretely: a stop/freeze datagram of 42 bytes *)
Definition stop_freeze_bytes : bytes :=
  map B ([7; 1; 14; 5; 0; 0; 0; 9; 0; 40; 0; 0] ++ [0; 1; 0; 2; 0; 3] ++ [0; 4; 0; 5; 0; 6] ++ [0; 0; 0; 7; 0; 0; 0; 8] ++
         [2; 8; 0; 0] ++ [0; 0; 0; 11] ++ [99; 98]).
Definition stop_freeze_layout := mk_pdu_layout StopFreezePdu StopFreezePdu_map 40 (fun _ => []).
Example C65_example : In stop_freeze_layout (layouts Checked) /\ regular (pl_class stop_freeze_layout) /\
  exists p, decoded stop_freeze_layout stop_freeze_bytes p [B 99; B 98] /\
    uval (EntityId_entity_id (StopFreezePdu_receiving_entity_id p)) = 6 /\ code (StopFreezePdu_reason p) = 2 /\
    uval (bits (StopFreezePdu_frozen_behavior p)) = 0 (* 8 is not a declared flag *) /\ uval (StopFreezePdu_request_id p) = 11.
Proof.
  assert (I : In stop_freeze_layout (layouts Checked)) by (apply (nth_error_In _ 34); reflexivity).
  split; [exact I|]. split; [reflexivity|].
  assert (X : exists p, deserialize StopFreezePdu stop_freeze_bytes = Ok (ROk p, [B 99; B 98]) /\
    uval (EntityId_entity_id (StopFreezePdu_receiving_entity_id p)) = 6 /\ code (StopFreezePdu_reason p) = 2 /\
    uval (bits (StopFreezePdu_frozen_behavior p)) = 0 /\ uval (StopFreezePdu_request_id p) = 11).
  { destruct (deserialize StopFreezePdu stop_freeze_bytes) as [[[p|e] r]|e] eqn:D; [|exfalso; revert D; vm_compute; discriminate..].
    assert (V : match deserialize StopFreezePdu stop_freeze_bytes with
      | Ok (ROk p, r) => (map (@uval 1) r, [uval (EntityId_entity_id (StopFreezePdu_receiving_entity_id p)); code (StopFreezePdu_reason p);
                           uval (bits (StopFreezePdu_frozen_behavior p)); uval (StopFreezePdu_request_id p)])
      | _ => ([], []) end = ([99; 98], [6; 2; 0; 11])) by (vm_compute; reflexivity).
    rewrite D in V. injection V as R V1 V2 V3 V4. exists p.
    destruct r as [|a [|b [|c r]]]; try discriminate R. injection R as Ra Rb.
    assert (a = B 99) by (apply uint_eq; exact Ra). assert (b = B 98) by (apply uint_eq; exact Rb). subst. auto 8. }
  destruct X as [p [D V]]. exists p. split; [|exact V]. exact (proj1 (C65_decode_iff Checked stop_freeze_layout _ p _ I eq_refl) D).
Qed.

(** What the theorems above rest on (one traversal for all of them; not part of the model). *)
Definition Prop_Decode_theorems : True :=
  let _ := @C65_decode_iff in
  let _ := @C65_entity_state in
  let _ := @C65_transmitter in
  let _ := @C65_aggregate_state in
  let _ := @C65_map_complete in
  I.
Print Assumptions Prop_Decode_theorems.
