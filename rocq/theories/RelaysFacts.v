(** * Lemmas for exercises with relays (C77). *)
From Verif Require Import Base BaseFacts EnumModel Enums EnumFacts Fixed Header HeaderFacts HeaderProofs PduMacro PduMacroFacts
  DataTypes DataTypesFacts Bitflags Pdus PduFields PdusFacts ClassFacts RecordFacts PduProofs Spec SpecDatum SpecSpecial Wire WireMaps WireFacts WireProofs WireClass
  Prop_Header Prop_Pdu Prop_Specs Prop_Special Prop_Aggregate Prop_Transmitter Prop_Needed Prop_Wire Prop_Relay SpecFaults Prop_Faults Prop_Local Prop_Macro Prop_Numbers
  SpecExercise Prop_Exercise SpecRelays.

(** ** The entries of the maps *)
Definition idem (f : N -> N) : Prop := forall n, f (f n) = f n.
Lemma idem_id : idem (fun n => n).
Proof. intros n. reflexivity. Qed.
Lemma idem_known e : idem (known e).
Proof.
  intros n. unfold known. destruct (existsb (N.eqb n) (e_codes e)) eqn:E; [now rewrite E|].
  destruct (existsb (N.eqb (e_default e)) (e_codes e)); reflexivity.
Qed.
Lemma idem_mask d : idem (fun n => if N.land n d =? n then n else 0).
Proof.
  intros n. destruct (N.land n d =? n) eqn:E; [now rewrite E|]. now destruct (N.land 0 d =? 0).
Qed.
Ltac idem_tac := first [apply idem_id | apply idem_known | apply idem_mask].
Definition settled {T} (e : entry T) : Prop :=
  idem (en_norm e) /\ ((forall v, en_put e v = en_get e v) \/ (forall v w, en_put e v = en_put e w)).
Definition of_body {c} (e : entry (pdu c)) : Prop := forall h h' b, en_put e (mk_pdu (c := c) h b) = en_put e (mk_pdu (c := c) h' b).
Lemma num_ok {c} off w name (f : pdu c -> N) : (forall h h' b, f (mk_pdu h b) = f (mk_pdu h' b)) -> settled (num off w name f) /\ of_body (num off w name f).
Proof. intros H. split; [split; [apply idem_id | left; reflexivity] | exact H]. Qed.
Lemma cod_ok {c} off w s name (f : pdu c -> N) : (forall h h' b, f (mk_pdu h b) = f (mk_pdu h' b)) -> settled (cod off w s name f) /\ of_body (cod off w s name f).
Proof. intros H. split; [split; [apply idem_known | left; reflexivity] | exact H]. Qed.
Lemma flg_ok {c} off w s name (f : pdu c -> N) : (forall h h' b, f (mk_pdu h b) = f (mk_pdu h' b)) -> settled (flg off w s name f) /\ of_body (flg off w s name f).
Proof. intros H. split; [split; [apply idem_mask | left; reflexivity] | exact H]. Qed.
Lemma lost_ok {c} off w name (f : pdu c -> N) : settled (lost off w name f) /\ of_body (lost off w name f).
Proof. split; [split; [apply idem_id | right; reflexivity] | intros ? ? ?; reflexivity]. Qed.
Lemma all_settled m : Forall (fun x => Forall (fun e => settled e /\ of_body e) (pm_entries x)) (wire_maps m).
Proof.
  unfold wire_maps.
  repeat (apply Forall_cons; [cbn [pm_entries pm_class];
    match goal with |- Forall _ (?h _) => unfold h | |- Forall _ ?h => unfold h end;
    repeat (apply Forall_cons; [first [ simple apply num_ok; intros ? ? ?; reflexivity | simple apply cod_ok; intros ? ? ?; reflexivity
      | simple apply flg_ok; intros ? ? ?; reflexivity | simple apply lost_ok ]|]); apply Forall_nil|]).
  apply Forall_nil.
Qed.

(** ** One relay *)
Lemma relay_numbers m x (p' q q' : pdu (pm_class x)) d len1 h0 : In x (wire_maps m) ->
  stamped (cls_type (pm_class x)) (cls_family (pm_class x)) len1 h0 (header p') ->
  Forall (fun e => en_off e = 8%nat \/ en_get e q = en_norm e (en_put e p')) (datagram_entries x) ->
  serialize (pm_class x) q [] = Ok (ROk tt, q', d) -> body q' = body q ->
  Forall (fun e => en_off e = 8%nat \/ en_norm e (en_put e q') = en_norm e (en_put e p')) (datagram_entries x).
Proof.
  intros Ix St F S Eb.
  assert (Ic : In (pm_class x) (all_pdus m)) by (rewrite <- (proj1 (C43_maps m)); now apply in_map).
  destruct (C07_serialize_appends_and_stamps m _ q [] q' d Ic S) as [len [fs [_ [St' _]]]].
  unfold datagram_entries in *. apply Forall_app in F as [Fh Fb]. apply Forall_app. split.
  - destruct St as [_ [_ [_ [_ [_ [T1 [F1 _]]]]]]]. destruct St' as [V [X [Ts [Sr [Pd [T2 [F2 _]]]]]]].
    unfold header_entries in *. rewrite !Forall_cons_iff in Fh. cbn [en_off en_norm en_put en_get num cod] in Fh.
    destruct Fh as [H1 [H2 [H3 [H4 [H5 [H6 [H7 [H8 _]]]]]]]].
    repeat apply Forall_cons; try apply Forall_nil; cbn [en_off en_norm en_put en_get num cod].
    + right. rewrite V. destruct H1 as [|H1]; [discriminate|]. rewrite H1. apply idem_known.
    + right. rewrite X. destruct H2 as [|H2]; [discriminate|]. exact H2.
    + right. rewrite T1, T2. reflexivity.
    + right. rewrite F1, F2. reflexivity.
    + right. rewrite Ts. destruct H5 as [|H5]; [discriminate|]. exact H5.
    + left. reflexivity.
    + right. rewrite Sr. destruct H7 as [|H7]; [discriminate|]. exact H7.
    + right. rewrite Pd. destruct H8 as [|H8]; [discriminate|]. exact H8.
  - assert (A := all_settled m). rewrite Forall_forall in A, Fb |- *. specialize (A x Ix). rewrite Forall_forall in A.
    intros e He. destruct (A e He) as [[I D] O]. destruct (Fb e He) as [E|E]; [now left|]. right.
    assert (O' : en_put e q' = en_put e q) by (clear - O Eb; destruct q as [hq bq], q' as [hq' bq']; cbn [PduMacro.body] in Eb; subst bq'; apply O).
    rewrite O'. destruct D as [D|D]; [rewrite D, E; apply I | now rewrite (D q p')].
Qed.

(** What arrives of a datagram that was serialized from a sendable PDU. *)
Lemma es_decode m c bs : In c (all_pdus m) -> cls_name c = "EntityStatePdu"%string -> wire_type bs = code (cls_type c) ->
  bytes_needed c bs = 133%nat /\
  ((length bs < 133)%nat -> deserialize c bs = Panic Underflow) /\
  ((133 <= length bs)%nat -> exists p, deserialize c bs = Ok (ROk p, skipn 133 bs)).
Proof.
  intros I E. rewrite (entity_state_class m c I E). intros T. destruct (C28_entity_state_decode bs T) as [A B].
  split; [reflexivity|]. split; [exact A|]. intros L. destruct (B L) as [p [D _]]. eauto.
Qed.
Lemma es_no_attr m c : In c (all_pdus m) -> cls_name c = "EntityStatePdu"%string -> Forall (fun f => f_len_attr f = None) (cls_fields c).
Proof. intros I E. rewrite (entity_state_class m c I E). no_attrs. Qed.
Lemma arrival m x (q q' : pdu (pm_class x)) d k : In x (wire_maps m) -> sendable m (existT _ (pm_class x) q) ->
  serialize (pm_class x) q [] = Ok (ROk tt, q', d) ->
  ((k < 12)%nat /\ receive m (firstn k d) = Ok None) \/
  ((12 <= k < bytes_needed (pm_class x) d)%nat /\ receive m (firstn k d) = Panic Underflow) \/
  ((bytes_needed (pm_class x) d <= k)%nat /\ exists r rest, receive m (firstn k d) = Ok (Some (existT _ (pm_class x) r)) /\
     deserialize (pm_class x) (firstn k d) = Ok (ROk r, rest) /\
     Forall (fun e => en_get e r = en_norm e (en_put e q')) (datagram_entries x)).
Proof.
  intros Ix H S. assert (Ic := sendable_in m _ H). destruct (sendable_decodes m (existT _ (pm_class x) q) q' d H S) as [q0 [rest0 D0]].
  destruct (datagram_whole m (existT _ (pm_class x) q) q' d H S) as [Ld Ln]. cbn [projT1 projT2 class_of] in *. clear H.
  destruct (decoded_type _ _ _ _ D0) as [_ T].
  destruct (Nat.lt_ge_cases k 12) as [K|K].
  { left. split; [exact K|]. unfold receive. rewrite get_pdu_type_short; [reflexivity|]. rewrite firstn_length. lia. }
  right. assert (Lk : (12 <= length (firstn k d))%nat) by (rewrite firstn_length; lia).
  assert (Tk : wire_type (firstn k d) = code (cls_type (pm_class x))) by (rewrite wire_type_firstn by lia; exact T).
  rewrite (receive_own m _ _ Ic Lk Tk). set (need := bytes_needed (pm_class x) d) in *.
  destruct (String.eqb_spec (cls_name (pm_class x)) "EntityStatePdu") as [Es|Es].
  - destruct (es_decode m _ _ Ic Es Tk) as [_ [Sh Lg]]. destruct (es_decode m _ _ Ic Es T) as [En _]. fold need in En.
    destruct (Nat.lt_ge_cases k need) as [C|C].
    + left. split; [lia|]. rewrite Sh; [reflexivity|]. rewrite firstn_length. lia.
    + right. split; [exact C|]. destruct Lg as [r Dr]; [rewrite firstn_length; lia|]. rewrite Dr.
      exists r, (skipn 133 (firstn k d)). split; [reflexivity|]. split; [reflexivity|].
      assert (Of := entity_state_offsets m x Ix (entity_state_class m _ Ic Es)).
      destruct (C61_maps m x Ix) as [_ [W R]].
      specialize (W q [] q' d S). specialize (R _ r _ Dr). assert (F := map_fits m x q' Ix).
      rewrite Forall_forall in *. intros e He. specialize (W e He). specialize (R e He). specialize (F e He). specialize (Of e He).
      unfold sent in W. unfold received in R. rewrite slice_firstn in R by lia. rewrite R, W, number_big_endian by exact F. reflexivity.
  - assert (NP : ~ ((length d < need)%nat \/ decode_overflows m (pm_class x) d)).
    { intros X. assert (P : exists e, deserialize (pm_class x) d = Panic e) by (apply (C14_panics_iff m _ d Ic); right; split; assumption).
      destruct P as [e P]. rewrite P in D0. discriminate. }
    destruct (C14_bytes_read m _ d Ic T Ln) as [q1 D1]; [tauto|]. rewrite D0 in D1. injection D1 as <- ->.
    destruct (C42_every_class m _ d _ _ Ic Es D0) as [u [Eu [U1 U2]]].
    assert (Lu : length u = need).
    { apply (f_equal (@length byte)) in Eu. rewrite app_length, skipn_length in Eu. fold need in Eu. lia. }
    destruct (Nat.lt_ge_cases k need) as [C|C].
    + left. split; [lia|]. replace (firstn k d) with (firstn k u); [rewrite U2 by lia; reflexivity|].
      rewrite Eu at 1. rewrite firstn_app. replace (k - length u)%nat with 0%nat by lia. rewrite firstn_O, app_nil_r. reflexivity.
    + right. split; [exact C|]. assert (E : firstn k d = u ++ firstn (k - need) (skipn need d)).
      { rewrite Eu at 1. rewrite firstn_app, firstn_all2 by lia. rewrite Lu. reflexivity. }
      rewrite E, U1. exists q0, (firstn (k - need) (skipn need d)). split; [reflexivity|]. split; [reflexivity|].
      eapply numbers_arrive; eassumption.
Qed.
(** What a relay decodes can be sent again. *)
Lemma received_sendable m p : sendable m p -> forall p' d k q rest, serialize (projT1 p) (projT2 p) [] = Ok (ROk tt, p', d) ->
  deserialize (projT1 p) (firstn k d) = Ok (ROk q, rest) -> sendable m (existT _ (projT1 p) q).
Proof.
  intros H. assert (Ic := sendable_in m p H).
  assert (G : forall p' d k (q : pdu (projT1 p)) rest, cls_name (projT1 p) <> "EntityStatePdu"%string ->
    serialize (projT1 p) (projT2 p) [] = Ok (ROk tt, p', d) -> deserialize (projT1 p) (firstn k d) = Ok (ROk q, rest) ->
    exists rest', deserialize (projT1 p) (d ++ []) = Ok (ROk q, rest')).
  { intros p' d k q rest N S D. destruct (C42_every_class m _ _ _ _ Ic N D) as [u [Eu [U1 _]]].
    exists (rest ++ skipn k d). rewrite app_nil_r. rewrite <- (firstn_skipn k d) at 1. rewrite Eu, <- app_assoc. apply U1. }
  destruct H as [c v I N|v X|v X|v X|v X]; intros p' d k q rest S D; cbn [projT1 projT2] in *.
  - apply sendable_plain; assumption.
  - destruct (G p' d k q rest ltac:(discriminate) S D) as [r' D'].
    apply sendable_transfer. exact (proj2 (C25_transfer_ownership_roundtrip m v [] p' d [] S) q r' D').
  - destruct (G p' d k q rest ltac:(discriminate) S D) as [r' D'].
    apply sendable_set_record. exact (proj2 (C25_set_record_roundtrip m v [] p' d [] S) q r' D').
  - destruct (G p' d k q rest ltac:(discriminate) S D) as [r' D'].
    apply sendable_action. exact (proj2 (C23_information_action_roundtrip v [] p' d [] S) q r' D').
  - destruct (G p' d k q rest ltac:(discriminate) S D) as [r' D'].
    apply sendable_report. exact (proj2 (C23_information_report_roundtrip v [] p' d [] S) q r' D').
Qed.
Lemma relayed_body m c bs (q q' : pdu c) rest d : In c (all_pdus m) -> deserialize c bs = Ok (ROk q, rest) ->
  serialize c q [] = Ok (ROk tt, q', d) -> body q' = body q.
Proof.
  intros I D S. destruct (String.eqb_spec (cls_name c) "EntityStatePdu") as [E|E].
  - eapply C62_fields_kept; [exact (es_no_attr m c I E) | exact S].
  - destruct (C49_relay_size m c bs q rest [] I E D) as [A B].
    destruct (N.le_gt_cases (lenN bs - lenN rest) 65535) as [L|L].
    + destruct (A L) as [p' [out [S' [_ [Eb _]]]]]. rewrite S in S'. injection S' as <- _. exact Eb.
    + destruct (B L) as [p' [S' _]]. rewrite S in S'. discriminate.
Qed.

