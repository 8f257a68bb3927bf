(** * Exercises with relays (C77). Vocabulary in [SpecRelays]. *)
From Verif Require Import Base BaseFacts EnumModel Enums EnumFacts Fixed Header HeaderFacts HeaderProofs PduMacro PduMacroFacts
  DataTypes DataTypesFacts Bitflags Pdus PduFields PdusFacts ClassFacts RecordFacts PduProofs Spec SpecDatum SpecSpecial Wire WireMaps WireFacts WireProofs WireClass
  Prop_Header Prop_Pdu Prop_Specs Prop_Special Prop_Needed Prop_Wire Prop_Relay SpecFaults Prop_Faults Prop_Local Prop_Macro Prop_Numbers
  SpecialFacts SpecialDecode SpecialExtent SpecExercise Prop_Exercise SpecRelays RelaysFacts.

(** ** Any network of relays *)

(** Every datagram in the air was serialized from some sendable PDU whose numbers are those
    of a PDU originated before. *)
Definition traced (m : profile) (past : list event) (d : bytes) : Prop :=
  exists x (p0 p0' q q' : pdu (pm_class x)) d0 len h,
    In x (wire_maps m) /\ In (Originated (existT _ _ p0) (existT _ _ p0') d0) past /\
    stamped (cls_type (pm_class x)) (cls_family (pm_class x)) len h (header p0') /\
    sendable m (existT _ _ q) /\ serialize (pm_class x) q [] = Ok (ROk tt, q', d) /\
    Forall (fun e => en_off e = 8%nat \/ en_norm e (en_put e q') = en_norm e (en_put e p0')) (datagram_entries x).
Lemma traced_more m past more d : traced m past d -> traced m (past ++ more) d.
Proof.
  intros [x [p0 [p0' [q [q' [d0 [len [h [H1 [H2 H]]]]]]]]]]. exists x, p0, p0', q, q', d0, len, h.
  split; [exact H1|]. split; [apply in_or_app; now left | exact H].
Qed.
Lemma traced_origin m c (p p' : pdu c) d past : sendable m (existT _ c p) -> serialize c p [] = Ok (ROk tt, p', d) ->
  traced m (past ++ [Originated (existT _ c p) (existT _ c p') d]) d.
Proof.
  intros H S. assert (Ic : In c (all_pdus m)) by exact (sendable_in m _ H).
  destruct (proj1 (in_map_iff _ _ _) (eq_ind_r (fun l => In c l) Ic (proj1 (C43_maps m)))) as [x [Ex Ix]]. subst c.
  destruct (C07_serialize_appends_and_stamps m _ p [] p' d Ic S) as [len [fs [_ [St _]]]].
  exists x, p, p', p, p', d, len, (header p). split; [exact Ix|]. split; [apply in_or_app; right; now left|]. split; [exact St|].
  split; [exact H|]. split; [exact S|]. apply Forall_forall. intros e _. now right.
Qed.
Lemma traced_received m past d k : traced m past d ->
  exists p p' d0, In (Originated p p' d0) past /\ experience_behind_relays m p' d k (receive m (firstn k d)).
Proof.
  intros [x [p0 [p0' [q [q' [d0 [len [h [Ix [Ip [St [H [S F]]]]]]]]]]]]].
  exists (existT _ _ p0), (existT _ _ p0'), d0. split; [exact Ip|]. unfold experience_behind_relays. cbn [class_of projT1].
  destruct (arrival m x q q' d k Ix H S) as [A|[A|[K [r [rest [R [D G]]]]]]]; [now left | right; now left |].
  right. right. split; [exact K|]. exists (existT _ _ r). split; [exact R|].
  exists x, p0', r. split; [exact Ix|]. split; [reflexivity|]. split; [reflexivity|].
  rewrite Forall_forall in *. intros e He. destruct (F e He) as [E|E]; [now left|]. right. rewrite <- E. apply G, He.
Qed.
Lemma traced_relayed m past d k : traced m past d ->
  (forall e, relay m (firstn k d) = Panic e ->
     (12 <= k)%nat /\ exists p p' d0, In (Originated p p' d0) past /\ (k < bytes_needed (class_of p') d)%nat) /\
  (forall out, relay m (firstn k d) = Ok (Some out) -> traced m past out).
Proof.
  intros [x [p0 [p0' [q [q' [d0 [len [h [Ix [Ip [St [H [S F]]]]]]]]]]]]]. unfold relay.
  destruct (arrival m x q q' d k Ix H S) as [[K R]|[[K R]|[K [r [rest [R [D G]]]]]]]; rewrite R.
  - split; [intros e E; discriminate | intros out E; discriminate].
  - split; [|intros out E; discriminate]. intros e _. split; [lia|].
    exists (existT _ _ p0), (existT _ _ p0'), d0. split; [exact Ip | cbn [class_of projT1]; lia].
  - assert (Hr := received_sendable m (existT _ (pm_class x) q) H q' d k r rest S D). cbn [projT1] in Hr.
    assert (Np := sendable_serialize m _ Hr). cbn [projT1 projT2] in Np.
    destruct (serialize (pm_class x) r []) as [[[[[]|e0] r'] d2]|e0] eqn:Sr; [| |exfalso; now apply (Np e0)].
    2: { split; [intros e E; discriminate | intros out E; discriminate]. }
    split; [intros e E; discriminate|]. intros out E. injection E as <-.
    assert (Ic : In (pm_class x) (all_pdus m)) by (rewrite <- (proj1 (C43_maps m)); now apply in_map).
    assert (Eb := relayed_body m _ _ _ _ _ _ Ic D Sr).
    exists x, p0, p0', r, r', d0, len, h. split; [exact Ix|]. split; [exact Ip|]. split; [exact St|]. split; [exact Hr|]. split; [exact Sr|].
    apply (relay_numbers m x p0' r r' d2 len h Ix St); [|exact Sr|exact Eb].
    rewrite Forall_forall in *. intros e He. destruct (F e He) as [E|E]; [now left|]. right. rewrite <- E. apply G, He.
Qed.
Lemma relays_air m steps : Forall (sendable m) (origins steps) -> forall past air, (forall d, In d air -> traced m past d) ->
  let es := with_relays m steps air in
  (forall p, ~ In (OriginatorCrashed p) es) /\
  (forall i d size, nth_error es i = Some (Crashed d size) -> (12 <= size)%nat /\
     exists p p' d0, In (Originated p p' d0) (past ++ firstn i es) /\ (size < bytes_needed (class_of p') d)%nat) /\
  (forall i d size r, nth_error es i = Some (Handed d size r) -> exists p p' d0,
     In (Originated p p' d0) (past ++ firstn i es) /\ experience_behind_relays m p' d size r).
Proof.
  induction steps as [|s steps IH]; intros F past air A; cbv zeta.
  { split; [intros p []|]. split; intros [|i]; discriminate. }
  (* one event, then the rest *)
  assert (Go : forall ev steps' air', with_relays m (s :: steps) air = ev :: with_relays m steps' air' -> steps' = steps ->
    Forall (sendable m) (origins steps) -> (forall d, In d air' -> traced m (past ++ [ev]) d) ->
    (forall p, ev <> OriginatorCrashed p) ->
    (forall d size, ev = Crashed d size -> (12 <= size)%nat /\ exists p p' d0, In (Originated p p' d0) past /\ (size < bytes_needed (class_of p') d)%nat) ->
    (forall d size r, ev = Handed d size r -> exists p p' d0, In (Originated p p' d0) past /\ experience_behind_relays m p' d size r) ->
    let es := with_relays m (s :: steps) air in
    (forall p, ~ In (OriginatorCrashed p) es) /\
    (forall i d size, nth_error es i = Some (Crashed d size) -> (12 <= size)%nat /\
       exists p p' d0, In (Originated p p' d0) (past ++ firstn i es) /\ (size < bytes_needed (class_of p') d)%nat) /\
    (forall i d size r, nth_error es i = Some (Handed d size r) -> exists p p' d0,
       In (Originated p p' d0) (past ++ firstn i es) /\ experience_behind_relays m p' d size r)).
  { intros ev steps' air' E -> Fs A' N1 N2 N3. cbv zeta. rewrite E. clear E.
    destruct (IH Fs (past ++ [ev]) air' A') as [I1 [I2 I3]]. split; [|split].
    - intros p [X|X]; [exact (N1 p X) | exact (I1 p X)].
    - intros [|i] d size E; cbn [nth_error firstn] in *.
      + injection E as E. destruct (N2 d size E) as [L [p [p' [d0 [J1 J2]]]]]. split; [exact L|]. exists p, p', d0. rewrite app_nil_r. auto.
      + destruct (I2 i d size E) as [L [p [p' [d0 [J1 J2]]]]]. split; [exact L|]. exists p, p', d0. rewrite <- app_assoc in J1. auto.
    - intros [|i] d size r E; cbn [nth_error firstn] in *.
      + injection E as E. destruct (N3 d size r E) as [p [p' [d0 [J1 J2]]]]. exists p, p', d0. rewrite app_nil_r. auto.
      + destruct (I3 i d size r E) as [p [p' [d0 [J1 J2]]]]. exists p, p', d0. rewrite <- app_assoc in J1. auto. }
  assert (Am : forall ev d, In d air -> traced m (past ++ [ev]) d) by (intros ev d Hd; apply traced_more, A, Hd).
  destruct s as [[c p]|i size|i size]; cbn [origins flat_map app] in F.
  - inversion F as [|? ? Fp Fs]; subst. assert (Np := sendable_serialize m _ Fp). cbn [projT1 projT2] in Np.
    destruct (serialize c p []) as [[[[[]|e] p'] d]|e] eqn:S; [| |exfalso; now apply (Np e)].
    + eapply Go; [cbn [with_relays]; rewrite S; reflexivity | reflexivity | exact Fs | | discriminate .. ].
      intros d1 H1. apply in_app_or in H1 as [H1|[<-|[]]]; [now apply Am | exact (traced_origin m c p p' d past Fp S)].
    + eapply Go; [cbn [with_relays]; rewrite S; reflexivity | reflexivity | exact Fs | apply Am | discriminate .. ].
  - destruct (nth_error air i) as [d|] eqn:Ei.
    + eapply Go; [cbn [with_relays]; rewrite Ei; reflexivity | reflexivity | exact F | apply Am | discriminate | discriminate |].
      intros d' size' r E. injection E as <- <- <-. exact (traced_received m past d size (A d (nth_error_In _ _ Ei))).
    + eapply Go; [cbn [with_relays]; rewrite Ei; reflexivity | reflexivity | exact F | apply Am | discriminate .. ].
  - destruct (nth_error air i) as [d|] eqn:Ei.
    + destruct (traced_relayed m past d size (A d (nth_error_In _ _ Ei))) as [P O].
      destruct (relay m (firstn size d)) as [[out|]|e] eqn:R.
      * eapply Go; [cbn [with_relays]; rewrite Ei, R; reflexivity | reflexivity | exact F | | discriminate .. ].
        intros d1 H1. apply in_app_or in H1 as [H1|[<-|[]]]; [now apply Am | apply traced_more, (O out eq_refl)].
      * eapply Go; [cbn [with_relays]; rewrite Ei, R; reflexivity | reflexivity | exact F | apply Am | discriminate .. ].
      * eapply Go; [cbn [with_relays]; rewrite Ei, R; reflexivity | reflexivity | exact F | apply Am | discriminate | | discriminate].
        intros d' size' E. injection E as <- <-. exact (P e eq_refl).
    + eapply Go; [cbn [with_relays]; rewrite Ei; reflexivity | reflexivity | exact F | apply Am | discriminate .. ].
Qed.

(** Whoever sends what, however often it is relayed on the way, whatever the network loses,
    duplicates, reorders or cuts off: if all PDUs originated are sendable, no originator
    panics; a relay panics only if its receive buffer cut the datagram behind the header; and
    whoever receives enough of a datagram gets the numbers of a PDU originated before, all of
    them except the length in the header. *)
Theorem C77_relays : forall m steps, Forall (sendable m) (origins steps) ->
  let es := with_relays m steps [] in
  (forall p, ~ In (OriginatorCrashed p) es) /\
  (forall i d size, nth_error es i = Some (Crashed d size) -> (12 <= size)%nat /\
     exists p p' d0, In (Originated p p' d0) (firstn i es) /\ (size < bytes_needed (class_of p') d)%nat) /\
  (forall i d size r, nth_error es i = Some (Handed d size r) -> exists p p' d0,
     In (Originated p p' d0) (firstn i es) /\ experience_behind_relays m p' d size r).
Proof. intros m steps F. apply (relays_air m steps F [] []). intros d []. Qed.

(** ** Chains of relays *)

(** Fields that, once relayed, are sent in the same bytes for ever. *)
Definition settled_field (f : field) : Prop := f_len_attr f = None /\ forall env bs x s, field_deserialize env f bs = Ok (x, s) ->
  exists b y, c_ser (f_codec f) x = Ok b /\ (forall env' t, field_deserialize env' f (b ++ t) = Ok (y, t)) /\
    c_ser (f_codec f) y = Ok b /\ c_len (f_codec f) y = c_len (f_codec f) x.
Lemma settled_stable f : f_len_attr f = None -> stable_field true f -> settled_field f.
Proof.
  intros A S. split; [exact A|]. intros env bs x s D. destruct (S env bs x s D) as [b [W [_ [_ R]]]]. exists b, x. split; [exact W|].
  split; [|split; [exact W | reflexivity]]. intros env' t. specialize (R eq_refl t). unfold field_deserialize in *. rewrite A in *. exact R.
Qed.
Lemma settled_simid name d : settled_field (plain name SimulationIdentifier_codec d).
Proof.
  split; [reflexivity|]. intros env bs x s _. destruct (fc_ser _ _ _ SimulationIdentifier_fc x) as [b [W [_ R]]].
  exists b, (drop_reference x). split; [exact W|]. split; [intros env' t; apply R|]. split; [exact W | reflexivity].
Qed.
Lemma settled_body fs : Forall settled_field fs -> forall env bs v s, body_deserialize env fs bs = Ok (v, s) ->
  exists b w, body_serialize fs v = Ok b /\ (forall env' t, body_deserialize env' fs (b ++ t) = Ok (w, t)) /\
    body_serialize fs w = Ok b /\ body_len fs w = body_len fs v.
Proof.
  induction 1 as [|f fs [A Hf] _ IH]; intros env bs v s E.
  - cbn in E. injection E as <- <-. exists [], tt. repeat split.
  - cbn [body_deserialize] in E. apply bind_inv in E as [x [bs1 [E1 E]]]. apply bind_inv in E as [xs [bs2 [E2 E]]].
    injection E as <- <-. destruct (Hf env _ _ _ E1) as [b1 [y [W1 [R1 [V1 L1]]]]].
    destruct (IH _ _ _ _ E2) as [b2 [ys [W2 [R2 [V2 L2]]]]].
    exists (b1 ++ b2), (y, ys). cbn [body_serialize body_len fst snd]. rewrite W1, W2, V1, V2, L1, L2. split; [reflexivity|].
    split; [|split; reflexivity]. intros env' t. cbn [body_deserialize]. rewrite <- app_assoc.
    rewrite (bind_ok _ _ _ _ _ _ _ (R1 _ _)). rewrite (bind_ok _ _ _ _ _ _ _ (R2 _ _)). reflexivity.
Qed.
Lemma reference_settled m c : In c (all_pdus m) -> In (cls_name c) reference_pdus -> Forall settled_field (cls_fields c).
Proof.
  revert c. by_class.
  all_classes ltac:(intros E; first [ exfalso; vm_compute in E; intuition discriminate | clear E; cbn [cls_fields];
    repeat (apply Forall_cons; [first [ apply settled_simid | apply settled_stable; [reflexivity | stab] ]|]); apply Forall_nil ]).
Qed.
(** After the first relay: for every class but EntityState the bytes stay the same. *)
Lemma relay_fixpoint m c bs p rest p' out : In c (all_pdus m) -> cls_name c <> "EntityStatePdu"%string ->
  deserialize c bs = Ok (ROk p, rest) -> serialize c p [] = Ok (ROk tt, p', out) ->
  exists q q', deserialize c out = Ok (ROk q, []) /\ serialize c q [] = Ok (ROk tt, q', out).
Proof.
  intros I N D S. destruct (mem_string (cls_name c) reference_pdus) eqn:R.
  2: { destruct (C49_relay_fixpoint m c bs p rest [] p' out I) with (rest' := @nil byte) (buf2 := @nil byte) as [q [D' S']];
         [|exact D|exact S|rewrite app_nil_r in D'; eauto].
       intros [K|K]; [now apply N|]. apply mem_string_In in K. change (mem_string (cls_name c) reference_pdus = true) in K. congruence. }
  apply mem_string_In in R. destruct (deserialize_ok_inv _ _ _ _ D) as [bs1 [_ [_ [_ [_ E]]]]].
  destruct (settled_body _ (reference_settled m c I R) _ _ _ _ E) as [b [w [W [Rd [Ww Lw]]]]].
  destruct (serialize_spec m c I _ _ _ _ S) as [fl [Eo [St [Sz [_ [Eb Wb]]]]]]. cbn [app] in Eo.
  assert (Eb' : body p' = body p) by (rewrite Eb; exact (decoded_prep m c I _ _ _ D)).
  rewrite Eb', W in Wb. injection Wb as <-. subst out.
  assert (Do : deserialize c (PduHeader_serialize (header p') ++ b) = Ok (ROk (mk_pdu (header p') w), [])).
  { rewrite <- (app_nil_r b). rewrite deserialize_ok by apply St. rewrite Rd. reflexivity. }
  exists (mk_pdu (header p') w).
  assert (Sw : declared_size (mk_pdu (header p') w) = declared_size p) by (unfold declared_size; cbn [PduMacro.body]; rewrite Lw; reflexivity).
  assert (Pw : prep_body (cls_fields c) w = w) by exact (decoded_prep m c I _ _ _ Do).
  destruct (serialize_cases c (mk_pdu (header p') w) [] (all_prep_ok m c I)) as [[G _]|[_ [h' [St' Es]]]]; [rewrite Sw in G; lia|].
  cbn [PduMacro.body PduMacro.header] in *. rewrite Pw, Ww in Es. rewrite Sw in St'.
  assert (H := stamped_again _ _ _ _ _ _ St St'). subst h'. exists (mk_pdu (header p') w). split; [exact Do | exact Es].
Qed.
Lemma receive_inv m bs c (p : pdu c) : receive m bs = Ok (Some (existT _ c p)) ->
  exists c' p' rest, existT pdu c p = existT pdu c' p' /\ In c' (all_pdus m) /\ deserialize c' bs = Ok (ROk p', rest).
Proof.
  unfold receive. destruct (PduHeader_get_pdu_type bs) as [[t|]|e]; try discriminate.
  destruct (find _ (all_pdus m)) as [c'|] eqn:F; [|discriminate]. apply find_some in F as [I _].
  destruct (deserialize c' bs) as [[[p'|e] rest]|e] eqn:D; try discriminate. intros E. exists c', p', rest.
  split; [exact (f_equal (fun o => match o with Ok (Some x) => x | _ => existT pdu c p end) (eq_sym E))|]. split; [exact I | exact D].
Qed.
Lemma relay_inv m bs out : relay m bs = Ok (Some out) -> exists c (p p' : pdu c) rest,
  In c (all_pdus m) /\ deserialize c bs = Ok (ROk p, rest) /\ serialize c p [] = Ok (ROk tt, p', out).
Proof.
  unfold relay. destruct (receive m bs) as [[[c p]|]|e] eqn:R; try discriminate. intros E.
  destruct (receive_inv m bs c p R) as [c' [p' [rest [X [I D]]]]].
  change (match existT pdu c p with existT _ c p => match serialize c p [] with Ok (ROk _, _, out) => Ok (Some out) | Ok (RErr _, _, _) => Ok None | Panic e => Panic e end end = Ok (Some out)) in E.
  rewrite X in E. clear X R c p. destruct (serialize c' p' []) as [[[[[]|e] p2] o]|e] eqn:S; try discriminate. injection E as ->.
  exists c', p', p2, rest. auto.
Qed.
Lemma relay_of m c bs (p p' : pdu c) rest out : In c (all_pdus m) -> deserialize c bs = Ok (ROk p, rest) ->
  serialize c p [] = Ok (ROk tt, p', out) -> relay m bs = Ok (Some out).
Proof.
  intros I D S. destruct (decoded_type _ _ _ _ D) as [L T]. unfold relay. rewrite (receive_own m c bs I L T), D, S. reflexivity.
Qed.
Lemma hops_fixed m bs d n : hops m n bs = Ok (Some d) -> relay m d = Ok (Some d) -> forall k, hops m (k + n) bs = Ok (Some d).
Proof. intros H R k. induction k as [|k IH]; [exact H|]. cbn [Nat.add hops]. rewrite IH. exact R. Qed.
Lemma entity_state_type m c : In c (all_pdus m) -> cls_name c = "EntityStatePdu"%string -> code (cls_type c) = 1.
Proof. intros I E. rewrite (entity_state_class m c I E). reflexivity. Qed.
(** A chain of relays of any length sends on what its first relay sends on, for any bytes
    that are not of type 1. *)
Theorem C77_chain : forall m bs d, wire_type bs <> 1 -> relay m bs = Ok (Some d) -> forall n, (1 <= n)%nat -> hops m n bs = Ok (Some d).
Proof.
  intros m bs d T R n L. replace n with ((n - 1) + 1)%nat by lia. apply hops_fixed; [exact R|].
  destruct (relay_inv m bs d R) as [c [p [p' [rest [I [D S]]]]]].
  assert (N : cls_name c <> "EntityStatePdu"%string).
  { intros E. destruct (decoded_type _ _ _ _ D) as [_ T']. rewrite (entity_state_type m c I E) in T'. contradiction. }
  destruct (relay_fixpoint m c bs p rest p' d I N D S) as [q [q' [D' S']]]. exact (relay_of m c d q q' [] d I D' S').
Qed.

(** *** Entity states *)
Lemma ascii_value_cons b s : ascii_value (b :: s) = (uval b - 48) * 10 ^ lenN s + ascii_value s.
Proof.
  unfold ascii_value. cbn [fold_left]. rewrite N.mul_0_r, N.add_0_l.
  assert (G : forall s acc, fold_left (fun acc (b : byte) => 10 * acc + (uval b - 48)) s acc = acc * 10 ^ lenN s + fold_left (fun acc (b : byte) => 10 * acc + (uval b - 48)) s 0).
  { clear. induction s as [|b s IH]; intros acc.
    - unfold lenN. cbn. lia.
    - cbn [fold_left]. rewrite (IH (10 * acc + _)), (IH (10 * 0 + _)). unfold lenN. cbn [length]. rewrite Nat2N.inj_succ, N.pow_succ_r'. lia. }
  apply G.
Qed.
Lemma decimal_long n s : decimal_of n s -> n <> 0 -> 10 ^ (lenN s - 1) <= n /\ exists b s', s = b :: s' /\ 49 <= uval b <= 57.
Proof.
  intros [V [D [NE Z]]] Nz. destruct s as [|b s]; [contradiction|].
  assert (Hb : 48 <= uval b <= 57) by (apply D; now left).
  destruct (N.eq_dec (uval b) 48) as [E|E].
  { specialize (Z b eq_refl E). destruct s; [|discriminate]. unfold ascii_value in V. cbn in V. rewrite E in V. cbn in V. lia. }
  split; [|exists b, s; split; [reflexivity | lia]].
  rewrite ascii_value_cons in V. replace (lenN (b :: s) - 1) with (lenN s) by (unfold lenN; cbn [length]; lia).
  assert (1 <= uval b - 48) by lia. nia.
Qed.
Lemma decimal_digit n s : decimal_of n s -> 1 <= n < 10 -> s = [B (48 + n)].
Proof.
  intros D L. destruct (decimal_long n s D ltac:(lia)) as [P [b [s' [-> Hb]]]].
  assert (Ls : lenN s' = 0).
  { destruct (N.eq_dec (lenN s') 0) as [E|E]; [exact E|]. exfalso. replace (lenN (b :: s') - 1) with (lenN s') in P by (unfold lenN; cbn [length]; lia).
    assert (10 ^ 1 <= 10 ^ lenN s') by (apply N.pow_le_mono_r; lia). change (10 ^ 1) with 10 in *. lia. }
  destruct s' as [|? ?]; [|discriminate Ls]. destruct D as [V _]. rewrite ascii_value_cons in V. unfold ascii_value, lenN in V. cbn in V.
  f_equal. apply uint_eq. unfold B, as_u8. rewrite as_uint_val; [lia|]. change (256 ^ N.of_nat 1) with 256. lia.
Qed.
Lemma decimal_short n s : decimal_of n s -> 1 <= n < 100000 -> (1 <= length s <= 5)%nat.
Proof.
  intros D L. destruct (decimal_long n s D ltac:(lia)) as [P [b [s' [E _]]]]. subst s. split; [cbn [length]; lia|].
  destruct (Nat.le_gt_cases (length (b :: s')) 5) as [K|K]; [exact K|]. exfalso.
  assert (10 ^ 5 <= 10 ^ (lenN (b :: s') - 1)) by (apply N.pow_le_mono_r; unfold lenN; lia). change (10 ^ 5) with 100000 in *. lia.
Qed.
Lemma be4_lead b s : 49 <= uval b -> known EntityCapabilities_spec (be4_at (b :: s) 0) = 0.
Proof.
  intros L. unfold known. replace (existsb _ _) with false; [reflexivity|]. symmetry. apply not_true_is_false. intros H.
  apply existsb_exists in H as [n [I E]]. apply N.eqb_eq in E. subst n. unfold be4_at, byte_at in I. cbn [nth] in I.
  assert (G : forall k, In k (e_codes EntityCapabilities_spec) -> k <= 12).
  { apply Forall_forall. cbn [e_codes EntityCapabilities_spec]. repeat constructor; lia. }
  specialize (G _ I). lia.
Qed.


(** The bytes of an entity state. *)
Definition es_front (p : pdu EntityStatePdu) : bytes :=
  EntityId_serialize (EntityStatePdu_entity_id p) ++ ForceId_serialize_field (EntityStatePdu_force_id p) ++
  put_u8 (EntityStatePdu_number_of_articulation_parameters p) ++
  EntityType_serialize (EntityStatePdu_entity_type p) ++ EntityType_serialize (EntityStatePdu_alternative_entity_type p) ++
  LinearVelocity_serialize (EntityStatePdu_entity_linear_velocity p) ++ WorldCoordinate_serialize (EntityStatePdu_entity_location p) ++
  EulerAngles_serialize (EntityStatePdu_entity_orientation p) ++ put_u32 (EntityStatePdu_entity_appearance p) ++
  DeadReckoningParameters_serialize (EntityStatePdu_dead_reckoning_parameters p) ++
  put_u8 (as_u8 (code (EntityMarking_entity_marking_character_set (EntityStatePdu_entity_marking p)))).
Definition es_rear (p : pdu EntityStatePdu) : bytes :=
  EntityMarking_entity_marking_string (EntityStatePdu_entity_marking p) ++ put_u32 (as_u32 (code (EntityStatePdu_entity_capabilities p))).
Lemma wapp_ok a b : wapp (Ok a) (Ok b) = Ok (a ++ b).
Proof. reflexivity. Qed.
Lemma es_body p : EntityStatePdu_articulation_parameter p = [] ->
  body_serialize (cls_fields EntityStatePdu) (body p) = Ok (es_front p ++ es_rear p).
Proof.
  intros A.
  transitivity (wapp (Ok (EntityId_serialize (EntityStatePdu_entity_id p))) (wapp (Ok (ForceId_serialize_field (EntityStatePdu_force_id p)))
    (wapp (Ok (put_u8 (EntityStatePdu_number_of_articulation_parameters p)))
    (wapp (Ok (EntityType_serialize (EntityStatePdu_entity_type p))) (wapp (Ok (EntityType_serialize (EntityStatePdu_alternative_entity_type p)))
    (wapp (Ok (LinearVelocity_serialize (EntityStatePdu_entity_linear_velocity p))) (wapp (Ok (WorldCoordinate_serialize (EntityStatePdu_entity_location p)))
    (wapp (Ok (EulerAngles_serialize (EntityStatePdu_entity_orientation p))) (wapp (Ok (put_u32 (EntityStatePdu_entity_appearance p)))
    (wapp (Ok (DeadReckoningParameters_serialize (EntityStatePdu_dead_reckoning_parameters p)))
    (wapp (Ok (EntityMarking_serialize (EntityStatePdu_entity_marking p)))
    (wapp (Ok (EntityCapabilities_serialize_field (EntityStatePdu_entity_capabilities p)))
    (wapp (wconcat (map (c_ser VariableParameter_codec) (EntityStatePdu_articulation_parameter p))) (Ok [])))))))))))))).
  - reflexivity.
  - rewrite A. change (wconcat (map (c_ser VariableParameter_codec) [])) with (Ok (@nil byte)). rewrite !wapp_ok.
    unfold es_front, es_rear, EntityMarking_serialize, EntityCapabilities_serialize_field. rewrite !app_nil_r, <- !app_assoc. reflexivity.
Qed.
Lemma es_size p : EntityStatePdu_articulation_parameter p = [] -> declared_size p = 144.
Proof.
  intros A. unfold declared_size.
  transitivity (12 + (6 + (1 + (1 + (8 + (8 + (12 + (24 + (12 + (4 + (40 + (12 + (4 + (fold_right N.add 0 (map VariableParameter_field_len (EntityStatePdu_articulation_parameter p)) + 0))))))))))))));
    [reflexivity | rewrite A; reflexivity].
Qed.
Lemma es_in m : In EntityStatePdu (all_pdus m).
Proof. unfold all_pdus. repeat (first [left; reflexivity | right]). Qed.
(** Serializing one never fails; the header is stamped. *)
Lemma es_serialize p : EntityStatePdu_articulation_parameter p = [] -> exists h',
  stamped PduType_EntityState ProtocolFamily_EntityInformation (as_u16 144) (header p) h' /\
  serialize EntityStatePdu p [] = Ok (ROk tt, mk_pdu h' (body p), PduHeader_serialize h' ++ es_front p ++ es_rear p).
Proof.
  intros A. destruct (serialize_cases EntityStatePdu p [] (all_prep_ok Checked _ (es_in Checked))) as [[G _]|[_ [h' [St Es]]]].
  - rewrite (es_size p A) in G. lia.
  - exists h'. rewrite (es_size p A) in St. split; [exact St|]. rewrite Es.
    assert (Pr : prep_body (cls_fields EntityStatePdu) (body p) = body p) by (apply MacroFacts.no_attr_prep; no_attrs).
    rewrite Pr, (es_body p A). reflexivity.
Qed.
Lemma es_front_length p : EntityStatePdu_articulation_parameter p = [] -> length (es_front p) = 117%nat.
Proof.
  intros A. destruct es_prefix as [tl [rb [nm [ev [P [Htl _]]]]]].
  destruct (prefix_encode _ _ _ _ _ _ _ _ P (body p)) as [b1 [L1 [S1 _]]]. rewrite (es_body p A) in S1.
  assert (T : body_serialize es_tail (tl (body p)) = Ok (put_u8 (as_u8 (code (EntityMarking_entity_marking_character_set (EntityStatePdu_entity_marking p)))) ++ es_rear p)).
  { rewrite Htl. unfold es_tail. cbn [cls_fields EntityStatePdu skipn].
    transitivity (wapp (Ok (EntityMarking_serialize (EntityStatePdu_entity_marking p)))
      (wapp (Ok (EntityCapabilities_serialize_field (EntityStatePdu_entity_capabilities p)))
      (wapp (wconcat (map (c_ser VariableParameter_codec) (EntityStatePdu_articulation_parameter p))) (Ok [])))); [reflexivity|].
    rewrite A. change (wconcat (map (c_ser VariableParameter_codec) [])) with (Ok (@nil byte)). rewrite !wapp_ok.
    unfold es_rear, EntityMarking_serialize, EntityCapabilities_serialize_field. rewrite !app_nil_r, <- !app_assoc. reflexivity. }
  rewrite T in S1. rewrite put_u8_single in S1.
  apply (f_equal (fun o => match o with Ok x => length x | Panic _ => 0%nat end)) in S1. rewrite !app_length in S1. cbn [length] in S1. lia.
Qed.
Lemma reckoning_bytes a b : same_reckoning a b -> DeadReckoningParameters_serialize a = DeadReckoningParameters_serialize b.
Proof. intros [E1 [E2 [E3 _]]]. unfold DeadReckoningParameters_serialize. rewrite E1, E2, E3. reflexivity. Qed.
(** One relay of an entity state without articulation parameters. *)
Definition es_datagram (h : PduHeader) (p : pdu EntityStatePdu) : bytes := PduHeader_serialize h ++ es_front p ++ es_rear p.
Lemma es_step m h p : EntityStatePdu_articulation_parameter p = [] ->
  stamped PduType_EntityState ProtocolFamily_EntityInformation (as_u16 144) h h ->
  exists q, EntityStatePdu_articulation_parameter q = [] /\ es_front q = es_front p /\
    decimal_of (lenN (es_rear p)) (EntityMarking_entity_marking_string (EntityStatePdu_entity_marking q)) /\
    code (EntityStatePdu_entity_capabilities q) = known EntityCapabilities_spec (be4_at (es_rear p) 0) /\
    relay m (es_datagram h p) = Ok (Some (es_datagram h q)).
Proof.
  intros A St. destruct (es_serialize (mk_pdu h (body p)) A) as [h' [St' Es]]. cbn [PduMacro.header PduMacro.body] in *.
  assert (Eh : h' = h) by (symmetry; exact (stamped_again _ _ _ _ _ _ St St')). subst h'.
  destruct (C28_entity_state_roundtrip _ [] _ _ [] Es) as [q [D [[Eh R] [Rk [Cs [Mk [Cp Ar]]]]]]].
  cbn [PduMacro.header PduMacro.body] in Eh, R. rewrite app_nil_r in *.
  assert (Lf := es_front_length p A).
  assert (Ff : forall h2, es_front (mk_pdu h2 (body p)) = es_front p) by reflexivity.
  assert (Fr : forall h2, es_rear (mk_pdu h2 (body p)) = es_rear p) by reflexivity.
  rewrite Ff, Fr in *. fold (es_datagram h p) in D, Mk, Cp.
  exists q. split; [exact Ar|].
  assert (Fq : es_front q = es_front p).
  { unfold es_front at 1. rewrite (reckoning_bytes _ _ Rk), Cs.
    assert (E0 : EntityStatePdu_entity_id q = EntityStatePdu_entity_id p) by exact (f_equal (fun b => fst b) R).
    assert (E1 : EntityStatePdu_force_id q = EntityStatePdu_force_id p) by exact (f_equal (fun b => fst (snd b)) R).
    assert (E2 : EntityStatePdu_number_of_articulation_parameters q = EntityStatePdu_number_of_articulation_parameters p) by exact (f_equal (fun b => fst (snd (snd b))) R).
    assert (E3 : EntityStatePdu_entity_type q = EntityStatePdu_entity_type p) by exact (f_equal (fun b => fst (snd (snd (snd b)))) R).
    assert (E4 : EntityStatePdu_alternative_entity_type q = EntityStatePdu_alternative_entity_type p) by exact (f_equal (fun b => fst (snd (snd (snd (snd b))))) R).
    assert (E5 : EntityStatePdu_entity_linear_velocity q = EntityStatePdu_entity_linear_velocity p) by exact (f_equal (fun b => fst (snd (snd (snd (snd (snd b)))))) R).
    assert (E6 : EntityStatePdu_entity_location q = EntityStatePdu_entity_location p) by exact (f_equal (fun b => fst (snd (snd (snd (snd (snd (snd b))))))) R).
    assert (E7 : EntityStatePdu_entity_orientation q = EntityStatePdu_entity_orientation p) by exact (f_equal (fun b => fst (snd (snd (snd (snd (snd (snd (snd b)))))))) R).
    assert (E8 : EntityStatePdu_entity_appearance q = EntityStatePdu_entity_appearance p) by exact (f_equal (fun b => fst (snd (snd (snd (snd (snd (snd (snd (snd b))))))))) R).
    rewrite E0, E1, E2, E3, E4, E5, E6, E7, E8. reflexivity. }
  split; [exact Fq|].
  assert (Ld : length (es_datagram h p) = (129 + length (es_rear p))%nat).
  { unfold es_datagram. rewrite !app_length, header_ser_length, Lf. lia. }
  split; [replace (lenN (es_rear p)) with (N.of_nat (length (es_datagram h p)) - 129) by (rewrite Ld; unfold lenN; lia); exact Mk|].
  split.
  { rewrite Cp. reflexivity. }
  destruct (es_serialize q Ar) as [h2 [St2 Eq]]. rewrite Eh in St2. assert (Eh2 : h2 = h) by (symmetry; exact (stamped_again _ _ _ _ _ _ St St2)). subst h2.
  exact (relay_of m EntityStatePdu _ q _ _ _ (es_in m) D Eq).
Qed.

(** Two capabilities with the same code are sent in the same bytes. *)
Lemma es_rear_eq p q : EntityMarking_entity_marking_string (EntityStatePdu_entity_marking p) = EntityMarking_entity_marking_string (EntityStatePdu_entity_marking q) ->
  code (EntityStatePdu_entity_capabilities p) = code (EntityStatePdu_entity_capabilities q) -> es_rear p = es_rear q.
Proof. intros E1 E2. unfold es_rear. rewrite E1, E2. reflexivity. Qed.
Lemma es_rear_length p : lenN (es_rear p) = lenN (EntityMarking_entity_marking_string (EntityStatePdu_entity_marking p)) + 4.
Proof. unfold es_rear, lenN, put_u32. rewrite app_length, put_uint_length. lia. Qed.
Lemma decimal_lead n s t : decimal_of n s -> 1 <= n -> exists b t', s ++ t = b :: t' /\ 49 <= uval b.
Proof. intros D L. destruct (decimal_long n s D ltac:(lia)) as [_ [b [s' [-> Hb]]]]. exists b, (s' ++ t). split; [reflexivity | lia]. Qed.
Lemma es_caps p q n : decimal_of n (EntityMarking_entity_marking_string (EntityStatePdu_entity_marking p)) -> 1 <= n ->
  code (EntityStatePdu_entity_capabilities q) = known EntityCapabilities_spec (be4_at (es_rear p) 0) -> code (EntityStatePdu_entity_capabilities q) = 0.
Proof. intros D L ->. unfold es_rear. destruct (decimal_lead n _ (put_u32 (as_u32 (code (EntityStatePdu_entity_capabilities p)))) D L) as [b [t [-> Hb]]]. now apply be4_lead. Qed.
(** A chain of three relays or more, given an entity state of any content: the marking is
    the character 5, the capabilities are 0, and no further relay changes anything. *)
Theorem C77_entity_state_chain : forall m bs, wire_type bs = 1 -> (133 <= length bs)%nat -> N.of_nat (length bs) <= 65535 ->
  exists d, length d = 134%nat /\ byte_at d 129 = 53 /\ be4_at d 130 = 0 /\
    forall n, (3 <= n)%nat -> hops m n bs = Ok (Some d).
Proof.
  intros m bs T L U. destruct (C28_entity_state_decode bs T) as [_ D]. destruct (D L) as [r1 [D1 [_ [Mk1 [_ A1]]]]]. clear D.
  destruct (es_serialize r1 A1) as [h [St Es]].
  assert (R1 : relay m bs = Ok (Some (es_datagram h r1))) by exact (relay_of m EntityStatePdu bs r1 _ _ _ (es_in m) D1 Es).
  assert (Sh : stamped PduType_EntityState ProtocolFamily_EntityInformation (as_u16 144) h h).
  { destruct St as [_ [_ [_ [_ [_ [X1 [X2 X3]]]]]]]. repeat split; assumption. }
  assert (N1 : 1 <= N.of_nat (length bs) - 129 < 100000) by lia.
  assert (K1 := decimal_short _ _ Mk1 N1).
  destruct (es_step m h r1 A1 Sh) as [r2 [A2 [F2 [Mk2 [C2 R2]]]]]. apply (es_caps r1 r2 _ Mk1 (proj1 N1)) in C2.
  rewrite es_rear_length in Mk2. apply decimal_digit in Mk2 as E2; [|unfold lenN; lia].
  destruct (es_step m h r2 A2 Sh) as [r3 [A3 [F3 [Mk3 [C3 R3]]]]]. apply (es_caps r2 r3 _ Mk2) in C3; [|unfold lenN; lia].
  rewrite es_rear_length, E2 in Mk3. change (lenN _ + 4) with 5 in Mk3. apply decimal_digit in Mk3 as E3; [|lia].
  destruct (es_step m h r3 A3 Sh) as [r4 [A4 [F4 [Mk4 [C4 R4]]]]]. apply (es_caps r3 r4 _ Mk3) in C4; [|lia].
  rewrite es_rear_length, E3 in Mk4. change (lenN _ + 4) with 5 in Mk4. apply decimal_digit in Mk4 as E4; [|lia].
  assert (E : es_datagram h r4 = es_datagram h r3).
  { unfold es_datagram. rewrite F4, (es_rear_eq r4 r3); [reflexivity | congruence | congruence]. }
  rewrite E in R4. exists (es_datagram h r3).
  assert (Er : es_rear r3 = [B 53; B 0; B 0; B 0; B 0]).
  { unfold es_rear. rewrite E3, C3. reflexivity. }
  assert (Lf := es_front_length r3 A3).
  assert (Sk : skipn 129 (es_datagram h r3) = es_rear r3) by reflexivity.
  split; [unfold es_datagram; rewrite !app_length, header_ser_length, Lf, Er; reflexivity|].
  split; [change 129%nat with (129 + 0)%nat; rewrite <- byte_at_skipn, Sk, Er; reflexivity|].
  split; [change 130%nat with (129 + 1)%nat; rewrite <- be4_at_skipn, Sk, Er; reflexivity|].
  intros n Ln. replace n with ((n - 3) + 3)%nat by lia. apply hops_fixed; [|exact R4].
  cbn [hops]. rewrite R1, R2. exact R3.
Qed.

(** ** A concrete network: originate, relay twice (once cut off), hand over, lose. *)
Example C77_example : forall m,
  let fire := existT pdu FirePdu (pdu_new FirePdu (as_u32 7)) in
  let steps := [Forward 0 1500; Originate fire; Forward 0 1500; Forward 1 1500; Hand 2 1500; Forward 2 50; Forward 0 11; Hand 1 9; Hand 5 1500] in
  Forall (sendable m) (origins steps) /\
  map (fun e => match e with Originated _ _ d => (1, lenN d) | Handed _ _ (Ok (Some p)) => (2, code (cls_type (class_of p)))
                           | Handed _ _ (Ok None) => (3, 0) | Forwarded _ _ d => (4, lenN d) | NotForwarded _ _ => (5, 0)
                           | Crashed _ _ => (6, 0) | NothingToDo => (7, 0) | _ => (8, 0) end) (with_relays m steps []) =
  [(7, 0); (1, 96); (4, 96); (4, 96); (2, 2); (6, 0); (5, 0); (3, 0); (7, 0)].
Proof.
  intros m fire steps. split.
  - repeat apply Forall_cons; try apply Forall_nil;
    (apply sendable_plain; [unfold all_pdus; repeat (first [left; reflexivity | right])|]; cbn; intuition discriminate).
  - destruct m; vm_compute; reflexivity.
Qed.
(** The length in the header really is an exception: an entity state sent with one
    articulation parameter arrives, behind one relay, with the length for none. *)
Example C77_length_changes : forall m,
  let es := pdu_new EntityStatePdu (as_u32 7) in
  let es1 := mk_pdu (c := EntityStatePdu) (header es)
    (let '(a, (b, (c, (d, (e, (f, (g, (h, (i, (j, (k, (l, _)))))))))))) := body es in
     (a, (b, (c, (d, (e, (f, (g, (h, (i, (j, (k, (l, ([VariableParameter_default], tt)))))))))))))) in
  match serialize EntityStatePdu es1 [] with
  | Ok (ROk _, _, d) => match relay m d with Ok (Some d2) => Some (be2_at d 8, be2_at d2 8) | _ => None end
  | _ => None
  end = Some (160, 144).
Proof. intros m. destruct m; vm_compute; reflexivity. Qed.
(** Three relays really are needed for an entity state: after two the marking may be another
    digit. *)
Example C77_two_relays_are_not_enough : forall m,
  let bs := [B 7; B 1; B 1] ++ repeat (B 0) 140 in
  wire_type bs = 1 /\
  match hops m 2 bs, hops m 3 bs with Ok (Some d2), Ok (Some d3) => Some (byte_at d2 129, byte_at d3 129) | _, _ => None end = Some (54, 53).
Proof. intros m. split; [reflexivity|]. destruct m; vm_compute; reflexivity. Qed.

(** What the theorems above rest on (one traversal for all of them; not part of the model). *)
Definition Prop_Relays_theorems : True :=
  let _ := @C77_relays in
  let _ := @C77_chain in
  let _ := @C77_entity_state_chain in
  let _ := @C77_example in
  let _ := @C77_length_changes in
  let _ := @C77_two_relays_are_not_enough in
  I.
Print Assumptions Prop_Relays_theorems.
