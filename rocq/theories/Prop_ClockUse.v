(** * The clock and the header: what influences what (C67). *)
From Verif Require Import Base BaseFacts EnumModel EnumFacts Enums Header HeaderFacts HeaderProofs PduMacro Pdus Spec SpecFresh Wire ClassFacts PduProofs Prop_Header Prop_Pdu Prop_Fresh.
From Verif Require Import Floats Prop_Clock Clock.

(** All three readings are possible readings of a clock. *)
Definition valid_clock (k : clock) : Prop := valid_reading (now1 k) /\ valid_reading (now2 k) /\ valid_reading (now3 k).

(** ** The clock *)
(** Whatever the clock shows at its three readings, in either build profile, [new] and
    [default] return without panicking what they return for some timestamp below [2^31]. *)
Theorem C67_new_any_clock : forall m c k, valid_clock k ->
  exists ts, uval ts < 2 ^ 31 /\ calculate_dis_timestamp m (now1 k) (now2 k) (now3 k) = Ok ts /\
    pdu_new_at m c k = Ok (pdu_new c ts) /\ pdu_default_at m c k = Ok (pdu_default c ts).
Proof.
  intros m c k [V1 [V2 V3]]. destruct (C34_timestamp m _ _ _ V1 V2 V3) as [ts [E [L _]]]. exists ts.
  unfold pdu_new_at, pdu_default_at, PduHeader_default_at. rewrite E. repeat split. exact L.
Qed.
(** Decoding reads the clock too (for a header it then discards): the clock neither makes it
    panic nor changes the result. *)
Theorem C67_decode_any_clock : forall m c k bs h, valid_clock k ->
  deserialize_at m c k bs = deserialize c bs /\
  deserialize_without_header_at m c k bs h = deserialize_without_header c bs h.
Proof.
  intros m c k bs h [V1 [V2 V3]]. destruct (C34_timestamp m _ _ _ V1 V2 V3) as [ts [E _]].
  unfold deserialize_at, deserialize, deserialize_without_header_at, deserialize_without_header, deserialize_body_at, PduHeader_default_at.
  rewrite E. split.
  - destruct (PduHeader_deserialize bs) as [[h' rest]|e]; [|reflexivity].
    destruct (enum_eqb _ _); [|reflexivity]. destruct (body_deserialize _ _ _) as [[b r]|e]; reflexivity.
  - destruct (body_deserialize _ _ _) as [[b r]|e]; reflexivity.
Qed.
(** ** The header *)
Lemma header_bytes h fl :
  let out := PduHeader_serialize h ++ fl in
  byte_at out 0 = code (protocol_version h) /\ byte_at out 1 = uval (exercise_id h) /\ be4_at out 4 = uval (timestamp h) /\
  byte_at out 10 = uval (status_byte (status_record h)) /\ byte_at out 11 = uval (header_padding h).
Proof.
  intros out. assert (L : (12 <= length out)%nat) by (unfold out; rewrite app_length, header_ser_length; lia).
  destruct (header_decode out L) as [h' [D [_ [E1 [_ [_ [E4 [_ [E6 E7]]]]]]]]].
  assert (K : h' = h). { unfold out in D. rewrite header_rt in D. congruence. }
  rewrite K in *. split; [|rewrite E1, E4, E6, E7; auto].
  unfold out. rewrite header_layout. unfold byte_at. cbn [app nth]. unfold B, as_u8. apply as_uint_val.
  apply (enum_fits ProtocolVersion_spec).
Qed.
Lemma header_middle h h' fl fl' : pdu_type h = pdu_type h' -> protocol_family h = protocol_family h' -> header_length h = header_length h' ->
  firstn 2 (skipn 2 (PduHeader_serialize h ++ fl)) = firstn 2 (skipn 2 (PduHeader_serialize h' ++ fl')) /\
  firstn 2 (skipn 8 (PduHeader_serialize h ++ fl)) = firstn 2 (skipn 8 (PduHeader_serialize h' ++ fl')).
Proof. intros T F L. rewrite !header_layout, T, F, L. unfold be4, be2. cbn [app skipn firstn]. auto. Qed.
Lemma header_after h fl : skipn 12 (PduHeader_serialize h ++ fl) = fl.
Proof. rewrite skipn_app, header_ser_length, Nat.sub_diag, skipn_all2 by (rewrite header_ser_length; lia). reflexivity. Qed.

(** Two PDUs of one class with the same fields, whatever their headers: serialization ends the
    same way; the bytes after the header are the same, and so are type, family and length; every
    other header byte is the encoding of that header field. *)
Theorem C67_header_independent : forall m c (p q : pdu c) buf buf', In c (all_pdus m) -> body p = body q ->
  match serialize c p buf, serialize c q buf' with
  | Ok (ROk tt, p', b), Ok (ROk tt, q', b') =>
      body p' = body q' /\
      exists out out', b = buf ++ out /\ b' = buf' ++ out' /\ skipn 12 out = skipn 12 out' /\
        firstn 2 (skipn 2 out) = firstn 2 (skipn 2 out') /\ firstn 2 (skipn 8 out) = firstn 2 (skipn 8 out') /\
        byte_at out 0 = code (protocol_version (header p)) /\ byte_at out 1 = uval (exercise_id (header p)) /\
        be4_at out 4 = uval (timestamp (header p)) /\
        byte_at out 10 = uval (status_byte (status_record (header p))) /\ byte_at out 11 = uval (header_padding (header p))
  | Ok (RErr e, p', b), Ok (RErr e', q', b') => e = e' /\ body p' = body q' /\ b = buf /\ b' = buf'
  | Panic e, Panic e' => e = e'
  | _, _ => False
  end.
Proof.
  intros m c p q buf buf' I E. assert (P := all_prep_ok m c I).
  destruct (serialize_cases c p buf P) as [[L [p' [-> [_ Eb]]]]|[L [h [S ->]]]],
           (serialize_cases c q buf' P) as [[L' [q' [-> [_ Eb']]]]|[L' [h' [S' ->]]]];
    unfold declared_size in *; rewrite <- E in *; try lia.
  - split; [reflexivity|]. split; [congruence | auto].
  - destruct (body_serialize _ _) as [fl|e]; [|reflexivity]. cbn [body]. split; [reflexivity|].
    exists (PduHeader_serialize h ++ fl), (PduHeader_serialize h' ++ fl).
    destruct S as [A1 [A2 [A3 [A4 [A5 [A6 [A7 A8]]]]]]], S' as [B1 [B2 [B3 [B4 [B5 [B6 [B7 B8]]]]]]].
    destruct (header_middle h h' fl fl) as [M1 M2]; [congruence..|].
    destruct (header_bytes h fl) as [H1 [H2 [H3 [H4 H5]]]]. rewrite !header_after.
    rewrite A1 in H1. rewrite A2 in H2. rewrite A3 in H3. rewrite A4 in H4. rewrite A5 in H5.
    repeat (split; [first [reflexivity | assumption]|]). assumption.
Qed.

(** Two fresh PDUs of a class, constructed at any two times, have datagrams that agree in
    every byte outside 4 to 7, and these four bytes are the timestamp. *)
Theorem C67_fresh_differ_in_timestamp : forall m c k k', In c (all_pdus m) -> valid_clock k -> valid_clock k' ->
  exists p q out out', pdu_new_at m c k = Ok p /\ pdu_new_at m c k' = Ok q /\
    serialize c p [] = Ok (ROk tt, p, out) /\ serialize c q [] = Ok (ROk tt, q, out') /\
    length out = length out' /\ (forall i, (i < 4 \/ 8 <= i)%nat -> byte_at out i = byte_at out' i) /\
    be4_at out 4 = uval (timestamp (header p)) /\ be4_at out' 4 = uval (timestamp (header q)).
Proof.
  intros m c k k' I V V'. destruct (C67_new_any_clock m c k V) as [ts [_ [_ [-> _]]]], (C67_new_any_clock m c k' V') as [ts' [_ [_ [-> _]]]].
  destruct (C57_fresh_datagram m c ts [] I) as [t [f [bits [A S]]]], (C57_fresh_datagram m c ts' [] I) as [t' [f' [bits' [A' S']]]].
  rewrite A in A'. injection A' as <- <- <-.
  destruct (C07_serialize_appends_and_stamps m c _ _ _ _ I S) as [l1 [fl [E _]]], (C07_serialize_appends_and_stamps m c _ _ _ _ I S') as [l2 [fl' [E' _]]].
  rewrite !app_nil_l in *.
  exists (pdu_new c ts), (pdu_new c ts'), (fresh_datagram (cls_name c) t f bits (uval ts)), (fresh_datagram (cls_name c) t f bits (uval ts')).
  do 4 (split; [first [reflexivity | assumption]|]).
  split; [unfold fresh_datagram; cbn [big_endian]; rewrite !app_length; reflexivity|].
  split; [|rewrite E, E'; split; apply header_bytes].
  intros i Hi. unfold byte_at, fresh_datagram. cbn [big_endian app map].
  do 8 (destruct i as [|i]; [first [reflexivity | lia]|]). reflexivity.
Qed.


(** A clock reading at the last microsecond of an hour meets the hypotheses, and the two
    datagrams really differ. *)
Example C67_example : let k := mk_clock (at_time 59 59 999999999) (at_time 59 59 999999999) (at_time 59 59 999999999) in
  let k' := mk_clock (at_time 0 0 0) (at_time 0 0 0) (at_time 0 0 0) in
  valid_clock k /\ valid_clock k' /\ calculate_dis_timestamp Checked (now1 k) (now2 k) (now3 k) <> calculate_dis_timestamp Checked (now1 k') (now2 k') (now3 k').
Proof. split; [vm_compute; repeat split|]. split; [vm_compute; repeat split|]. vm_compute. discriminate. Qed.

Definition Prop_ClockUse_closed : True := let _ := @C67_header_independent in I.
Print Assumptions Prop_ClockUse_closed.
Definition Prop_ClockUse_theorems : True :=
  let _ := @C67_new_any_clock in
  let _ := @C67_decode_any_clock in
  let _ := @C67_fresh_differ_in_timestamp in
  I.
Print Assumptions Prop_ClockUse_theorems.

