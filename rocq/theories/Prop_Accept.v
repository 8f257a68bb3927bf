(** * What a decoder looks at, and receiving into a zero-filled buffer (C53, C54). Vocabulary in [Spec]. *)
From Verif Require Import Base BaseFacts EnumModel Enums EnumFacts Header HeaderFacts HeaderProofs PduMacro PduMacroFacts
  DataTypes Pdus Spec ClassFacts PduProofs.

(** ** C53: of the header, only the type byte matters.
    Two datagrams with the same type and the same bytes after the header are treated alike
    by every class: same panic, same error, or the same fields and the same rest. Version,
    exercise, family, timestamp, length, status and padding are not examined. *)
Theorem C53_header_ignored : forall c bs bs', (12 <= length bs)%nat -> (12 <= length bs')%nat ->
  wire_type bs = wire_type bs' -> skipn 12 bs = skipn 12 bs' ->
  match deserialize c bs, deserialize c bs' with
  | Ok (ROk p, rest), Ok (ROk p', rest') => body p = body p' /\ rest = rest'
  | Ok (RErr e, rest), Ok (RErr e', rest') => e = e' /\ rest = rest'
  | Panic e, Panic e' => e = e'
  | _, _ => False
  end.
Proof.
  intros c bs bs' L L' T R. destruct (deserialize_cases c bs L) as [h [_ [K E]]], (deserialize_cases c bs' L') as [h' [_ [K' E']]].
  rewrite E, E', T, R. assert (Q : pdu_type h = pdu_type h') by (apply enum_eq; congruence).
  destruct (wire_type bs' =? code (cls_type c)); [|rewrite Q; split; reflexivity].
  unfold deserialize_without_header. destruct (body_deserialize _ _ _) as [[b r]|e]; cbn [body]; [split|]; reflexivity.
Qed.
(** In particular a datagram that lies about its length, its family and its version is
    decoded: an Acknowledge datagram that says it is 9 bytes long, of family 13 and version 0. *)
Theorem C53_header_check_refuted : exists bs p, deserialize AcknowledgePdu bs = Ok (ROk p, []) /\
  uval (header_length (header p)) = 9 /\ lenN bs = 32 /\
  code (protocol_family (header p)) = 13 /\ code (cls_family AcknowledgePdu) = 5 /\ code (protocol_version (header p)) = 0.
Proof.
  assert (C : match deserialize AcknowledgePdu (map B ([0; 1; 15; 13; 0; 0; 0; 0; 0; 9; 0; 0] ++ repeat 0 20)) with
    | Ok (ROk p, rest) => (uval (header_length (header p)), lenN rest, code (protocol_family (header p)), code (protocol_version (header p)))
    | _ => (0, 9, 0, 0) end = (9, 0, 13, 0)) by (vm_compute; reflexivity).
  exists (map B ([0; 1; 15; 13; 0; 0; 0; 0; 0; 9; 0; 0] ++ repeat 0 20)).
  destruct (deserialize AcknowledgePdu _) as [[[p|] rest]|]; [|discriminate C..]. injection C as C1 C2 C3 C4.
  destruct rest; [|discriminate C2]. exists p. repeat split; assumption.
Qed.
Example C53_example : wire_type (map B ([0; 1; 15; 13; 0; 0; 0; 0; 0; 9; 0; 0] ++ repeat 0 20)) = wire_type (map B ([7; 9; 15; 5; 1; 1; 1; 1; 0; 32; 0; 0] ++ repeat 0 20)).
Proof. vm_compute. reflexivity. Qed.

(** ** C54: receiving as in the guide and the examples: a buffer of [n] zero bytes is filled
    with (the first [n] bytes of) a datagram and the whole buffer is decoded. *)
Definition received (n : nat) (datagram : bytes) : bytes := firstn n (datagram ++ repeat (B 0) n).
Lemma received_length n d : length (received n d) = n.
Proof. unfold received. apply firstn_length_le. rewrite app_length, repeat_length. lia. Qed.

(** If the buffer is at least as large as the fixed part of the class, no datagram whatsoever
    makes the decoder panic: those with the class's type are decoded, [default_size] bytes
    being read, the others are refused. A truncated datagram is accepted silently, zeros
    taking the place of what is missing. *)
Theorem C54_zero_filled : forall m c n d, In c (all_pdus m) -> ordinary c -> default_size c <= N.of_nat n ->
  (wire_type (received n d) = code (cls_type c) ->
     exists p, deserialize c (received n d) = Ok (ROk p, skipn (N.to_nat (default_size c)) (received n d))) /\
  (wire_type (received n d) <> code (cls_type c) ->
     exists t, code t = wire_type (received n d) /\ deserialize c (received n d) = Ok (RErr (InvalidHeader (cls_type c) t), skipn 12 (received n d))).
Proof.
  intros m c n d I O H. assert (L := received_length n d). set (bs := received n d) in *. clearbody bs. subst n.
  assert (G := default_size_ge m c I). assert (L12 : (12 <= length bs)%nat) by lia.
  split; intros T.
  - destruct (deserialize c bs) as [[[p|e] rest]|e] eqn:D.
    + exists p. destruct (ordinary_consumes m c I O _ _ _ D) as [pre [-> Lp]]. f_equal. f_equal.
      rewrite skipn_app, skipn_all2 by (unfold lenN in Lp; lia). cbn [app].
      replace (N.to_nat (default_size c) - length pre)%nat with 0%nat by (unfold lenN in Lp; lia). reflexivity.
    + destruct (deserialize_cases c bs L12) as [h [_ [_ E]]]. rewrite E, T, N.eqb_refl in D. exfalso. exact (without_header_no_err _ _ _ _ _ D).
    + exfalso. destruct (proj1 (ordinary_panic m c I O bs)) as [K|[_ K]]; [eauto | lia | unfold lenN in K; lia].
  - destruct (deserialize_cases c bs L12) as [h [_ [K E]]]. exists (pdu_type h). split; [exact K|].
    apply N.eqb_neq in T. now rewrite E, T.
Qed.
(** The guide's 1204 bytes are enough for every ordinary class. *)
Theorem C54_guide_buffer : forall m c d e, In c (all_pdus m) -> ordinary c -> deserialize c (received 1204 d) <> Panic e.
Proof.
  intros m c d e I O E. assert (S : default_size c <= 1204).
  { revert c I O E. by_class. all_classes ltac:(intros _ _; vm_compute; discriminate). }
  destruct (C54_zero_filled m c 1204 d I O S) as [H1 H2].
  destruct (N.eq_dec (wire_type (received 1204 d)) (code (cls_type c))) as [T|T].
  - destruct (H1 T) as [p D]. congruence.
  - destruct (H2 T) as [t [_ D]]. congruence.
Qed.
(** Three bytes are enough to be taken for a Fire PDU; an empty datagram is refused. *)
Example C54_example :
  (exists p, deserialize FirePdu (received 1204 (map B [7; 1; 2])) = Ok (ROk p, repeat (B 0) 1108)) /\
  (exists t, deserialize FirePdu (received 1204 []) = Ok (RErr (InvalidHeader (cls_type FirePdu) t), repeat (B 0) 1192)).
Proof.
  destruct (C54_zero_filled Checked FirePdu 1204 (map B [7; 1; 2]) ltac:(cbn; tauto) eq_refl ltac:(vm_compute; discriminate)) as [H _].
  destruct (C54_zero_filled Checked FirePdu 1204 [] ltac:(cbn; tauto) eq_refl ltac:(vm_compute; discriminate)) as [_ H'].
  split.
  - destruct H as [p H]; [reflexivity|]. exists p. refine (eq_trans H _). f_equal.
  - destruct H' as [t [_ H']]; [vm_compute; discriminate|]. exists t. refine (eq_trans H' _). f_equal.
Qed.

(** What the theorems above rest on (one traversal for all of them; not part of the model). *)
Definition Prop_Accept_theorems : True :=
  let _ := @C53_header_ignored in
  let _ := @C53_header_check_refuted in
  let _ := @C54_zero_filled in
  let _ := @C54_guide_buffer in
  I.
Print Assumptions Prop_Accept_theorems.
