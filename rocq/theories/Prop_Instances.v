(** * Concrete cases that meet the hypotheses of theorems whose own files show none.
    (The theorems are in Prop_Header, Prop_Pdu, Prop_Records, Prop_Special, Prop_Specs and
    Prop_Examples; the others have an example beside them, or no hypotheses.) *)
From Verif Require Import Base BaseFacts EnumModel Enums Header PduMacro DataTypes Pdus Spec ClassFacts PduFields PduProofs SpecSpecial.
From Verif Require Import Prop_Header Prop_Pdu Prop_Records Prop_Special Prop_Specs Prop_Examples.

(** C01: a header in which every field differs from its default. *)
Definition busy_header : PduHeader :=
  mk_PduHeader ProtocolVersion_DIS_PDUv1 (as_u8 9) PduType_Fire ProtocolFamily_RadioCommunications (as_u32 305419896)
    (as_u16 513) (mk_status (as_u8 255)) (as_u8 77).
Example C01_example : map uval (PduHeader_serialize busy_header) = [1; 9; 2; 4; 18; 52; 86; 120; 2; 1; 255; 77] /\
  PduHeader_deserialize (PduHeader_serialize busy_header ++ map B [1; 2]) = Ok (busy_header, map B [1; 2]).
Proof. split; [vm_compute; reflexivity | apply C01_header_roundtrip]. Qed.

(** C06, C16, C17: the row of the table for the Fire PDU. *)
Example C06_example : In FirePdu (all_pdus Checked) /\ assoc (cls_name FirePdu) pdu_table = Some (2, 2, 768) /\
  code (cls_type FirePdu) = 2 /\ code (cls_family FirePdu) = 2.
Proof. split; [cbn; tauto | repeat split]. Qed.
Example C16_example : let p := pdu_new FirePdu (as_u32 5) in
  uval (header_length (header p)) = 96 /\ code (pdu_type (header p)) = 2 /\ uval (timestamp (header p)) = 5.
Proof. vm_compute. auto. Qed.
Example C17_example : exists l, calculate_length FirePdu (pdu_default FirePdu (as_u32 5)) = ROk l /\ uval l = 96.
Proof. exists (as_u16 96). split; vm_compute; reflexivity. Qed.

(** A Fire PDU with body bytes 7 (obtained by decoding them). *)
Definition fire_bytes : bytes := map B [7; 1; 2; 2; 0; 0; 0; 5; 0; 96; 0; 0] ++ repeat (B 7) 84.
Lemma fire_decodes : exists p : pdu FirePdu, deserialize FirePdu fire_bytes = Ok (ROk p, []).
Proof.
  assert (X : match deserialize FirePdu fire_bytes with Ok (ROk _, []) => true | _ => false end = true) by (vm_compute; reflexivity).
  destruct (deserialize FirePdu fire_bytes) as [[[p|e] [|b l]]|e]; try discriminate. now exists p.
Qed.
(** C06_one_class: bytes that some class decodes; by the theorem no other class does. *)
Example C06_one_class_example : exists p : pdu FirePdu, deserialize FirePdu fire_bytes = Ok (ROk p, []) /\
  forall c q rest, In c (all_pdus Checked) -> deserialize c fire_bytes = Ok (ROk q, rest) -> c = FirePdu.
Proof.
  destruct fire_decodes as [p D]. exists p. split; [exact D|]. intros c q rest I E.
  exact (C06_one_class Checked c FirePdu fire_bytes q p rest [] I ltac:(cbn; tauto) E D).
Qed.
(** C10, C15, C37: a class of fixed layout, and a successful serialization of it. *)
Example C10_example : In FirePdu (all_pdus Checked) /\ fixed_layout FirePdu /\ exact_length FirePdu /\
  exists p' out, serialize FirePdu (pdu_new FirePdu (as_u32 5)) (map B [1]) = Ok (ROk tt, p', map B [1] ++ out) /\ lenN out = 96.
Proof.
  assert (F : fixed_layout FirePdu) by (split; reflexivity).
  split; [cbn; tauto|]. split; [exact F|]. split; [reflexivity|].
  destruct (C47_new_roundtrip Checked FirePdu (as_u32 5) (map B [1]) ltac:(cbn; tauto) ltac:(discriminate)) as [out [S [L _]]].
  exists (pdu_new FirePdu (as_u32 5)), out. split; [exact S|]. rewrite L. reflexivity.
Qed.
(** C12: a Signal PDU with three data bytes. *)
Example C12_example : In SignalPdu (all_pdus Checked) /\ ordinary SignalPdu /\ clear_lists (big_signal 3) <> big_signal 3 /\
  exists p' out, serialize SignalPdu (big_signal 3) [] = Ok (ROk tt, p', out) /\ lenN out = 35.
Proof.
  split; [cbn; tauto|]. split; [reflexivity|]. split.
  - intros E. apply (f_equal (fun p => length (SignalPdu_data p))) in E. vm_compute in E. discriminate.
  - assert (X : match serialize SignalPdu (big_signal 3) [] with Ok (ROk _, _, out) => lenN out =? 35 | _ => false end = true) by (vm_compute; reflexivity).
    destruct (serialize SignalPdu (big_signal 3) []) as [[[[[]|] p'] out]|]; try discriminate. exists p', out. split; [reflexivity|]. now apply N.eqb_eq.
Qed.
(** C15: the second serialization of that Signal PDU. *)
Example C15_example : exists p' out, serialize SignalPdu (big_signal 3) [] = Ok (ROk tt, p', out) /\
  serialize SignalPdu p' (map B [8; 8]) = Ok (ROk tt, p', map B [8; 8] ++ out).
Proof.
  destruct C12_example as [I [_ [_ [p' [out [S _]]]]]]. exists p', out. split; [exact S|].
  exact (C15_serialize_twice Checked SignalPdu (big_signal 3) [] p' out (map B [8; 8]) I S).
Qed.
(** C32: bytes with a header of the right type. *)
Example C32_example : (12 <= length fire_bytes)%nat /\ wire_type fire_bytes = code (cls_type FirePdu) /\
  exists h p, deserialize_without_header FirePdu (skipn 12 fire_bytes) h = Ok (ROk p, []) /\ header p = h.
Proof.
  assert (L : (12 <= length fire_bytes)%nat) by (vm_compute; repeat constructor). split; [exact L|]. split; [reflexivity|].
  destruct (C32_without_header_bytes FirePdu fire_bytes L eq_refl) as [h [_ E]]. destruct fire_decodes as [p D]. rewrite E in D.
  exists h, p. split; [exact D|]. exact (proj2 (proj2 (C32_without_header FirePdu h _)) _ _ D).
Qed.
(** C37: two Fire PDUs with different bodies have different datagrams. *)
Example C37_example : exists p q : pdu FirePdu, body p <> body q /\
  forall p' q' out out', serialize FirePdu p [] = Ok (ROk tt, p', out) -> serialize FirePdu q [] = Ok (ROk tt, q', out') -> out <> out'.
Proof.
  destruct fire_decodes as [p D]. exists p, (pdu_new FirePdu (as_u32 5)).
  assert (N : body p <> body (pdu_new FirePdu (as_u32 5))).
  { assert (X : match deserialize FirePdu fire_bytes with Ok (ROk p, _) => uval (EntityId_entity_id (fst (body p))) =? 1799 | _ => false end = true) by (vm_compute; reflexivity).
    rewrite D in X. apply N.eqb_eq in X. intros E. rewrite E in X. vm_compute in X. discriminate. }
  split; [exact N|]. intros p' q' out out' S S' E. subst out'. apply N.
  exact (proj2 (C37_encoding_injective Checked FirePdu p _ [] p' q' out ltac:(cbn; tauto) (conj eq_refl eq_refl) S S')).
Qed.
(** C42: a prefix of the right length, for a class with lists and for one without. *)
Example C42_example : ordinary FirePdu /\ lenN fire_bytes = default_size FirePdu /\ wire_type fire_bytes = code (cls_type FirePdu) /\
  let signal_bytes := map B [7; 1; 26; 4; 0; 0; 0; 0; 0; 32; 0; 0] ++ repeat (B 3) 20 in
  ordinary SignalPdu /\ lenN signal_bytes = default_size SignalPdu /\ wire_type signal_bytes = code (cls_type SignalPdu).
Proof. vm_compute. repeat split. Qed.
Example C42_entity_state_example : let pre := map B [7; 1; 1; 1; 0; 0; 0; 0; 0; 144; 0; 0] ++ repeat (B 0) 121 in
  length pre = 133%nat /\ wire_type pre = 1.
Proof. vm_compute. split; reflexivity. Qed.
(** C46: an element that announces four bytes and has two. *)
Example C46_example : forall m, element_panics m (element 2 2 [1; 2]) /\ ~ element_panics m (element 2 2 [1; 2; 3; 4]).
Proof.
  intros m. split; [right; vm_compute; reflexivity|]. intros [[_ H]|H]; vm_compute in H; [now apply H | discriminate].
Qed.
(** C47: the classes it applies to include one with lists and one with an optional record. *)
Example C47_example : forall m, In SignalPdu (all_pdus m) /\ In TransmitterPdu (all_pdus m) /\
  cls_name SignalPdu <> "EntityStatePdu"%string /\ cls_name TransmitterPdu <> "EntityStatePdu"%string.
Proof. intros m. split; [cbn; tauto|]. split; [cbn; tauto|]. split; discriminate. Qed.
