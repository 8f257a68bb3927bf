(** * Properties of the PDU headers: C01-C04, C20, C33. *)
From Verif Require Import Base EnumModel Enums Fixed Header HeaderFacts HeaderProofs Spec.

(** ** C01: PDU header round-trip *)
Theorem C01_header_roundtrip : forall (h : PduHeader) (rest : bytes),
  length (PduHeader_serialize h) = 12%nat /\
  PduHeader_deserialize (PduHeader_serialize h ++ rest) = Ok (h, rest).
Proof. intros h rest. split; [apply header_ser_length | apply header_rt]. Qed.

(** ** C02: wire layout *)
Theorem C02_header_layout : forall h : PduHeader,
  PduHeader_serialize h =
  [B (code (protocol_version h)); exercise_id h; B (code (pdu_type h)); B (code (protocol_family h))] ++
  be4 (uval (timestamp h)) ++
  be2 (uval (header_length h)) ++
  [status_byte (status_record h); header_padding h].
Proof. exact header_layout. Qed.
Example C02_example :
  map uval (PduHeader_serialize (PduHeader_new (as_u32 305419896) PduType_Fire ProtocolFamily_Warfare (as_u8 9) (as_u16 96)))
  = [7; 9; 2; 2; 18; 52; 86; 120; 0; 96; 0; 0].
Proof. vm_compute. reflexivity. Qed.

(** ** C03: header decoding of arbitrary bytes *)
Theorem C03_header_decode_total : forall bs : bytes, (12 <= length bs)%nat ->
  exists h, PduHeader_deserialize bs = Ok (h, skipn 12 bs) /\
    code (protocol_version h) = (if byte_at bs 0 <=? 7 then byte_at bs 0 else 7) /\
    uval (exercise_id h) = byte_at bs 1 /\
    code (pdu_type h) = (if byte_at bs 2 <=? 72 then byte_at bs 2 else 0) /\
    code (protocol_family h) = (if byte_at bs 3 <=? 13 then byte_at bs 3 else 0) /\
    uval (timestamp h) = be4_at bs 4 /\
    uval (header_length h) = be2_at bs 8 /\
    uval (status_byte (status_record h)) = byte_at bs 10 /\
    uval (header_padding h) = byte_at bs 11.
Proof. exact header_decode. Qed.
Theorem C03_header_decode_short : forall bs : bytes, (length bs < 12)%nat ->
  PduHeader_deserialize bs = Panic Underflow.
Proof. exact header_short. Qed.
(** The defaults named in the English statement. *)
Example C03_defaults : code ProtocolVersion_IEEE1278_1_2012 = 7 /\ code PduType_Other = 0 /\ code ProtocolFamily_Other = 0.
Proof. repeat split. Qed.
Example C03_example :
  match PduHeader_deserialize (map B [99; 3; 200; 77; 0; 0; 1; 0; 0; 12; 255; 5; 42]) with
  | Ok (h, rest) => (code (protocol_version h), code (pdu_type h), code (protocol_family h), uval (timestamp h), map uval rest)
  | Panic _ => (0, 0, 0, 0, [])
  end = (7, 0, 0, 256, [42]).
Proof. vm_compute. reflexivity. Qed.

(** ** C04: get_pdu_type *)
Theorem C04_get_pdu_type : forall bs : bytes,
  ((length bs < 12)%nat -> PduHeader_get_pdu_type bs = Ok None) /\
  ((12 <= length bs)%nat ->
     exists h, PduHeader_deserialize bs = Ok (h, skipn 12 bs) /\
               PduHeader_get_pdu_type bs = Ok (Some (pdu_type h)) /\
               code (pdu_type h) = wire_type bs).
Proof. intros bs. split; [apply get_pdu_type_short | apply get_pdu_type_spec]. Qed.
Theorem C04_get_pdu_type_only_third_byte : forall bs bs' : bytes,
  (12 <= length bs)%nat -> (12 <= length bs')%nat -> nth 2 bs (B 0) = nth 2 bs' (B 0) ->
  PduHeader_get_pdu_type bs = PduHeader_get_pdu_type bs'.
Proof.
  intros bs bs' H H' E.
  destruct (get_pdu_type_spec bs H) as [h [_ [G C]]], (get_pdu_type_spec bs' H') as [h' [_ [G' C']]].
  rewrite G, G'. do 2 f_equal. apply EnumFacts.enum_eq. rewrite C, C'. unfold wire_type, byte_at. rewrite E. reflexivity.
Qed.
Example C04_example : PduHeader_get_pdu_type (map B [7; 1; 26; 4; 0; 0; 0; 0; 0; 0; 0; 0; 1; 2]) = Ok (Some PduType_Signal).
Proof. vm_compute. reflexivity. Qed.

(** ** C20: PDU status record. Setting an indicator changes only its bits, which then hold
    its code, and reading it back gives the value set. *)
Theorem C20_set_tei : forall x s, let s' := sr_set_tei x s in
  only_bits 0 1 s s' /\ bits_of s' 0 1 = code x /\ sr_tei s' = Ok x.
Proof.
  intros x s. destruct (setter_ok _ (fun x s => Ok (sr_set_tei x s)) sr_tei 0 1 ltac:(vm_compute; reflexivity) x s) as [s' [[= <-] H]]. exact H.
Qed.
Theorem C20_set_lvc : forall x s, let s' := sr_set_lvc x s in
  only_bits 1 2 s s' /\ bits_of s' 1 2 = code x /\ sr_lvc s' = Ok x.
Proof.
  intros x s. destruct (setter_ok _ (fun x s => Ok (sr_set_lvc x s)) sr_lvc 1 2 ltac:(vm_compute; reflexivity) x s) as [s' [[= <-] H]]. exact H.
Qed.
Theorem C20_set_cei : forall x s, let s' := sr_set_cei x s in
  only_bits 3 1 s s' /\ bits_of s' 3 1 = code x /\ sr_cei s' = Ok x.
Proof.
  intros x s. destruct (setter_ok _ (fun x s => Ok (sr_set_cei x s)) sr_cei 3 1 ltac:(vm_compute; reflexivity) x s) as [s' [[= <-] H]]. exact H.
Qed.
Theorem C20_set_dti : forall x s, exists s', sr_set_dti x s = Ok s' /\
  only_bits 4 2 s s' /\ bits_of s' 4 2 = code x /\ sr_get_dti s' = x.
Proof.
  intros x s. destruct (setter_ok _ sr_set_dti (fun s => Ok (sr_get_dti s)) 4 2 ltac:(vm_compute; reflexivity) x s) as [s' [E [H1 [H2 [= H3]]]]].
  exists s'. auto.
Qed.
Theorem C20_set_rai : forall x s, exists s', sr_set_rai x s = Ok s' /\
  only_bits 4 2 s s' /\ bits_of s' 4 2 = code x /\ sr_get_rai s' = x.
Proof.
  intros x s. destruct (setter_ok _ sr_set_rai (fun s => Ok (sr_get_rai s)) 4 2 ltac:(vm_compute; reflexivity) x s) as [s' [E [H1 [H2 [= H3]]]]].
  exists s'. auto.
Qed.
Theorem C20_set_iai : forall x s, exists s', sr_set_iai x s = Ok s' /\
  only_bits 4 2 s s' /\ bits_of s' 4 2 = code x /\ sr_get_iai s' = x.
Proof.
  intros x s. destruct (setter_ok _ sr_set_iai (fun s => Ok (sr_get_iai s)) 4 2 ltac:(vm_compute; reflexivity) x s) as [s' [E [H1 [H2 [= H3]]]]].
  exists s'. auto.
Qed.
Theorem C20_set_fti : forall x s, exists s', sr_set_fti x s = Ok s' /\
  only_bits 4 1 s s' /\ bits_of s' 4 1 = code x /\ sr_get_fti s' = x.
Proof.
  intros x s. destruct (setter_ok _ sr_set_fti (fun s => Ok (sr_get_fti s)) 4 1 ltac:(vm_compute; reflexivity) x s) as [s' [E [H1 [H2 [= H3]]]]].
  exists s'. auto.
Qed.
Theorem C20_set_ism : forall x s, exists s', sr_set_ism x s = Ok s' /\
  only_bits 4 1 s s' /\ bits_of s' 4 1 = code x /\ sr_get_ism s' = x.
Proof.
  intros x s. destruct (setter_ok _ sr_set_ism (fun s => Ok (sr_get_ism s)) 4 1 ltac:(vm_compute; reflexivity) x s) as [s' [E [H1 [H2 [= H3]]]]].
  exists s'. auto.
Qed.
Theorem C20_set_aii : forall x s, exists s', sr_set_aii x s = Ok s' /\
  only_bits 5 1 s s' /\ bits_of s' 5 1 = code x /\ sr_get_aii s' = x.
Proof.
  intros x s. destruct (setter_ok _ sr_set_aii (fun s => Ok (sr_get_aii s)) 5 1 ltac:(vm_compute; reflexivity) x s) as [s' [E [H1 [H2 [= H3]]]]].
  exists s'. auto.
Qed.
(** Reading an indicator from any byte never panics and looks only at its bits (the code 3
    of a two-bit indicator, which no variant has, reads as the zero variant). *)
Theorem C20_getters : forall s,
  (exists y, sr_tei s = Ok y /\ code y = bits_of s 0 1) /\
  (exists y, sr_lvc s = Ok y /\ code y = bits_of s 1 2) /\
  (exists y, sr_cei s = Ok y /\ code y = bits_of s 3 1) /\
  code (sr_get_dti s) = (if bits_of s 4 2 =? 3 then 0 else bits_of s 4 2) /\
  code (sr_get_rai s) = (if bits_of s 4 2 =? 3 then 0 else bits_of s 4 2) /\
  code (sr_get_iai s) = (if bits_of s 4 2 =? 3 then 0 else bits_of s 4 2) /\
  code (sr_get_fti s) = bits_of s 4 1 /\
  code (sr_get_ism s) = bits_of s 4 1 /\
  code (sr_get_aii s) = bits_of s 5 1.
Proof.
  intros s. pose (two := fun b : N => if b =? 3 then 0 else b).
  assert (G : forall e (g : PduStatusRecord -> enum e) lo w k,
             getter_check e (fun s => Ok (g s)) lo w k = true -> code (g s) = k (bits_of s lo w)).
  { intros e g lo w k H. destruct (getter_ok _ _ _ _ _ H s) as [y [[= <-] E]]. exact E. }
  split; [exact (getter_ok _ sr_tei 0 1 (fun b => b) ltac:(vm_compute; reflexivity) s)|].
  split; [exact (getter_ok _ sr_lvc 1 2 (fun b => b) ltac:(vm_compute; reflexivity) s)|].
  split; [exact (getter_ok _ sr_cei 3 1 (fun b => b) ltac:(vm_compute; reflexivity) s)|].
  split; [exact (G _ sr_get_dti 4 2 two ltac:(vm_compute; reflexivity))|].
  split; [exact (G _ sr_get_rai 4 2 two ltac:(vm_compute; reflexivity))|].
  split; [exact (G _ sr_get_iai 4 2 two ltac:(vm_compute; reflexivity))|].
  split; [exact (G _ sr_get_fti 4 1 (fun b => b) ltac:(vm_compute; reflexivity))|].
  split; [exact (G _ sr_get_ism 4 1 (fun b => b) ltac:(vm_compute; reflexivity))|].
  exact (G _ sr_get_aii 5 1 (fun b => b) ltac:(vm_compute; reflexivity)).
Qed.
Theorem C20_to_from_u8 : (forall b, sr_to_u8 (sr_from_u8 b) = b) /\ (forall s, sr_from_u8 (sr_to_u8 s) = s).
Proof. split; [reflexivity | intros []; reflexivity]. Qed.
(** AII and FTI share the two bits without disturbing each other: setting both leaves both. *)
Example C20_example :
  (match sr_set_fti (variant FireTypeIndicator_spec 1 eq_refl) (sr_from_u8 (B 193)) with
   | Ok s1 => match sr_set_aii (variant ActiveInterrogationIndicator_spec 1 eq_refl) s1 with
              | Ok s2 => uval (sr_to_u8 s2) | Panic _ => 0 end
   | Panic _ => 0 end) = 241.
Proof. vm_compute. reflexivity. Qed.

(** ** C33: live-entity header *)
Theorem C33_live_header_roundtrip : forall (h : LiveEntityPduHeader) (rest : bytes),
  length (LiveEntityPduHeader_serialize h) = 12%nat /\
  LiveEntityPduHeader_deserialize (LiveEntityPduHeader_serialize h ++ rest) = Ok (h, rest).
Proof. intros h rest. split; apply LiveEntityPduHeader_fixed. Qed.
(** Unknown subprotocol numbers decode to the only variant, which is the default. *)
Theorem C33_live_header_decode : forall bs : bytes, (12 <= length bs)%nat ->
  exists h, LiveEntityPduHeader_deserialize bs = Ok (h, skipn 12 bs) /\
    code (le_protocol_version h) = (if byte_at bs 0 <=? 7 then byte_at bs 0 else 7) /\
    uval (le_exercise_id h) = byte_at bs 1 /\
    code (le_pdu_type h) = (if byte_at bs 2 <=? 72 then byte_at bs 2 else 0) /\
    code (le_protocol_family h) = (if byte_at bs 3 <=? 13 then byte_at bs 3 else 0) /\
    uval (le_timestamp h) = be4_at bs 4 /\
    uval (le_length h) = be2_at bs 8 /\
    code (le_subprotocol_number h) = 0 /\
    uval (le_padding h) = byte_at bs 11.
Proof. exact live_decode. Qed.
Theorem C33_live_header_short : forall bs : bytes, (length bs < 12)%nat ->
  LiveEntityPduHeader_deserialize bs = Panic Underflow.
Proof. apply LiveEntityPduHeader_fixed. Qed.
Theorem C33_live_header_prefix : forall (h : PduHeader) (l : LiveEntityPduHeader),
  le_protocol_version l = protocol_version h -> le_exercise_id l = exercise_id h ->
  le_pdu_type l = pdu_type h -> le_protocol_family l = protocol_family h ->
  le_timestamp l = timestamp h -> le_length l = header_length h ->
  firstn 10 (LiveEntityPduHeader_serialize l) = firstn 10 (PduHeader_serialize h).
Proof.
  intros h l E1 E2 E3 E4 E5 E6. unfold LiveEntityPduHeader_serialize, PduHeader_serialize.
  rewrite E1, E2, E3, E4, E5, E6. reflexivity.
Qed.
Example C33_example :
  map uval (LiveEntityPduHeader_serialize (LiveEntityPduHeader_new (as_u32 16909060) PduType_Appearance
     ProtocolFamily_LiveEntityInformationInteraction (as_u8 5) (as_u16 700)))
  = [7; 5; 47; 11; 1; 2; 3; 4; 2; 188; 0; 0].
Proof. vm_compute. reflexivity. Qed.

(** What the theorems above rest on (one traversal for all of them; not part of the model). *)
Definition Prop_Header_theorems : True :=
  let _ := @C01_header_roundtrip in
  let _ := @C02_header_layout in
  let _ := @C03_header_decode_total in
  let _ := @C03_header_decode_short in
  let _ := @C04_get_pdu_type in
  let _ := @C04_get_pdu_type_only_third_byte in
  let _ := @C20_set_tei in
  let _ := @C20_set_lvc in
  let _ := @C20_set_cei in
  let _ := @C20_set_dti in
  let _ := @C20_set_rai in
  let _ := @C20_set_iai in
  let _ := @C20_set_fti in
  let _ := @C20_set_ism in
  let _ := @C20_set_aii in
  let _ := @C20_getters in
  let _ := @C20_to_from_u8 in
  let _ := @C33_live_header_roundtrip in
  let _ := @C33_live_header_decode in
  let _ := @C33_live_header_short in
  let _ := @C33_live_header_prefix in
  I.
Print Assumptions Prop_Header_theorems.
