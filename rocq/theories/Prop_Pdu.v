(** * Properties of all PDU classes: C05-C17, C19, C32, C37, C42.
    [In c (all_pdus m)]: [c] is one of the 66 classes ([m]: build profile). *)
From Verif Require Import Base BaseFacts EnumModel Enums Header PduMacro DataTypes Pdus PduFields ClassFacts PduProofs Spec.

(** ** C05: typed deserialization accepts exactly its own PDU type.
    Holds for every class that [define_pdu!] could generate. *)
Theorem C05_type_check : forall (c : pdu_class) (bs : bytes), (12 <= length bs)%nat ->
  exists h, PduHeader_deserialize bs = Ok (h, skipn 12 bs) /\ code (pdu_type h) = wire_type bs /\
    (wire_type bs <> code (cls_type c) ->
       deserialize c bs = Ok (RErr (InvalidHeader (cls_type c) (pdu_type h)), skipn 12 bs)) /\
    (wire_type bs = code (cls_type c) ->
       (forall e rest, deserialize c bs <> Ok (RErr e, rest)) /\
       (forall p rest, deserialize c bs = Ok (ROk p, rest) -> header p = h)).
Proof.
  intros c bs H. destruct (deserialize_cases c bs H) as [h [D [T E]]]. exists h.
  split; [exact D|]. split; [exact T|]. split; intros W; rewrite E.
  - apply N.eqb_neq in W. now rewrite W.
  - rewrite W, N.eqb_refl. split; [apply without_header_no_err | apply without_header_header].
Qed.
Example C05_example :
  deserialize FirePdu (map B [7; 1; 4; 1; 0; 0; 0; 0; 0; 12; 0; 0; 9; 9])
  = Ok (RErr (InvalidHeader PduType_Fire PduType_Collision), map B [9; 9]).
Proof. vm_compute. reflexivity. Qed.

(** ** C06: type numbers and families *)
Theorem C06_types_and_families : forall m c, In c (all_pdus m) ->
  exists t f bits, assoc (cls_name c) pdu_table = Some (t, f, bits) /\
    code (cls_type c) = t /\ code (cls_family c) = f.
Proof.
  intros m. by_class. all_classes ltac:(do 3 eexists; split; [vm_compute; reflexivity | split; reflexivity]).
Qed.
Theorem C06_all_of_table : forall m,
  length (all_pdus m) = 66%nat /\ length pdu_table = 66%nat /\
  (forall name, In name (map fst pdu_table) <-> In name (map cls_name (all_pdus m))) /\
  NoDup (map cls_name (all_pdus m)) /\
  NoDup (map (fun c => code (cls_type c)) (all_pdus m)).
Proof.
  intros m. split; [reflexivity|]. split; [reflexivity|]. split; [|split].
  - intros name. split; apply incl_check; destruct m; vm_compute; reflexivity.
  - apply (nodup_check String.eqb String.eqb_refl). destruct m; vm_compute; reflexivity.
  - apply (nodup_check N.eqb N.eqb_refl). destruct m; vm_compute; reflexivity.
Qed.
(** At most one class accepts a given datagram. *)
Theorem C06_one_class : forall m c c' bs p p' rest rest',
  In c (all_pdus m) -> In c' (all_pdus m) ->
  deserialize c bs = Ok (ROk p, rest) -> deserialize c' bs = Ok (ROk p', rest') -> c = c'.
Proof.
  intros m c c' bs p p' rest rest' I I' D D'.
  destruct (Nat.ltb_spec (length bs) 12) as [H|H].
  { rewrite deserialize_short in D by exact H. discriminate. }
  destruct (deserialize_cases c bs H) as [h [_ [_ E]]], (deserialize_cases c' bs H) as [h' [_ [_ E']]].
  rewrite E in D. rewrite E' in D'.
  destruct (N.eqb_spec (wire_type bs) (code (cls_type c))) as [T|]; [|discriminate].
  destruct (N.eqb_spec (wire_type bs) (code (cls_type c'))) as [T'|]; [|discriminate].
  rewrite T in T'. destruct (C06_all_of_table m) as [_ [_ [_ [_ ND]]]].
  clear - ND I I' T'. induction (all_pdus m) as [|x l IH]; [destruct I|].
  cbn [map] in ND. inversion ND as [|a b Hn ND' EQ]; subst. destruct I as [->|I], I' as [->|I'].
  - reflexivity.
  - exfalso. apply Hn. rewrite T'. apply (in_map (fun c => code (cls_type c)) _ _ I').
  - exfalso. apply Hn. rewrite <- T'. apply (in_map (fun c => code (cls_type c)) _ _ I).
  - apply IH; assumption.
Qed.

(** ** C07: serialization appends and stamps the header *)
Theorem C07_serialize_appends_and_stamps : forall m c p buf p' buf',
  In c (all_pdus m) -> serialize c p buf = Ok (ROk tt, p', buf') ->
  exists len fields,
    buf' = buf ++ PduHeader_serialize (header p') ++ fields /\
    stamped (cls_type c) (cls_family c) len (header p) (header p') /\
    calculate_length c p = ROk len /\ calculate_length c p' = ROk len /\
    written (cls_fields c) (body p') fields /\
    reset_fields (auto_len_fields c) (cls_fields c) (body p') = reset_fields (auto_len_fields c) (cls_fields c) (body p) /\
    (auto_len_fields c = [] -> body p' = body p).
Proof.
  intros m c p buf p' buf' I S. destruct (serialize_spec m c I _ _ _ _ S) as [fl [E [St [L [D [Eb W]]]]]].
  assert (P := all_prep_ok m c I). apply N.leb_le in L.
  exists (as_u16 (declared_size p)), fl. split; [exact E|]. split; [exact St|].
  rewrite !calculate_length_spec, D, L. split; [reflexivity|]. split; [reflexivity|].
  split; [apply written_iff, W|]. rewrite Eb. split; [apply (prep_reset _ P) | intros A; apply (prep_default _ P A)].
Qed.
Example C07_example :
  match serialize ResupplyCancelPdu (pdu_default ResupplyCancelPdu (as_u32 7)) (map B [170]) with
  | Ok (ROk _, p', buf') => (map uval buf', uval (header_length (header p')))
  | _ => ([], 0)
  end = ([170; 7; 1; 8; 3; 0; 0; 0; 7; 0; 24; 0; 0; 0; 1; 0; 1; 0; 0; 0; 1; 0; 1; 0; 0], 24).
Proof. vm_compute. reflexivity. Qed.

(** ** C08: header length equals bytes emitted.
    Here for the 48 classes of [exact_length]; it is false for the other 18, for which
    [C08_emitted_size] (Prop_Size) gives the exact difference. *)
Theorem C08_length_is_bytes_emitted : forall m c p buf p' buf',
  In c (all_pdus m) -> exact_length c -> serialize c p buf = Ok (ROk tt, p', buf') ->
  exists out, buf' = buf ++ out /\ uval (header_length (header p')) = lenN out /\
    exists len, calculate_length c p = ROk len /\ uval len = lenN out.
Proof.
  intros m c p buf p' buf' I X S. destruct (exact_emitted m c I X _ _ _ _ S) as [out [E [L H]]].
  exists out. split; [exact E|]. split; [exact H|].
  destruct (serialize_spec m c I _ _ _ _ S) as [_ [_ [_ [B _]]]].
  exists (as_u16 (declared_size p)). rewrite calculate_length_spec. split.
  - apply N.leb_le in B. now rewrite B.
  - rewrite L. apply as_uint_val. change (256 ^ N.of_nat 2) with 65536. lia.
Qed.
Example C08_how_many : forall m,
  length (filter (fun c => negb (mem_string (cls_name c) inexact_length_pdus)) (all_pdus m)) = 48%nat.
Proof. intros []; vm_compute; reflexivity. Qed.

(** ** C09: oversized PDUs are refused without touching the buffer *)
Theorem C09_oversize_refused : forall m c p buf, In c (all_pdus m) ->
  (65535 < declared_size p ->
     exists p', serialize c p buf = Ok (RErr (PduSizeExceeded (declared_size p) 8192), p', buf) /\
       stamped (cls_type c) (cls_family c) (header_length (header p)) (header p) (header p') /\
       reset_fields (auto_len_fields c) (cls_fields c) (body p') = reset_fields (auto_len_fields c) (cls_fields c) (body p) /\
       (auto_len_fields c = [] -> body p' = body p)) /\
  (declared_size p <= 65535 -> forall e p' buf', serialize c p buf <> Ok (RErr e, p', buf')).
Proof.
  intros m c p buf I. destruct (serialize_cases c p buf (all_prep_ok m c I)) as [[L [p' [E [S Eb]]]]|[L [h' [S E]]]].
  - split; [|lia]. intros _. exists p'. split; [exact E|]. split; [exact S|]. assert (P := all_prep_ok m c I). rewrite Eb.
    split; [apply (prep_reset _ P) | intros A; apply (prep_default _ P A)].
  - split; [lia|]. intros _ e p' buf'. rewrite E. destruct (body_serialize _ _); discriminate.
Qed.
(** The declared size is the real one for the exact classes: refused iff header and
    fields together would exceed 65535 bytes. *)
Theorem C09_oversize_iff_bytes : forall m c p buf fields, In c (all_pdus m) -> exact_length c ->
  written (cls_fields c) (body p) fields ->
  (exists e p', serialize c p buf = Ok (RErr e, p', buf)) <-> 65535 < 12 + lenN fields.
Proof.
  intros m c p buf fl I X W. apply written_iff in W.
  assert (L := PduMacroFacts.body_len_ok _ (all_len_ok m c I X) _ _ W).
  rewrite L. fold (declared_size p). destruct (C09_oversize_refused m c p buf I) as [H1 H2]. split.
  - intros [e [p' E]]. destruct (N.ltb_spec 65535 (declared_size p)) as [K|K]; [exact K|]. exfalso. exact (H2 K _ _ _ E).
  - intros K. destruct (H1 K) as [p' [E _]]. eauto.
Qed.
(** A Signal PDU carrying 65504 data bytes declares 65536 bytes and is refused; with one
    byte less it is accepted. *)
Definition big_signal (n : nat) : pdu SignalPdu :=
  mk_pdu (c := SignalPdu) (PduHeader_default (as_u32 0))
    (EntityId_default, (as_uint 2 0, (as_uint 2 0, (enum_default SignalTDLType_spec, (as_uint 4 0, (as_uint 2 0, (as_uint 2 0, (repeat (B 1) n, tt)))))))).
Example C09_example : declared_size (big_signal (N.to_nat 65504)) = 65536 /\ declared_size (big_signal (N.to_nat 65503)) = 65535.
Proof. vm_compute. split; reflexivity. Qed.

(** ** C10: the 8192-octet limit. False: a 9032-byte Signal PDU is emitted. *)
Theorem C10_max_size_refuted :
  exists p p' out, serialize SignalPdu p [] = Ok (ROk tt, p', out) /\ MAX_PDU_SIZE_OCTETS < lenN out.
Proof.
  exists (big_signal (N.to_nat 9000)).
  destruct (serialize SignalPdu (big_signal (N.to_nat 9000)) []) as [[[[[]|] p'] out]|] eqn:E.
  - exists p', out. split; [reflexivity|].
    destruct (exact_emitted Checked SignalPdu ltac:(cbn; tauto) eq_refl _ _ _ _ E) as [o [Eo [L _]]].
    cbn [app] in Eo. subst o. rewrite L. vm_compute. reflexivity.
  - exfalso. revert E. destruct (C09_oversize_refused Checked SignalPdu (big_signal (N.to_nat 9000)) [] ltac:(cbn; tauto)) as [_ H].
    apply H. vm_compute. discriminate.
  - exfalso. exact (serialize_no_panic Checked SignalPdu ltac:(cbn; tauto) eq_refl _ _ _ E).
Qed.
(** What does hold: fixed-layout classes stay far below the limit, and no class of exact
    length ever emits more than 65535 bytes. *)
Theorem C10_fixed_layout_within_limit : forall m c p buf, In c (all_pdus m) -> fixed_layout c ->
  exists p' out, serialize c p buf = Ok (ROk tt, p', buf ++ out) /\ lenN out <= MAX_PDU_SIZE_OCTETS.
Proof.
  intros m c p buf I F. destruct (fixed_serialize m c I F p buf) as [p' [out [E [_ [_ [L _]]]]]].
  exists p', out. split; [exact E|]. rewrite L. assert (H := default_size_small m c I). unfold MAX_PDU_SIZE_OCTETS. lia.
Qed.
Theorem C10_never_above_65535 : forall m c p buf p' out, In c (all_pdus m) -> exact_length c ->
  serialize c p buf = Ok (ROk tt, p', buf ++ out) -> lenN out <= 65535.
Proof.
  intros m c p buf p' out I X S. destruct (exact_emitted m c I X _ _ _ _ S) as [o [E [L _]]].
  apply app_inv_head in E. subst o. rewrite L. destruct (serialize_spec m c I _ _ _ _ S) as [_ [_ [_ [B _]]]]. exact B.
Qed.

(** ** C11: fixed-layout round-trip *)
Theorem C11_fixed_roundtrip : forall m c p buf, In c (all_pdus m) -> fixed_layout c ->
  exists p' out, serialize c p buf = Ok (ROk tt, p', buf ++ out) /\
    body p' = body p /\
    stamped (cls_type c) (cls_family c) (as_u16 (default_size c)) (header p) (header p') /\
    lenN out = default_size c /\
    forall rest, deserialize c (out ++ rest) = Ok (ROk p', rest).
Proof. intros m c p buf I F. exact (fixed_serialize m c I F p buf). Qed.
Example C11_classes : forall m,
  map cls_name (filter (fun c => negb (mem_string (cls_name c) special_pdus) &&
                                 match list_fields c with [] => true | _ => false end) (all_pdus m))
  = ["DesignatorPdu"; "CollisionPdu"; "CollisionElasticPdu"; "IsPartOfPdu"; "ResupplyCancelPdu"; "RepairCompletePdu";
     "RepairResponsePdu"; "ReceiverPdu"; "CreateEntityPdu"; "RemoveEntityPdu"; "StartResumePdu"; "AcknowledgePdu";
     "CreateEntityReliablePdu"; "RemoveEntityReliablePdu"; "StartResumeReliablePdu"; "AcknowledgeReliablePdu";
     "PointObjectStatePdu"; "FirePdu"]%string.
Proof. intros []; vm_compute; reflexivity. Qed.

(** ** C12: classes with list fields. Lists always decode as empty, their bytes stay unread;
    everything before them survives. *)
Theorem C12_list_roundtrip_exact : forall m c p buf p' buf', In c (all_pdus m) -> ordinary c ->
  serialize c p buf = Ok (ROk tt, p', buf') ->
  body p' = body p /\
  exists fixed lists, buf' = buf ++ fixed ++ lists /\ lenN fixed = default_size c /\
    forall rest, deserialize c (fixed ++ lists ++ rest) = Ok (ROk (clear_lists p'), lists ++ rest).
Proof.
  intros m c p buf p' buf' I O S. destruct (ordinary_roundtrip m c I O _ _ _ _ S) as [Eb [out [E [L R]]]].
  split; [exact Eb|].
  exists (firstn (N.to_nat (default_size c)) out), (skipn (N.to_nat (default_size c)) out).
  rewrite firstn_skipn. split; [exact E|]. split; [unfold lenN; rewrite firstn_length; lia|].
  intros rest. rewrite app_assoc, firstn_skipn. apply R.
Qed.
(** Hence a PDU with a non-empty list never comes back. *)
Theorem C12_nonempty_lists_lost : forall m c p buf p' out, In c (all_pdus m) -> ordinary c ->
  clear_lists p <> p -> serialize c p buf = Ok (ROk tt, p', buf ++ out) ->
  forall rest q left, deserialize c (out ++ rest) = Ok (ROk q, left) -> body q <> body p.
Proof.
  intros m c p buf p' out I O NE S rest q left D Eq.
  destruct (ordinary_roundtrip m c I O _ _ _ _ S) as [Eb [o [E [_ R]]]].
  apply app_inv_head in E. subst o. rewrite R in D. injection D as <- _.
  cbn [body clear_lists] in Eq. apply NE. unfold clear_lists. rewrite <- Eb in Eq. rewrite <- Eb, Eq, Eb. destruct p; reflexivity.
Qed.
Theorem C12_list_roundtrip_refuted : exists p p' out,
  serialize SignalPdu p [] = Ok (ROk tt, p', out) /\
  forall rest q left, deserialize SignalPdu (out ++ rest) = Ok (ROk q, left) -> SignalPdu_data q <> SignalPdu_data p.
Proof.
  exists (big_signal 3). destruct (serialize SignalPdu (big_signal 3) []) as [[[[[]|] p'] out]|] eqn:E;
    [|vm_compute in E; discriminate..].
  exists p', out. split; [reflexivity|]. intros rest q left D.
  destruct (ordinary_roundtrip Checked SignalPdu ltac:(cbn; tauto) eq_refl _ _ _ _ E) as [_ [o [Eo [_ R]]]].
  cbn [app] in Eo. subst o. rewrite R in D. injection D as <- _. vm_compute. discriminate.
Qed.

(** ** C13: back-to-back streams *)
Theorem C13_stream_roundtrip : forall m ps buf,
  Forall (fun p => In (class_of p) (all_pdus m) /\ fixed_layout (class_of p)) ps ->
  exists qs out, serialize_all ps buf = Some (qs, buf ++ out) /\ Forall2 sent_as ps qs /\
    forall rest, deserialize_all (map class_of ps) (out ++ rest) = Some (qs, rest).
Proof. intros m ps buf F. exact (stream_roundtrip m ps F buf). Qed.
Definition stream_example : list any_pdu :=
  [existT _ FirePdu (pdu_default FirePdu (as_u32 5)); existT _ AcknowledgePdu (pdu_default AcknowledgePdu (as_u32 6))].
Example C13_example : Forall (fun p => In (class_of p) (all_pdus Checked) /\ fixed_layout (class_of p)) stream_example.
Proof.
  unfold stream_example. apply Forall_cons; [|apply Forall_cons; [|apply Forall_nil]]; cbn [class_of projT1];
    (split; [cbn; tauto | split; reflexivity]).
Qed.
(** False as soon as a list is non-empty: the second decode starts inside the first PDU. *)
Theorem C13_stream_refuted : exists ps qs out,
  serialize_all ps [] = Some (qs, out) /\ deserialize_all (map class_of ps) out <> Some (qs, []).
Proof.
  exists [existT _ SignalPdu (big_signal 3); existT _ FirePdu (pdu_default FirePdu (as_u32 5))].
  do 2 eexists. split; [vm_compute; reflexivity|]. vm_compute. discriminate.
Qed.

(** ** C14: panics on short input. The exact condition, for every class with fixed fields
    followed by lists. *)
Theorem C14_panics_iff_short : forall m c bs, In c (all_pdus m) -> ordinary c ->
  ((exists e, deserialize c bs = Panic e) <->
   (length bs < 12)%nat \/ (wire_type bs = code (cls_type c) /\ lenN bs < default_size c)).
Proof. intros m c bs I O. exact (ordinary_panic m c I O bs). Qed.
Theorem C14_never_panics_refuted : forall m c, In c (all_pdus m) ->
  forall bs, (length bs < 12)%nat -> deserialize c bs = Panic Underflow.
Proof. intros m c _ bs H. now apply deserialize_short. Qed.
Example C14_example : exists e, deserialize FirePdu (map B [7; 1; 2; 2; 0; 0; 0; 0; 0; 96; 0; 0; 1]) = Panic e.
Proof. eexists. vm_compute. reflexivity. Qed.

(** ** C15: idempotence *)
Theorem C15_serialize_twice : forall m c p buf p' out buf2, In c (all_pdus m) ->
  serialize c p buf = Ok (ROk tt, p', buf ++ out) ->
  serialize c p' buf2 = Ok (ROk tt, p', buf2 ++ out).
Proof. intros m c p buf p' out buf2 I S. exact (serialize_idem m c I p buf p' out buf2 S). Qed.

(** ** C16: constructors *)
Theorem C16_new : forall m c ts, In c (all_pdus m) ->
  exists t f bits, assoc (cls_name c) pdu_table = Some (t, f, bits) /\
  let p := pdu_new c ts in
  protocol_version (header p) = ProtocolVersion_IEEE1278_1_2012 /\ uval (exercise_id (header p)) = 1 /\
  code (pdu_type (header p)) = t /\ code (protocol_family (header p)) = f /\
  timestamp (header p) = ts /\ uval (header_length (header p)) * 8 = bits /\
  uval (status_byte (status_record (header p))) = 0 /\ uval (header_padding (header p)) = 0 /\
  body p = body (pdu_default c ts) /\ calculate_length c p = ROk (header_length (header p)).
Proof.
  intros m c ts. revert c. by_class.
  all_classes ltac:(do 3 eexists; split; [vm_compute; reflexivity | repeat split; vm_compute; reflexivity]).
Qed.
Theorem C16_finalize : forall c (p : pdu c), let q := finalize c p in
  body q = body p /\
  stamped (pdu_type (header p)) (protocol_family (header p)) (header_length (header q)) (header p) (header q) /\
  (forall l, calculate_length c p = ROk l -> header_length (header q) = l) /\
  (forall e, calculate_length c p = RErr e -> uval (header_length (header q)) = 0).
Proof.
  intros c p q. unfold q, finalize. cbn [header body]. split; [reflexivity|]. split; [repeat split|].
  split; intros x E; rewrite E; reflexivity.
Qed.

(** ** C17: default lengths match the published table (sizes in bits) *)
Theorem C17_default_lengths : forall m c ts, In c (all_pdus m) ->
  exists t f bits l, assoc (cls_name c) pdu_table = Some (t, f, bits) /\
    calculate_length c (pdu_default c ts) = ROk l /\ uval l * 8 = bits.
Proof.
  intros m c ts. revert c. by_class.
  all_classes ltac:(do 4 eexists; split; [vm_compute; reflexivity | split; [vm_compute; reflexivity | vm_compute; reflexivity]]).
Qed.

(** ** C19: decode-encode-decode stability *)
Theorem C19_decode_encode_decode : forall m c bs p rest, In c (all_pdus m) -> fixed_layout c ->
  deserialize c bs = Ok (ROk p, rest) ->
  exists p' out, serialize c p [] = Ok (ROk tt, p', out) /\ body p' = body p /\
    stamped (pdu_type (header p)) (cls_family c) (as_u16 (default_size c)) (header p) (header p') /\
    deserialize c out = Ok (ROk p', []) /\ lenN bs = lenN out + lenN rest.
Proof.
  intros m c bs p rest I F D. destruct (fixed_serialize m c I F p []) as [p' [out [E [Eb [St [L R]]]]]].
  exists p', out. split; [exact E|]. split; [exact Eb|]. split; [|split].
  - assert (T : pdu_type (header p) = cls_type c).
    { destruct (Nat.ltb_spec (length bs) 12) as [H|H]; [rewrite deserialize_short in D by exact H; discriminate|].
      destruct (deserialize_cases c bs H) as [h [_ [T W]]]. rewrite W in D.
      destruct (N.eqb_spec (wire_type bs) (code (cls_type c))) as [K|]; [|discriminate].
      rewrite (without_header_header _ _ _ _ _ D). apply EnumFacts.enum_eq. congruence. }
    rewrite T. exact St.
  - specialize (R []). now rewrite app_nil_r in R.
  - destruct (fixed_consumes m c I F _ _ _ D) as [pre [-> Lp]]. rewrite lenN_app. rewrite Lp, L. reflexivity.
Qed.

(** ** C32: header-less decoding *)
Theorem C32_without_header : forall (c : pdu_class) (h : PduHeader) (bs : bytes),
  (pdu_type h = cls_type c ->
     deserialize c (PduHeader_serialize h ++ bs) = deserialize_without_header c bs h) /\
  (forall e rest, deserialize_without_header c bs h <> Ok (RErr e, rest)) /\
  (forall p rest, deserialize_without_header c bs h = Ok (ROk p, rest) -> header p = h).
Proof.
  intros c h bs. split; [|split; [intros; apply without_header_no_err | intros p rest; apply without_header_header]].
  intros T. unfold deserialize. rewrite HeaderFacts.header_rt, T, HeaderFacts.enum_eqb_refl. reflexivity.
Qed.
(** ... and for arbitrary received bytes, with the header decoded from them. *)
Theorem C32_without_header_bytes : forall (c : pdu_class) (bs : bytes),
  (12 <= length bs)%nat -> wire_type bs = code (cls_type c) ->
  exists h, PduHeader_deserialize bs = Ok (h, skipn 12 bs) /\
    deserialize c bs = deserialize_without_header c (skipn 12 bs) h.
Proof.
  intros c bs H T. destruct (deserialize_cases c bs H) as [h [D [_ E]]]. exists h. split; [exact D|].
  rewrite E, T, N.eqb_refl. reflexivity.
Qed.
(** The body does not depend on the supplied header. *)
Theorem C32_header_irrelevant : forall (c : pdu_class) (h h' : PduHeader) (bs : bytes) p rest,
  deserialize_without_header c bs h = Ok (ROk p, rest) ->
  deserialize_without_header c bs h' = Ok (ROk (mk_pdu h' (body p)), rest).
Proof.
  intros c h h' bs p rest. unfold deserialize_without_header.
  destruct (body_deserialize _ _ _) as [[b r]|]; [|discriminate]. intros [= <- <-]. reflexivity.
Qed.

(** ** C37: injectivity *)
Theorem C37_encoding_injective : forall m c p q buf p' q' buf', In c (all_pdus m) -> fixed_layout c ->
  serialize c p buf = Ok (ROk tt, p', buf') -> serialize c q buf = Ok (ROk tt, q', buf') ->
  p' = q' /\ body p = body q.
Proof.
  intros m c p q buf p' q' buf' I F S1 S2.
  destruct (fixed_serialize m c I F p buf) as [p1 [o1 [E1 [B1 [_ [_ R1]]]]]].
  destruct (fixed_serialize m c I F q buf) as [q1 [o2 [E2 [B2 [_ [_ R2]]]]]].
  rewrite E1 in S1. rewrite E2 in S2. injection S1 as <- <-. injection S2 as <- E. apply app_inv_head in E. subst o2.
  assert (K : p1 = q1) by (specialize (R1 []); specialize (R2 []); rewrite R1 in R2; congruence).
  split; [exact K|]. rewrite <- B1, <- B2, K. reflexivity.
Qed.

(** ** C42: decoding is local *)
Theorem C42_decode_local : forall m c pre, In c (all_pdus m) -> ordinary c ->
  lenN pre = default_size c -> wire_type pre = code (cls_type c) ->
  exists p, forall rest, deserialize c (pre ++ rest) = Ok (ROk p, rest).
Proof. intros m c pre I O. exact (ordinary_local m c I O pre). Qed.

(** ** C46: serialization never panics, except for the two classes holding a record
    specification (see [Prop_Special]). *)
Theorem C46_serialize_never_panics : forall m c p buf e, In c (all_pdus m) ->
  cls_name c <> "TransferOwnershipPdu"%string -> cls_name c <> "SetRecordReliablePdu"%string ->
  serialize c p buf <> Panic e.
Proof.
  intros m c p buf e I N1 N2. apply (serialize_no_panic m c I). unfold mem_string, record_specification_pdus, existsb.
  apply String.eqb_neq in N1, N2. rewrite N1, N2. reflexivity.
Qed.

(** What the theorems above rest on (one traversal for all of them; not part of the model). *)
Definition Prop_Pdu_theorems : True :=
  let _ := @C05_type_check in
  let _ := @C06_types_and_families in
  let _ := @C06_all_of_table in
  let _ := @C06_one_class in
  let _ := @C07_serialize_appends_and_stamps in
  let _ := @C08_length_is_bytes_emitted in
  let _ := @C09_oversize_refused in
  let _ := @C09_oversize_iff_bytes in
  let _ := @C10_max_size_refuted in
  let _ := @C10_fixed_layout_within_limit in
  let _ := @C10_never_above_65535 in
  let _ := @C11_fixed_roundtrip in
  let _ := @C12_list_roundtrip_exact in
  let _ := @C12_nonempty_lists_lost in
  let _ := @C12_list_roundtrip_refuted in
  let _ := @C13_stream_roundtrip in
  let _ := @C13_stream_refuted in
  let _ := @C14_panics_iff_short in
  let _ := @C14_never_panics_refuted in
  let _ := @C15_serialize_twice in
  let _ := @C16_new in
  let _ := @C16_finalize in
  let _ := @C17_default_lengths in
  let _ := @C19_decode_encode_decode in
  let _ := @C32_without_header in
  let _ := @C32_without_header_bytes in
  let _ := @C32_header_irrelevant in
  let _ := @C37_encoding_injective in
  let _ := @C42_decode_local in
  let _ := @C46_serialize_never_panics in
  I.
Print Assumptions Prop_Pdu_theorems.
