(** * Receiving into a zero-filled buffer, for the classes C54_zero_filled leaves out.
    Vocabulary in [Spec], [SpecSpecial]; [received] in [Prop_Accept]. *)
From Verif Require Import Base BaseFacts EnumModel Enums EnumFacts Fixed Header HeaderFacts PduMacro PduMacroFacts
  DataTypes DataTypesFacts Bitflags BitflagsFacts Pdus PduFields Spec PdusFacts ClassFacts PduProofs SpecSpecial Prop_Needed Prop_Accept Prop_Dispatch.

Lemma received_byte n d i : (i < n)%nat -> (i < length d)%nat -> byte_at (received n d) i = byte_at d i.
Proof.
  intros H L. unfold byte_at, received. f_equal.
  transitivity (nth i (d ++ repeat (B 0) n) (B 0)); [|apply app_nth1, L].
  rewrite <- (firstn_skipn n (d ++ repeat (B 0) n)) at 2. symmetry. apply app_nth1.
  rewrite firstn_length, app_length, repeat_length. lia.
Qed.
Lemma elements_end_min k : forall bs pos, (pos + 12 * k <= elements_end k bs pos)%nat.
Proof. induction k as [|k IH]; intros bs pos; cbn [elements_end]; [lia|]. specialize (IH bs (pos + 12 + N.to_nat (product_at bs pos mod 65536))%nat). lia. Qed.
Lemma records_end_min k : forall bs pos, (pos + 6 * k <= records_end k bs pos)%nat.
Proof. induction k as [|k IH]; intros bs pos; cbn [records_end]; [lia|]. specialize (IH bs (pos + 6 + N.to_nat (be2_at bs (pos + 4)))%nat). lia. Qed.

(** Every class, every buffer of at least twelve bytes, every datagram. *)
Theorem C54_every_class : forall m c n d, In c (all_pdus m) -> (12 <= n)%nat -> let r := received n d in
  (wire_type r <> code (cls_type c) ->
     exists t, code t = wire_type r /\ deserialize c r = Ok (RErr (InvalidHeader (cls_type c) t), skipn 12 r)) /\
  (wire_type r = code (cls_type c) -> (bytes_needed c r <= n)%nat -> ~ decode_overflows m c r ->
     exists p, deserialize c r = Ok (ROk p, skipn (bytes_needed c r) r)) /\
  (wire_type r = code (cls_type c) -> (n < bytes_needed c r)%nat \/ decode_overflows m c r ->
     exists e, deserialize c r = Panic e).
Proof.
  intros m c n d I L r. assert (Lr : length r = n) by apply received_length. repeat split.
  - intros T. assert (L12 : (12 <= length r)%nat) by lia. destruct (deserialize_cases c r L12) as [h [_ [K E]]]. exists (pdu_type h).
    split; [exact K|]. apply N.eqb_neq in T. now rewrite E, T.
  - intros T H O. apply (C14_bytes_read m c r I T); [lia | exact O].
  - intros T H. apply (C14_panics_iff m c r I). right. split; [exact T|]. rewrite Lr. exact H.
Qed.

(** The four classes whose lists are decoded. *)
Definition list_decoding : list string :=
  ["TransferOwnershipPdu"; "SetRecordReliablePdu"; "InformationOperationsActionPdu"; "InformationOperationsReportPdu"]%string.

(** For all others 359 bytes (a transmitter with 255 modulation bytes) are always enough, so
    the 1024 bytes of the examples and the 1204 of the guide are. *)
Theorem C54_sufficient_buffer : forall m c n d e, In c (all_pdus m) -> ~ In (cls_name c) list_decoding -> (359 <= n)%nat ->
  deserialize c (received n d) <> Panic e.
Proof.
  intros m c n d e I NL H E. assert (L := received_length n d). set (r := received n d) in *. clearbody r.
  assert (P : exists e, deserialize c r = Panic e) by eauto. apply (C14_panics_iff m c r I) in P.
  destruct P as [P|[_ [P|[_ [[X|X] _]]]]].
  - lia.
  - assert (Q : (bytes_needed c r <= 359)%nat); [|lia]. clear E P. revert c I NL. by_class.
    all_classes ltac:(intros NL;
      first [ exfalso; apply NL; cbn; tauto
            | change (bytes_needed _ r) with (104 + N.to_nat (byte_at r 100))%nat;
              assert (W : byte_at r 100 < 256) by (unfold byte_at; apply uint_lt); lia
            | apply Nat.leb_le; vm_compute; reflexivity ]).
  - apply NL. rewrite X. cbn. tauto.
  - apply NL. rewrite X. cbn. tauto.
Qed.

Lemma far n pos k b : N.of_nat n <= 65535 -> 65535 <= b -> (0 < pos)%nat -> (0 < k)%nat -> (n < pos + k * N.to_nat b)%nat.
Proof. intros H1 H2 H3 H4. assert (E : (N.to_nat b <= k * N.to_nat b)%nat) by (destruct k; [lia | cbn [Nat.mul]; lia]). lia. Qed.
(** For those four no buffer that fits a UDP datagram is enough: a 56 byte datagram makes the
    decoder panic, whatever the size of the buffer. *)
Theorem C54_list_decoding_refuted : forall m c n, In c (all_pdus m) -> In (cls_name c) list_decoding -> N.of_nat n <= 65535 ->
  exists d e, length d = 56%nat /\ deserialize c (received n d) = Panic e.
Proof.
  intros m c n I NL H.
  set (d := map B ([7; 1; code (cls_type c); 0] ++ repeat 0 32 ++ repeat 255 20)).
  exists d. enough (P : exists e, deserialize c (received n d) = Panic e) by (destruct P as [e P]; exists e; split; [reflexivity | exact P]).
  assert (L := received_length n d). destruct (Nat.lt_ge_cases n 12) as [S|S].
  { exists Underflow. apply deserialize_short. lia. }
  assert (Ld : length d = 56%nat) by reflexivity.
  assert (T : wire_type (received n d) = code (cls_type c)).
  { unfold wire_type. rewrite received_byte by lia. unfold d, byte_at. cbn [app map nth].
    assert (C := enum_fits _ (cls_type c)). unfold B. rewrite as_uint_val by exact C.
    assert (C72 : code (cls_type c) <= 72) by (apply (C51_covered m (code (cls_type c))); eauto).
    apply N.leb_le in C72. rewrite C72. reflexivity. }
  apply (C14_panics_iff m c _ I). right. split; [exact T|]. left. rewrite L.
  assert (B4 : (40 <= n)%nat -> be4_at (received n d) 36 = 4294967295) by (intros K; unfold be4_at; rewrite !received_byte by lia; reflexivity).
  assert (B2 : (40 <= n)%nat -> be2_at (received n d) 38 = 65535) by (intros K; unfold be2_at; rewrite !received_byte by lia; reflexivity).
  assert (B3 : (56 <= n)%nat -> be2_at (received n d) 54 = 65535) by (intros K; unfold be2_at; rewrite !received_byte by lia; reflexivity).
  cbn [list_decoding In] in NL. unfold bytes_needed. destruct NL as [<-|[<-|[<-|[<-|[]]]]]; cbn [String.eqb Ascii.eqb Bool.eqb orb].
  - assert (Q := elements_end_min (N.to_nat (be4_at (received n d) 36)) (received n d) 40).
    destruct (Nat.lt_ge_cases n 40) as [K|K]; [lia|]. refine (Nat.lt_le_trans _ _ _ (far n 40 12 _ H _ _ _) Q); [rewrite (B4 K); discriminate | lia | lia].
  - assert (Q := elements_end_min (N.to_nat (be4_at (received n d) 36)) (received n d) 40).
    destruct (Nat.lt_ge_cases n 40) as [K|K]; [lia|]. refine (Nat.lt_le_trans _ _ _ (far n 40 12 _ H _ _ _) Q); [rewrite (B4 K); discriminate | lia | lia].
  - assert (Q := records_end_min (N.to_nat (be2_at (received n d) 54)) (received n d) 56).
    destruct (Nat.lt_ge_cases n 56) as [K|K]; [lia|]. refine (Nat.lt_le_trans _ _ _ (far n 56 6 _ H _ _ _) Q); [rewrite (B3 K); discriminate | lia | lia].
  - assert (Q := records_end_min (N.to_nat (be2_at (received n d) 38)) (received n d) 40).
    destruct (Nat.lt_ge_cases n 40) as [K|K]; [lia|]. refine (Nat.lt_le_trans _ _ _ (far n 40 6 _ H _ _ _) Q); [rewrite (B2 K); discriminate | lia | lia].
Qed.
(** A transmitter in a 1024 byte buffer; three bytes are enough to be taken for one. *)
Example C54_transmitter_example : exists p, deserialize TransmitterPdu (received 1024 (map B [7; 1; 25])) = Ok (ROk p, repeat (B 0) 920).
Proof.
  assert (I : In TransmitterPdu (all_pdus Checked)) by (cbn; tauto).
  destruct (C54_every_class Checked TransmitterPdu 1024 (map B [7; 1; 25]) I ltac:(lia)) as [_ [H _]].
  destruct H as [p H]; [reflexivity | apply Nat.leb_le; vm_compute; reflexivity | intros [_ [[X|X] _]]; discriminate X|].
  exists p. refine (eq_trans H _). f_equal.
Qed.

(** What the theorems above rest on (one traversal for all of them; not part of the model). *)
Definition Prop_ZeroFilled_theorems : True :=
  let _ := @C54_every_class in
  let _ := @C54_sufficient_buffer in
  let _ := @C54_list_decoding_refuted in
  I.
Print Assumptions Prop_ZeroFilled_theorems.
