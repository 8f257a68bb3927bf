(** * The programs and statements of the guides (C69). Vocabulary in [Spec]. *)
From Verif Require Import Base BaseFacts EnumModel Enums EnumFacts Header HeaderFacts HeaderProofs PduMacro PduMacroFacts
  DataTypes Pdus Spec ClassFacts PduProofs Examples Guide Prop_Pdu Prop_Dispatch SpecFresh Prop_Fresh.

Lemma guide_buffer d : recv_into (zero_bytes 1204) d =
  (Nat.min (length d) 1204, firstn 1204 d ++ repeat (B 0) (1204 - length d)).
Proof.
  assert (Z : forall n k, @skipn byte k (repeat (B 0) n) = repeat (B 0) (n - k)).
  { induction n as [|n IH]; intros [|k]; try reflexivity. exact (IH k). }
  assert (L : length (zero_bytes 1204) = 1204%nat) by reflexivity.
  unfold recv_into. rewrite L. f_equal. f_equal. exact (Z 1204%nat (length d)).
Qed.
Lemma guide_buffer_length d : length (firstn 1204 d ++ repeat (B 0) (1204 - length d)) = 1204%nat.
Proof. rewrite app_length, firstn_length, repeat_length. lia. Qed.

(** ** What the receiving program does with a datagram: an empty one makes it loop for ever;
    any other is decoded after at most one iteration, without a panic of the decoder. The third
    byte decides between a PDU and the error that [unwrap] turns into a panic. *)
Theorem C69_receive : forall d,
  (d = [] -> forall fuel, guide_receive fuel d = None) /\
  (d <> [] -> forall fuel,
     (byte_at d 2 = 15 -> exists p, guide_receive (S fuel) d = Some (Ok (ROk p))) /\
     (byte_at d 2 <> 15 -> exists t, guide_receive (S fuel) d = Some (Ok (RErr (InvalidHeader PduType_Acknowledge t))))).
Proof.
  intros d. unfold guide_receive. rewrite guide_buffer. split.
  - intros -> fuel. change (Nat.min (length (@nil byte)) 1204) with 0%nat. induction fuel as [|fuel IH]; [reflexivity | exact IH].
  - intros ND fuel. cbn [guide_loop].
    destruct (Nat.ltb_spec 0 (Nat.min (length d) 1204)) as [_|Z]; [|destruct d; [contradiction | cbn in Z; lia]].
    set (buf := firstn 1204 d ++ _). assert (L := guide_buffer_length d : length buf = 1204%nat).
    assert (T : byte_at buf 2 = byte_at d 2).
    { unfold byte_at, buf. f_equal. destruct d as [|x [|y [|z d']]]; try reflexivity; contradiction. }
    destruct (deserialize_cases AcknowledgePdu buf ltac:(lia)) as [h [_ [_ E]]].
    assert (W : wire_type buf = 15 <-> byte_at d 2 = 15).
    { unfold wire_type. rewrite T. destruct (N.leb_spec (byte_at d 2) 72); lia. }
    change (code (cls_type AcknowledgePdu)) with 15 in E. revert E. destruct (N.eqb_spec (wire_type buf) 15) as [K|K]; intros E; split; intros Q; try (exfalso; tauto).
    + destruct (deserialize AcknowledgePdu buf) as [[[p|e] rest]|e] eqn:D.
      * exists p. reflexivity.
      * exfalso. exact (without_header_no_err _ _ _ _ _ (eq_sym E)).
      * exfalso. assert (X : exists e, deserialize AcknowledgePdu buf = Panic e) by eauto.
        apply (C14_panics_iff_short Checked AcknowledgePdu buf ltac:(cbn; tauto) eq_refl) in X.
        unfold lenN in X. rewrite L in X. change (default_size AcknowledgePdu) with 32 in X. lia.
    + exists (pdu_type h). rewrite E. reflexivity.
Qed.
(** The guide says that data which is not an AcknowledgePdu gives an error; a datagram of three
    bytes is taken for one. *)
Theorem C69_error_refuted : exists d p, length d = 3%nat /\ forall fuel, guide_receive (S fuel) d = Some (Ok (ROk p)).
Proof.
  destruct (C69_receive (map B [7; 1; 15])) as [_ R]. destruct (R ltac:(discriminate) 0%nat) as [[p H] _]; [reflexivity|].
  exists (map B [7; 1; 15]), p. split; [reflexivity|]. intros fuel. exact H.
Qed.

(** ** The two programs together: whatever the fields of the PDU are, the receiver shows it, with
    the header stamped by [serialize]. *)
Theorem C69_send_receive : forall p : pdu AcknowledgePdu, exists d q,
  guide_send p = Ok d /\ (forall fuel, guide_receive (S fuel) d = Some (Ok (ROk q))) /\
  length d = 32%nat /\ body q = body p /\
  stamped PduType_Acknowledge ProtocolFamily_SimulationManagement (as_u16 32) (header p) (header q).
Proof.
  intros p. assert (F : fixed_layout AcknowledgePdu) by (split; reflexivity).
  destruct (C11_fixed_roundtrip Checked AcknowledgePdu p [] ltac:(cbn; tauto) F) as [q [d [S [Bq [St [L R]]]]]].
  change (default_size AcknowledgePdu) with 32 in L. unfold lenN in L. assert (L' : length d = 32%nat) by lia.
  exists d, q. split; [unfold guide_send; rewrite S; reflexivity|]. split; [|auto].
  intros fuel. unfold guide_receive. rewrite guide_buffer, L'. cbn [guide_loop Nat.min Nat.ltb Nat.leb].
  rewrite firstn_all2 by lia. rewrite R. reflexivity.
Qed.

(** ** "72 PDUs, all of which have been implemented in this crate": there are 66 classes, and
    six of the 72 numbers of the standard have none. *)
Theorem C69_72_refuted : forall m, length (all_pdus m) = 66%nat /\ NoDup (map cls_name (all_pdus m)) /\
  forall n, 1 <= n <= 72 -> (~ exists c, In c (all_pdus m) /\ code (cls_type c) = n) <-> In n [46; 47; 48; 49; 50; 63].
Proof.
  intros m. split; [destruct m; reflexivity|]. split.
  { exact (proj1 (proj2 (proj2 (proj2 (C06_all_of_table m))))). }
  intros n R. rewrite C51_covered. change classless with [46; 47; 48; 49; 50; 63].
  destruct (in_dec N.eq_dec n [46; 47; 48; 49; 50; 63]); tauto.
Qed.

Lemma same_stamp c h h' (b : values (cls_fields c)) buf p out :
  (forall l, set_length l (set_protocol_family (cls_family c) (set_pdu_type (cls_type c) h)) =
             set_length l (set_protocol_family (cls_family c) (set_pdu_type (cls_type c) h'))) ->
  serialize c (mk_pdu h b) buf = Ok (ROk tt, p, out) -> serialize c (mk_pdu h' b) buf = Ok (ROk tt, p, out).
Proof.
  intros H. unfold serialize, calculate_length. cbn [header body]. cbv zeta. destruct (try_uint 2 _) as [l|]; [|discriminate].
  rewrite H. trivial.
Qed.
(** ** The example of the crate documentation: for every class, [default] and [new] followed by
    [serialize] emit the same bytes: those of the fresh PDU (C57). *)
Theorem C69_doc_example : forall m c ts, In c (all_pdus m) ->
  exists d t f bits, doc_example c ts = Ok d /\
    assoc (cls_name c) pdu_table = Some (t, f, bits) /\ d = fresh_datagram (cls_name c) t f bits (uval ts) /\
    exists p, serialize c (pdu_new c ts) [] = Ok (ROk tt, p, d).
Proof.
  intros m c ts I. destruct (C57_fresh_datagram m c ts [] I) as [t [f [bits [A S]]]].
  exists (fresh_datagram (cls_name c) t f bits (uval ts)), t, f, bits.
  split; [|split; [exact A|]; split; [reflexivity|]; eexists; exact S].
  unfold doc_example.
  assert (E := same_stamp c (header (pdu_new c ts)) (header (pdu_default c ts)) (body (pdu_default c ts)) []).
  assert (X := E _ _ ltac:(reflexivity) S). change (mk_pdu _ _) with (pdu_default c ts) in X. rewrite X. reflexivity.
Qed.
Example C69_example : guide_receive 5 [] = None /\
  match guide_receive 1 (map B [7; 1; 16; 5]) with Some (Ok (RErr (InvalidHeader _ t))) => code t = 16 | _ => False end.
Proof. split; vm_compute; reflexivity. Qed.

(** What the theorems above rest on (one traversal for all of them; not part of the model). *)
Definition Prop_Guide_theorems : True :=
  let _ := @C69_receive in
  let _ := @C69_error_refuted in
  let _ := @C69_send_receive in
  let _ := @C69_72_refuted in
  let _ := @C69_doc_example in
  I.
Print Assumptions Prop_Guide_theorems.
