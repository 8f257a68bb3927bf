(** * Fresh PDUs on the wire (proof support for C38, C39 and C47). *)
From Verif Require Import Base BaseFacts EnumModel Enums EnumFacts Fixed Header HeaderFacts HeaderProofs PduMacro PduMacroFacts
  DataTypes Bitflags Pdus Spec PdusFacts ClassFacts PduProofs.

Definition new_survives (c : pdu_class) : Prop := forall ts buf,
  exists out, serialize c (pdu_new c ts) buf = Ok (ROk tt, pdu_new c ts, buf ++ out) /\ lenN out = default_size c /\
    forall rest, deserialize c (out ++ rest) = Ok (ROk (pdu_new c ts), rest).

Lemma new_wire c b n : let D := body_default (cls_fields c) in
  prep_body (cls_fields c) D = D -> body_len (cls_fields c) D = n -> 12 + n < 65536 ->
  body_serialize (cls_fields c) D = Ok b -> 12 + lenN b = default_size c ->
  (forall rest, body_deserialize [] (cls_fields c) (b ++ rest) = Ok (D, rest)) -> new_survives c.
Proof.
  intros D H1 H2 Hn H3 Hd H4 ts buf.
  set (h := set_length (as_u16 (12 + n)) (set_protocol_family (cls_family c) (set_pdu_type (cls_type c) (PduHeader_default ts)))).
  assert (T : forall h', try_uint 2 (PduHeader_LENGTH + body_len (cls_fields c) (body (mk_pdu (c := c) h' D))) = Some (as_u16 (12 + n))).
  { intros h'. cbn [body]. rewrite H2. unfold try_uint, PduHeader_LENGTH. rewrite (proj2 (N.ltb_lt _ _)); [reflexivity | exact Hn]. }
  assert (E : pdu_new c ts = mk_pdu h D).
  { unfold pdu_new, finalize, calculate_length, pdu_default. cbn [header body]. fold D. specialize (T h). cbn [body] in T. rewrite T. reflexivity. }
  exists (PduHeader_serialize h ++ b). rewrite E. split; [|split].
  - unfold serialize. cbn [header body]. rewrite H1. unfold calculate_length. rewrite T, H3. reflexivity.
  - unfold lenN in *. rewrite app_length. rewrite header_ser_length. lia.
  - intros rest. rewrite <- app_assoc. unfold deserialize. rewrite header_rt.
    replace (enum_eqb (pdu_type h) (cls_type c)) with true by (symmetry; apply enum_eqb_refl).
    rewrite H4. reflexivity.
Qed.

Ltac new_wire_tac := eapply new_wire;
  [vm_compute; reflexivity | vm_compute; reflexivity | vm_compute; reflexivity | vm_compute; reflexivity | vm_compute; reflexivity
  | intros rest; vm_compute; first [reflexivity | repeat f_equal; apply (Eqdep_dec.UIP_dec Bool.bool_dec)]].
Lemma new_all m : forall c, In c (all_pdus m) -> cls_name c <> "EntityStatePdu"%string -> new_survives c.
Proof.
  by_class. all_classes ltac:(intros N; first [solve [exfalso; apply N; reflexivity] | clear N; new_wire_tac]).
Qed.
