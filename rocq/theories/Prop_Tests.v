(** * The project's own tests hold at every clock reading (C66).
    The crate's unit and integration tests run once, at whatever time the system clock shows.
    Here each of them is a theorem about the model for every clock reading; where a test is an
    instance of a general statement the general statement is proved. *)
From Coq Require Import ZArith NArith List String Lia Bool.
Import ListNotations.
From Flocq Require Import IEEE754.BinarySingleNaN.
From Verif Require Import Base BaseFacts EnumModel EnumFacts Header HeaderFacts HeaderProofs PduMacro Pdus Spec SpecTests
  ClassFacts PduProofs SpecSpecial Prop_Pdu Prop_Special Prop_Examples.
From Verif Require Floats Prop_Vector.
Local Open Scope N_scope.

Lemma header_ext (h h' : PduHeader) : protocol_version h = protocol_version h' -> exercise_id h = exercise_id h' ->
  timestamp h = timestamp h' -> status_record h = status_record h' -> header_padding h = header_padding h' ->
  pdu_type h = pdu_type h' -> protocol_family h = protocol_family h' -> header_length h = header_length h' -> h = h'.
Proof. destruct h, h'; cbn; intros; subst; reflexivity. Qed.

(** ** [check_default_pdu_length] (66 tests) *)
Theorem C66_default_length : forall m c ts, In c (all_pdus m) ->
  exists bits, assoc (cls_name c) tested_lengths = Some bits /\
    uval (header_length (header (pdu_new c ts))) = bits / 8.
Proof.
  intros m c ts. revert c. by_class.
  all_classes ltac:(eexists; split; [reflexivity | vm_compute; reflexivity]).
Qed.
Theorem C66_every_class_tested : forall m,
  length tested_lengths = 66%nat /\ NoDup (map fst tested_lengths) /\
  (forall name, In name (map fst tested_lengths) <-> In name (map cls_name (all_pdus m))).
Proof.
  intros m. split; [reflexivity|]. split.
  - apply (nodup_check String.eqb String.eqb_refl). vm_compute. reflexivity.
  - intros name. split; apply incl_check; destruct m; vm_compute; reflexivity.
Qed.

(** ** [serialize_then_deserialize] (66 tests) *)
(** Serializing a fresh PDU succeeds, decoding those bytes succeeds (the tests mask a failure
    with [unwrap_or_default]), and the two headers are equal, at every clock reading. *)
Theorem C66_serialize_then_deserialize : forall m c ts, In c (all_pdus m) ->
  exists p' out q rest,
    serialize c (pdu_new c ts) [] = Ok (ROk tt, p', out) /\
    deserialize c out = Ok (ROk q, rest) /\ header q = header p' /\ header p' = header (pdu_new c ts).
Proof.
  intros m c ts I. destruct (String.eqb_spec (cls_name c) "EntityStatePdu") as [E|E].
  - assert (K : c = EntityStatePdu).
    { revert c I E. by_class. all_classes ltac:(intros E; first [discriminate E | reflexivity]). }
    subst c.
    assert (X : exists p' out, serialize EntityStatePdu (pdu_new EntityStatePdu ts) [] = Ok (ROk tt, p', out)).
    { destruct (serialize_cases EntityStatePdu (pdu_new EntityStatePdu ts) [] (all_prep_ok m EntityStatePdu I)) as [[L _]|[_ [h' [_ ->]]]].
      - vm_compute in L. discriminate L.
      - change (body (pdu_new EntityStatePdu ts)) with (body (pdu_default EntityStatePdu (as_u32 0))).
        destruct (body_serialize _ _) as [b|e] eqn:Eb; [eauto | vm_compute in Eb; discriminate Eb]. }
    destruct X as [p' [out S]].
    destruct (C28_entity_state_roundtrip _ [] p' out [] S) as [q [D [[H _] _]]].
    rewrite app_nil_r in D.
    exists p', out, q, (skipn 133 out). split; [exact S|]. split; [exact D|]. split; [exact H|].
    destruct (C07_serialize_appends_and_stamps m EntityStatePdu (pdu_new EntityStatePdu ts) [] p' out I S) as [len [fl [_ [[A1 [A2 [A3 [A4 [A5 [A6 [A7 A8]]]]]]] [L _]]]]].
    assert (L' : calculate_length EntityStatePdu (pdu_new EntityStatePdu ts) = ROk (header_length (header (pdu_new EntityStatePdu ts)))) by (vm_compute; reflexivity).
    rewrite L' in L. injection L as L. rewrite <- L in A8.
    apply header_ext; assumption.
  - destruct (C47_new_roundtrip m c ts [] I E) as [out [S [_ D]]]. specialize (D []). rewrite app_nil_r in D.
    exists (pdu_new c ts), out, (pdu_new c ts), []. auto.
Qed.

(** ** Integration tests *)
Theorem C66_integration : forall ts,
  pdu_type (header (pdu_new AcknowledgePdu ts)) = PduType_Acknowledge /\
  protocol_family (header (pdu_new AcknowledgePdu ts)) = ProtocolFamily_SimulationManagement /\
  pdu_type (header (pdu_new InformationOperationsActionPdu ts)) = PduType_InformationOperationsAction /\
  protocol_family (header (pdu_new InformationOperationsActionPdu ts)) = ProtocolFamily_InformationOperations /\
  pdu_type (header (pdu_new InformationOperationsReportPdu ts)) = PduType_InformationOperationsReport /\
  protocol_family (header (pdu_new InformationOperationsReportPdu ts)) = ProtocolFamily_InformationOperations.
Proof. intros ts. repeat split. Qed.

(** ** [get_pdu_type] (4 tests) *)
(** Of any header built with [PduHeader::new], whatever follows it in the buffer. *)
Theorem C66_get_pdu_type : forall ts t f ex len rest,
  PduHeader_get_pdu_type (PduHeader_serialize (PduHeader_new ts t f ex len) ++ rest) = Ok (Some t).
Proof.
  intros ts t f ex len rest. set (h := PduHeader_new ts t f ex len).
  assert (L := header_ser_length h).
  destruct (get_pdu_type_spec (PduHeader_serialize h ++ rest)) as [h' [D [G _]]]; [rewrite app_length; lia|].
  rewrite header_rt in D. assert (K : h = h') by congruence. rewrite <- K in G. exact G.
Qed.
Theorem C66_get_pdu_type_short : forall bs, (length bs < 12)%nat -> PduHeader_get_pdu_type bs = Ok None.
Proof. exact get_pdu_type_short. Qed.
Theorem C66_get_pdu_type_zeros : forall rest,
  PduHeader_get_pdu_type (repeat (B 0) 12 ++ rest) = Ok (Some PduType_Other).
Proof.
  intros rest. destruct (get_pdu_type_spec (repeat (B 0) 12 ++ rest)) as [h [_ [-> T]]]; [rewrite app_length, repeat_length; lia|].
  do 2 f_equal. apply enum_eq. rewrite T. reflexivity.
Qed.

(** ** Size constants (3 tests) *)
Theorem C66_sizes :
  validate_pdu_size 1000 = true /\ validate_pdu_size MAX_PDU_SIZE_OCTETS = true /\
  validate_pdu_size (MAX_PDU_SIZE_OCTETS + 1) = false /\
  total_pdu_size 100 = PDU_HEADER_SIZE + 100 /\ total_pdu_size 0 = PDU_HEADER_SIZE /\
  validate_marking_length 31 = true /\ validate_marking_length MAX_ENTITY_MARKING_LENGTH = true /\
  validate_marking_length (MAX_ENTITY_MARKING_LENGTH + 1) = false.
Proof. repeat split. Qed.

(** ** Vectors (2 tests) *)
Section vectors.
Import Floats Prop_Vector.
Let v (x y z : Z) : vec3 := mk_vec3 (f_of_Z x) (f_of_Z y) (f_of_Z z).
(** [f32::EPSILON], 2^-23. *)
Let epsilon : F := f_div f_one (f_of_Z (2 ^ 23)).
Theorem C66_vectors :
  vec3_eqb (vec3_add (v 1 2 3) (v 4 5 6)) (v 5 7 9) = true /\
  f_eqb (vec3_dot (v 1 2 3) (v 4 5 6)) (f_of_Z 32) = true /\
  vec3_eqb (vec3_cross (v 1 2 3) (v 4 5 6)) (v (-3) 6 (-3)) = true /\
  vec3_eqb (vec3_mul (v 1 2 3) (f_of_Z 2)) (v 2 4 6) = true /\
  (exists n, vec3_normalize (v 1 2 3) = Some n /\
     Bltb (Babs (f_sub (vec3_magnitude n) f_one)) epsilon = true) /\
  vec3_eqb vec3_zero (v 0 0 0) = true /\ vec3_eqb vec3_unit_x (v 1 0 0) = true.
Proof.
  split; [vm_compute; reflexivity|]. split; [vm_compute; reflexivity|]. split; [vm_compute; reflexivity|].
  split; [vm_compute; reflexivity|]. split.
  { assert (H : match vec3_normalize (v 1 2 3) with Some n => Bltb (Babs (f_sub (vec3_magnitude n) f_one)) epsilon | None => false end = true) by (vm_compute; reflexivity).
    destruct (vec3_normalize (v 1 2 3)) as [n|]; [exists n; auto | discriminate H]. }
  split; vm_compute; reflexivity.
Qed.
End vectors.

Definition Prop_Tests_theorems : True :=
  let _ := @C66_default_length in
  let _ := @C66_every_class_tested in
  let _ := @C66_serialize_then_deserialize in
  let _ := @C66_integration in
  let _ := @C66_get_pdu_type in
  let _ := @C66_get_pdu_type_short in
  let _ := @C66_get_pdu_type_zeros in
  let _ := @C66_sizes in
  I.
Print Assumptions Prop_Tests_theorems.
(** Over Flocq's floats, which rest on the standard library's real numbers. *)
Print Assumptions C66_vectors.
