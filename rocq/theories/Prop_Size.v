(** * Exact sizes of all classes (C08). Vocabulary in [Spec], [SpecDatum], [SpecSpecial]. *)
From Verif Require Import Base BaseFacts EnumModel Enums EnumFacts Fixed Header HeaderFacts PduMacro PduMacroFacts
  DataTypes DataTypesFacts Bitflags BitflagsFacts Pdus PduFields Spec Wire RecordFacts PdusFacts ClassFacts PduProofs
  SpecDatum DatumFacts SpecSpecial SpecialFacts SizeFacts Prop_Records.

(** ** C08: the number of bytes emitted, for every class *)

(** It is the header length, except for the classes in [length_errors], for which it differs
    by the amount listed there. *)
Theorem C08_emitted_size : forall m c p buf p' out, In c (all_pdus m) ->
  serialize c p buf = Ok (ROk tt, p', buf ++ out) ->
  (exact_length c /\ N.of_nat (length out) = uval (header_length (header p'))) \/
  (exists f, In (err c f) (length_errors m) /\
     Z.of_nat (length out) = (Z.of_N (uval (header_length (header p'))) + f p)%Z).
Proof.
  intros m c p buf p' out I S. destruct (mem_string (cls_name c) inexact_length_pdus) eqn:E; [right | left].
  - assert (X : exists x, In x (length_errors m) /\ projT1 x = c).
    { clear S p p' buf out. revert c I E. by_class.
      all_classes ltac:(intros E; vm_compute in E; first [discriminate E |
        match goal with |- exists x, _ /\ _ = ?c => clear E;
          let l := eval cbv [length_errors] in (length_errors m) in
          let rec go l := match l with err c ?f :: _ => exists (err c f) | _ :: ?l' => go l' end in go l end;
          split; [unfold length_errors; cbn [In]; tauto | reflexivity] ]). }
    destruct X as [x [Ix Ex]]. destruct x as [c' f]. cbn [projT1] in Ex. subst c'. exists f. split; [exact Ix|].
    exact (emitted_err m (existT _ c f) p buf p' out Ix S).
  - split; [exact E|]. destruct (exact_emitted m c I E p buf p' (buf ++ out) S) as [out' [O [_ L]]].
    apply app_inv_head in O. subst out'. symmetry. exact L.
Qed.

(** When the excess of a list of datums vanishes: never counting padding is right iff there
    is no padding. *)
Theorem C08_datum_excess_zero_iff : forall l, (0 <= datum_excess l)%Z /\
  (datum_excess l = 0%Z <->
   Forall (fun d => let bits := uval (VariableDatumRecord_length_bits d) in bits mod 64 = 0 \/ 57 <= bits mod 64) l).
Proof.
  intros l. unfold datum_excess. induction l as [|d l [IH1 IH2]]; cbn [map sumZ fold_right].
  - split; [lia|]. split; [intros _; apply Forall_nil | reflexivity].
  - unfold sumZ in IH1, IH2. set (s := fold_right _ _ _) in *. clearbody s.
    assert (P := uval (VariableDatumRecord_length_bits d)). set (b := uval (VariableDatumRecord_length_bits d)) in *.
    assert (K : datum_padding b = 0 <-> b mod 64 = 0 \/ 57 <= b mod 64).
    { unfold datum_padding. clear. lia. }
    split; [lia|]. rewrite Forall_cons_iff, <- IH2. cbv zeta. fold b. split; [intros H; split; [apply K|]; lia | intros [H1 H2]; apply K in H1; lia].
Qed.

(** A freshly constructed entity state announces 144 bytes but emits 133. *)
Theorem C08_length_refuted : forall ts buf, exists p' out,
  serialize EntityStatePdu (pdu_new EntityStatePdu ts) buf = Ok (ROk tt, p', buf ++ out) /\
  uval (header_length (header p')) = 144 /\ length out = 133%nat.
Proof.
  intros ts buf. assert (I : In EntityStatePdu (all_pdus Checked)) by (apply (nth_error_In _ 5); reflexivity).
  destruct (serialize_cases EntityStatePdu (pdu_new EntityStatePdu ts) buf (all_prep_ok Checked _ I)) as [[L _]|[L [h' [St E]]]].
  { exfalso. revert L. vm_compute. discriminate. }
  destruct (body_ser_total _ (all_ser_total Checked _ I eq_refl) (prep_body (cls_fields EntityStatePdu) (body (pdu_new EntityStatePdu ts)))) as [fl W].
  rewrite W in E. eexists _, _. split; [exact E|]. destruct St as [_ [_ [_ [_ [_ [_ [_ St]]]]]]]. cbn [header].
  rewrite St. split; [vm_compute; reflexivity|].
  assert (Z := emitted_err Checked (nth 0 (length_errors Checked) (err EntityStatePdu (fun _ => 0%Z))) (pdu_new EntityStatePdu ts) buf _ _ (or_introl eq_refl) E).
  cbn [header] in Z. rewrite St in Z.
  change (Z.of_nat (length (PduHeader_serialize h' ++ fl)) = (144 + -11)%Z) in Z. lia.
Qed.

(** What the theorems above rest on (one traversal for all of them; not part of the model). *)
Definition Prop_Size_theorems : True :=
  let _ := @C08_emitted_size in
  let _ := @C08_datum_excess_zero_iff in
  let _ := @C08_length_refuted in
  I.
Print Assumptions Prop_Size_theorems.
