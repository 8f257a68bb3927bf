(** * Equality of values (C59). Vocabulary in [SpecEquality]. *)
From Coq Require Import ZArith Lia.
From Flocq Require IEEE754.Binary IEEE754.Bits.
From Verif Require Import Base BaseFacts EnumModel Enums EnumFacts Fixed Header HeaderFacts PduMacro PduMacroFacts DataTypes DataTypesFacts
  PdusFacts Floats Equality EqualityFacts SpecEquality.
Local Open Scope N_scope.

Lemma uint_eqb_iff k (a b : uint k) : uint_eqb a b = true <-> a = b.
Proof. unfold uint_eqb. rewrite N.eqb_eq. split; [apply uint_eq | now intros ->]. Qed.
Lemma enum_same_iff e (a b : enum e) : enum_same a b = true <-> a = b.
Proof. unfold enum_same. rewrite N.eqb_eq. split; [apply enum_eq | now intros ->]. Qed.
Lemma vec_eqb_iff {A} (eq : A -> A -> bool) (R : A -> A -> Prop) : (forall a b, eq a b = true <-> R a b) ->
  forall l l', vec_eqb eq l l' = true <-> Forall2 R l l'.
Proof.
  intros H. induction l as [|x l IH]; intros [|y l']; cbn [vec_eqb].
  - split; [constructor | reflexivity].
  - split; [discriminate | intros X; inversion X].
  - split; [discriminate | intros X; inversion X].
  - rewrite andb_true_iff, H, IH. split; [intros [A1 A2]; constructor; assumption | intros X; inversion X; auto].
Qed.
Lemma Forall2_eq_iff {A} (l l' : list A) : Forall2 eq l l' <-> l = l'.
Proof.
  split; [induction 1; congruence|]. intros <-. induction l; constructor; auto.
Qed.
Lemma vec_uint_iff k (l l' : list (uint k)) : vec_eqb uint_eqb l l' = true <-> l = l'.
Proof. rewrite (vec_eqb_iff _ eq (uint_eqb_iff k)). apply Forall2_eq_iff. Qed.

Ltac flat := rewrite ?andb_true_iff, ?uint_eqb_iff, ?enum_same_iff.
Lemma address_iff a b : SimulationAddress_eqb a b = true <-> a = b.
Proof. destruct a, b. unfold SimulationAddress_eqb. cbn. flat. split; [intros [-> ->]; reflexivity | intros [= -> ->]; auto]. Qed.
Lemma entity_iff a b : EntityId_eqb a b = true <-> a = b.
Proof. destruct a, b. unfold EntityId_eqb. cbn. flat. rewrite address_iff. split; [intros [-> ->]; reflexivity | intros [= -> ->]; auto]. Qed.
Lemma type_iff a b : EntityType_eqb a b = true <-> a = b.
Proof.
  destruct a, b. unfold EntityType_eqb. cbn. flat. split; [intros [[[[[[-> ->] ->] ->] ->] ->] ->]; reflexivity|].
  intros [= -> -> -> -> -> -> ->]. tauto.
Qed.
Lemma status_iff a b : PduStatusRecord_eqb a b = true <-> a = b.
Proof. destruct a, b. unfold PduStatusRecord_eqb. cbn. flat. split; [intros ->; reflexivity | intros [= ->]; auto]. Qed.
Lemma header_iff a b : PduHeader_eqb a b = true <-> a = b.
Proof.
  destruct a, b. unfold PduHeader_eqb. cbn. flat. rewrite status_iff. split; [intros [[[[[[[-> ->] ->] ->] ->] ->] ->] ->]; reflexivity|].
  intros [= -> -> -> -> -> -> -> ->]. tauto.
Qed.
Lemma live_iff a b : LiveEntityPduHeader_eqb a b = true <-> a = b.
Proof.
  destruct a, b. unfold LiveEntityPduHeader_eqb. cbn. flat. split; [intros [[[[[[[-> ->] ->] ->] ->] ->] ->] ->]; reflexivity|].
  intros [= -> -> -> -> -> -> -> ->]. tauto.
Qed.
Lemma decides {T} (eq : T -> T -> bool) enc (dec : reader T) : (forall a b, eq a b = true <-> a = b) ->
  (forall v rest, dec (enc v ++ rest) = Ok (v, rest)) -> decides_encoding eq enc.
Proof.
  intros H R a b. split; [apply H|]. rewrite H. split; [now intros ->|]. intros E.
  assert (Ra := R a []). rewrite E, (R b []) in Ra. now injection Ra.
Qed.
Lemma fc_decides {T} n (eq : T -> T -> bool) (c : codec T) enc : (forall a b, eq a b = true <-> a = b) ->
  fixed_codec n idn c -> (forall v, c_ser c v = Ok (enc v)) -> decides_encoding eq enc.
Proof.
  intros H F S. apply (decides eq enc (c_des c) H). intros v rest. destruct (fc_ser _ _ _ F v) as [b [Sb [_ R]]].
  rewrite S in Sb. injection Sb as <-. apply R.
Qed.

(** Identifiers, entity types and headers: [==] is identity, and two values are [==] exactly
    when they have the same bytes. *)
Theorem C59_exact :
  decides_encoding SimulationAddress_eqb SimulationAddress_serialize /\
  decides_encoding EntityId_eqb EntityId_serialize /\
  decides_encoding EntityType_eqb EntityType_serialize /\
  decides_encoding PduHeader_eqb PduHeader_serialize /\
  decides_encoding LiveEntityPduHeader_eqb LiveEntityPduHeader_serialize /\
  (forall a b, PduStatusRecord_eqb a b = true <-> a = b) /\
  (forall e (a b : enum e), enum_same a b = true <-> code a = code b).
Proof.
  split; [exact (fc_decides _ _ _ _ address_iff SimulationAddress_fc (fun v => eq_refl))|].
  split; [exact (fc_decides _ _ _ _ entity_iff EntityId_fc (fun v => eq_refl))|].
  split; [exact (fc_decides _ _ _ _ type_iff EntityType_fc (fun v => eq_refl))|].
  split; [exact (decides _ _ _ header_iff header_rt)|].
  split; [apply (decides _ _ LiveEntityPduHeader_deserialize live_iff); intros v rest; apply LiveEntityPduHeader_fixed|].
  split; [exact status_iff|]. intros e a b. apply N.eqb_eq.
Qed.

(** Floats. *)
Lemma f32_iff a b : f32_eqb a b = true <-> same32 a b.
Proof.
  unfold f32_eqb, f_eqb, f_of_bits, Bits.b32_of_bits.
  assert (A := uint_lt _ a). assert (B := uint_lt _ b). change (256 ^ N.of_nat 4) with 4294967296 in A, B.
  etransitivity; [apply (eqb_bits 23 8); change (2 ^ (23 + 8 + 1))%Z with 4294967296%Z; lia|].
  destruct (aux_class 23 8 (Z.of_N (uval a)) eq_refl eq_refl) as [Na Za]. destruct (aux_class 23 8 (Z.of_N (uval b)) eq_refl eq_refl) as [Nb Zb].
  rewrite Na, Nb, Za, Zb. clear Na Nb Za Zb. unfold same32, nan32, zero32.
  change (2 ^ 23)%Z with 8388608%Z. change (2 ^ 8 - 1)%Z with 255%Z. change (2 ^ 8)%Z with 256%Z. change (2 ^ 31) with 2147483648.
  assert (K : forall x, x < 4294967296 -> (((Z.of_N x / 8388608) mod 256 = 255 /\ (Z.of_N x) mod 8388608 <> 0)%Z <-> 2139095040 < x mod 2147483648)) by (intros x; zify; Z.div_mod_to_equations; lia).
  assert (L : forall x, x < 4294967296 -> (((Z.of_N x / 8388608) mod 256 = 0 /\ (Z.of_N x) mod 8388608 = 0)%Z <-> x mod 2147483648 = 0)) by (intros x; zify; Z.div_mod_to_equations; lia).
  rewrite (K _ A), (K _ B), (L _ A), (L _ B).
  assert (E : Z.of_N (uval a) = Z.of_N (uval b) <-> a = b) by (split; [intros E; apply uint_eq; lia | now intros ->]). tauto.
Qed.
Lemma f64_iff a b : f64_eqb a b = true <-> same64 a b.
Proof.
  unfold f64_eqb, f64_of_bits, Bits.b64_of_bits.
  assert (A := uint_lt _ a). assert (B := uint_lt _ b). change (256 ^ N.of_nat 8) with 18446744073709551616 in A, B.
  etransitivity; [apply (eqb_bits 52 11); change (2 ^ (52 + 11 + 1))%Z with 18446744073709551616%Z; lia|].
  destruct (aux_class 52 11 (Z.of_N (uval a)) eq_refl eq_refl) as [Na Za]. destruct (aux_class 52 11 (Z.of_N (uval b)) eq_refl eq_refl) as [Nb Zb].
  rewrite Na, Nb, Za, Zb. clear Na Nb Za Zb. unfold same64, nan64, zero64.
  change (2 ^ 52)%Z with 4503599627370496%Z. change (2 ^ 11 - 1)%Z with 2047%Z. change (2 ^ 11)%Z with 2048%Z. change (2 ^ 63) with 9223372036854775808.
  assert (K : forall x, x < 18446744073709551616 -> (((Z.of_N x / 4503599627370496) mod 2048 = 2047 /\ (Z.of_N x) mod 4503599627370496 <> 0)%Z <-> 9218868437227405312 < x mod 9223372036854775808)) by (intros x; zify; Z.div_mod_to_equations; lia).
  assert (L : forall x, x < 18446744073709551616 -> (((Z.of_N x / 4503599627370496) mod 2048 = 0 /\ (Z.of_N x) mod 4503599627370496 = 0)%Z <-> x mod 9223372036854775808 = 0)) by (intros x; zify; Z.div_mod_to_equations; lia).
  rewrite (K _ A), (K _ B), (L _ A), (L _ B).
  assert (E : Z.of_N (uval a) = Z.of_N (uval b) <-> a = b) by (split; [intros E; apply uint_eq; lia | now intros ->]). tauto.
Qed.

(** [==] on floats: the same number. *)
Theorem C59_floats :
  (forall a b, f32_eqb a b = true <-> same32 a b) /\ (forall a b, f64_eqb a b = true <-> same64 a b).
Proof. exact (conj f32_iff f64_iff). Qed.

Lemma same32_refl a : same32 a a <-> ~ nan32 a.
Proof. unfold same32. tauto. Qed.
Lemma same64_refl a : same64 a a <-> ~ nan64 a.
Proof. unfold same64. tauto. Qed.
Lemma same32_sym a b : same32 a b -> same32 b a.
Proof. unfold same32. intros [A [B [->|C]]]; tauto. Qed.
Lemma same64_sym a b : same64 a b -> same64 b a.
Proof. unfold same64. intros [A [B [->|C]]]; tauto. Qed.
Lemma same32_trans a b c : same32 a b -> same32 b c -> same32 a c.
Proof. unfold same32. intros [A [B [->|C]]] [A' [B' [<-|C']]]; tauto. Qed.
Lemma same64_trans a b c : same64 a b -> same64 b c -> same64 a c.
Proof. unfold same64. intros [A [B [->|C]]] [A' [B' [<-|C']]]; tauto. Qed.

(** Vectors: [==] compares the numbers; a vector equals itself exactly when no component is a
    NaN; with no NaN and no zero, [==] is identity and identity of the encodings. *)
Lemma vector_iff a b : Vector3Float_eqb a b = true <-> Forall2 same32 (vector_components a) (vector_components b).
Proof.
  unfold Vector3Float_eqb, vector_components. rewrite !andb_true_iff, !f32_iff. split.
  - intros [[A B] C]. exact (Forall2_cons _ _ A (Forall2_cons _ _ B (Forall2_cons _ _ C (Forall2_nil _)))).
  - intros H. inversion H as [|? ? ? ? A B]; subst. inversion B as [|? ? ? ? C D]; subst. inversion D; subst. auto.
Qed.
Lemma vector_eq a b : vector_components a = vector_components b -> a = b.
Proof. destruct a, b. unfold vector_components. cbn. now intros [= -> -> ->]. Qed.
Lemma same_list l l' : Forall (fun x => ~ nan32 x /\ ~ zero32 x) l -> (Forall2 same32 l l' <-> l = l').
Proof.
  intros H. split.
  - intros F. induction F as [|x y l l' X F IH]; [reflexivity|]. inversion H; subst. f_equal; [|now apply IH].
    destruct X as [_ [_ [X|X]]]; tauto.
  - intros <-. induction H as [|x l X H IH]; constructor; [|exact IH]. now apply same32_refl.
Qed.
Lemma fc_inj {T} n (c : codec T) enc : fixed_codec n idn c -> (forall v, c_ser c v = Ok (enc v)) -> forall a b, enc a = enc b <-> a = b.
Proof.
  intros F S a b. split; [|now intros ->]. intros E. destruct (fc_ser _ _ _ F a) as [x [Sx [_ Rx]]]. destruct (fc_ser _ _ _ F b) as [y [Sy [_ Ry]]].
  rewrite S in Sx, Sy. injection Sx as <-. injection Sy as <-. specialize (Rx []). specialize (Ry []). rewrite E, Ry in Rx. now injection Rx.
Qed.
Lemma vector_encoding a b : Vector3Float_serialize a = Vector3Float_serialize b <-> a = b.
Proof. exact (fc_inj _ _ _ Vector3Float_fc (fun v => eq_refl) a b). Qed.
Lemma self_list l : Forall2 same32 l l <-> Forall (fun x => ~ nan32 x) l.
Proof.
  induction l as [|x l IH]; [split; constructor|]. split; intros H; inversion H; subst; constructor; 
    solve [apply (proj1 (same32_refl _)); assumption | apply (proj2 (same32_refl _)); assumption | apply (proj1 IH); assumption | apply (proj2 IH); assumption].
Qed.
Theorem C59_vectors : forall a b : Vector3Float,
  (Vector3Float_eqb a b = true <-> Forall2 same32 (vector_components a) (vector_components b)) /\
  (Vector3Float_eqb a a = true <-> Forall (fun x => ~ nan32 x) (vector_components a)) /\
  (Forall (fun x => ~ nan32 x /\ ~ zero32 x) (vector_components a) ->
   (Vector3Float_eqb a b = true <-> a = b) /\
   (Vector3Float_eqb a b = true <-> Vector3Float_serialize a = Vector3Float_serialize b)).
Proof.
  intros a b. split; [apply vector_iff|]. split; [rewrite vector_iff; apply self_list|].
  intros H. assert (E : Vector3Float_eqb a b = true <-> a = b).
  { rewrite vector_iff, (same_list _ _ H). split; [apply vector_eq | now intros ->]. }
  split; [exact E|]. rewrite vector_encoding. exact E.
Qed.

(** Grid axes and grid data. *)
Lemma axis_iff a b : GridAxisType_eqb a b = true <-> same_axis a b.
Proof.
  destruct a, b; unfold GridAxisType_eqb, same_axis; rewrite ?andb_true_iff, ?uint_eqb_iff, ?vec_uint_iff, ?f64_iff;
    [tauto | split; [discriminate | tauto] | split; [discriminate | tauto] | tauto].
Qed.
Lemma data_iff a b : DataRepresentationType_eqb a b = true <-> same_data a b.
Proof.
  destruct a, b; unfold DataRepresentationType_eqb, same_data;
    rewrite ?andb_true_iff, ?uint_eqb_iff, ?vec_uint_iff, ?f32_iff, ?(vec_eqb_iff _ same32 f32_iff);
    try tauto; split; first [discriminate | tauto].
Qed.
Theorem C59_grid :
  (forall a b, GridAxisType_eqb a b = true <-> same_axis a b) /\
  (forall a b, DataRepresentationType_eqb a b = true <-> same_data a b) /\
  (forall a, GridAxisType_eqb a a = true <-> Forall (fun x => ~ nan64 x) (axis_floats a)) /\
  (forall a, DataRepresentationType_eqb a a = true <-> Forall (fun x => ~ nan32 x) (data_floats a)).
Proof.
  split; [exact axis_iff|]. split; [exact data_iff|]. split; intros a.
  - rewrite axis_iff. destruct a; cbn [same_axis axis_floats]; [split; [constructor | tauto]|].
    rewrite !same64_refl. split; [intros H; repeat constructor; tauto|].
    intros H. inversion H as [|? ? A B]; subst. inversion B; subst. tauto.
  - rewrite data_iff. destruct a; cbn [same_data data_floats]; [split; [constructor | tauto]| |].
    + rewrite !same32_refl. split; [intros H; repeat constructor; tauto|].
      intros H. inversion H as [|? ? A B]; subst. inversion B; subst. tauto.
    + rewrite self_list. tauto.
Qed.

(** Every [==] of the library is symmetric and transitive. *)
Lemma exact_partial {T} (eq : T -> T -> bool) : (forall a b, eq a b = true <-> a = b) -> partial_equality eq.
Proof. intros H. split; [intros a b; rewrite !H; congruence | intros a b c; rewrite !H; congruence]. Qed.
Lemma rel_partial {T} (eq : T -> T -> bool) (R : T -> T -> Prop) : (forall a b, eq a b = true <-> R a b) ->
  (forall a b, R a b -> R b a) -> (forall a b c, R a b -> R b c -> R a c) -> partial_equality eq.
Proof. intros H S K. split; [intros a b; rewrite !H; apply S | intros a b c; rewrite !H; apply K]. Qed.
Lemma Forall2_sym {A} (R : A -> A -> Prop) : (forall a b, R a b -> R b a) -> forall l l', Forall2 R l l' -> Forall2 R l' l.
Proof. intros H l l' F. induction F; constructor; auto. Qed.
Lemma Forall2_trans {A} (R : A -> A -> Prop) : (forall a b c, R a b -> R b c -> R a c) ->
  forall l l' l'', Forall2 R l l' -> Forall2 R l' l'' -> Forall2 R l l''.
Proof. intros H l l' l'' F. revert l''. induction F; intros l'' G; inversion G; subst; constructor; eauto. Qed.
Ltac conjs := repeat lazymatch goal with |- _ /\ _ => split end.
Theorem C59_partial_equality :
  partial_equality SimulationAddress_eqb /\ partial_equality EntityId_eqb /\ partial_equality EntityType_eqb /\
  partial_equality PduStatusRecord_eqb /\ partial_equality PduHeader_eqb /\ partial_equality LiveEntityPduHeader_eqb /\
  (forall e, partial_equality (@enum_same e)) /\ partial_equality f32_eqb /\ partial_equality f64_eqb /\
  partial_equality Vector3Float_eqb /\ partial_equality GridAxisType_eqb /\ partial_equality DataRepresentationType_eqb.
Proof.
  split; [apply exact_partial, address_iff|]. split; [apply exact_partial, entity_iff|]. split; [apply exact_partial, type_iff|].
  split; [apply exact_partial, status_iff|]. split; [apply exact_partial, header_iff|]. split; [apply exact_partial, live_iff|].
  split; [intros e; apply exact_partial, enum_same_iff|].
  split; [exact (rel_partial _ _ f32_iff same32_sym same32_trans)|]. split; [exact (rel_partial _ _ f64_iff same64_sym same64_trans)|].
  split; [exact (rel_partial _ _ vector_iff (fun a b => Forall2_sym _ same32_sym _ _) (fun a b c => Forall2_trans _ same32_trans _ _ _))|].
  split.
  - apply (rel_partial _ _ axis_iff).
    + intros [] []; cbn [same_axis]; try tauto; intros H; decompose [and] H; subst; conjs; auto using same64_sym.
    + intros [] [] []; cbn [same_axis]; try tauto; intros H K; decompose [and] H; decompose [and] K; subst; conjs; eauto using same64_trans.
  - apply (rel_partial _ _ data_iff).
    + intros [] []; cbn [same_data]; try tauto; intros H; decompose [and] H; subst; conjs; auto using same32_sym; apply (Forall2_sym _ same32_sym); assumption.
    + intros [] [] []; cbn [same_data]; try tauto; intros H K; decompose [and] H; decompose [and] K; subst;
        conjs; eauto using same32_trans; eapply (Forall2_trans _ same32_trans); eassumption.
Qed.

(** Not an equivalence, and not equality of the encodings: a NaN is not equal to itself, and
    the two zeros are equal with different bytes. *)
Definition nan_vector : Vector3Float := mk_Vector3Float (as_uint 4 0x7FC00000) (as_uint 4 0) (as_uint 4 0).
Definition zero_vector (sign : N) : Vector3Float := mk_Vector3Float (as_uint 4 (sign * 2 ^ 31)) (as_uint 4 0) (as_uint 4 0).
Theorem C59_vectors_refuted :
  ~ (forall a, Vector3Float_eqb a a = true) /\
  ~ (forall a b, Vector3Float_eqb a b = true -> Vector3Float_serialize a = Vector3Float_serialize b).
Proof.
  split; intros H.
  - specialize (H nan_vector). apply (proj1 (proj1 (proj2 (C59_vectors nan_vector nan_vector)))) in H. inversion H as [|? ? A B]; subst.
    apply A. reflexivity.
  - specialize (H (zero_vector 0) (zero_vector 1)). assert (E : Vector3Float_eqb (zero_vector 0) (zero_vector 1) = true) by (vm_compute; reflexivity).
    specialize (H E). apply vector_encoding in H. discriminate (f_equal (fun v => uval (Vector3Float_x v)) H).
Qed.
(** Non-vacuity: 1.0, 2.0, -3.5. *)
Example C59_vectors_nonvacuous : let v := mk_Vector3Float (as_uint 4 0x3F800000) (as_uint 4 0x40000000) (as_uint 4 0xC0600000) in
  Forall (fun x => ~ nan32 x /\ ~ zero32 x) (vector_components v) /\ Vector3Float_eqb v v = true.
Proof.
  split; [|vm_compute; reflexivity]. repeat constructor; first [intros A; vm_compute in A; discriminate A | idtac].
Qed.

(** What the theorems above rest on (one traversal for all of them; not part of the model). *)
Definition Prop_Equality_theorems : True :=
  let _ := @C59_exact in
  let _ := @C59_floats in
  let _ := @C59_vectors in
  let _ := @C59_grid in
  let _ := @C59_partial_equality in
  let _ := @C59_vectors_refuted in
  I.
Print Assumptions Prop_Equality_theorems.
