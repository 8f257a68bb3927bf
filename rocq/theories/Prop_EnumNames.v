(** * C82: the names of enumeration variants.
    What a program writes as [ForceId::Friendly], what [{:?}] prints, which number of SISO-REF-010
    that stands for, and which name unknown numbers get. Specification: [SpecEnumNames]. *)
From Coq Require Import String.
From Verif Require Import Base BaseFacts EnumModel Enums EnumNames EnumFacts SpecEnumNames Header ErrorText Spec Wire WireProofs
  PduProofs.
From Verif Require Prop_Types.
Local Open Scope N_scope.
Local Open Scope string_scope.

Definition uniq (l : list (string * N)) : bool := nodup_by String.eqb (map fst l).
(** The table of names and the table of discriminants were generated separately. *)
Definition row_ok (e : enum_spec) : bool :=
  (if list_eq_dec N.eq_dec (map snd (variants_of e)) (e_codes e) then true else false)
  && uniq (variants_of e) && negb (existsb (String.eqb "") (map fst (variants_of e))).

Lemma all_rows : forall e, In e all_enums -> row_ok e = true.
Proof.
  assert (F : Forall (fun e => row_ok e = true) all_enums).
  { repeat (apply Forall_cons; [vm_compute; reflexivity|]). apply Forall_nil. }
  rewrite Forall_forall in F. exact F.
Qed.

(** Every enumeration has exactly one non-empty name for each of its codes, and no two alike. *)
Theorem C82_variants : forall e, In e all_enums ->
  map snd (variants_of e) = e_codes e /\ NoDup (map fst (variants_of e)) /\ ~ In "" (map fst (variants_of e)).
Proof.
  intros e I. assert (R := all_rows e I). unfold row_ok in R.
  apply andb_true_iff in R as [R Z]. apply andb_true_iff in R as [R U].
  destruct (list_eq_dec N.eq_dec (map snd (variants_of e)) (e_codes e)) as [E|]; [|discriminate].
  split; [exact E|]. split; [apply (nodup_check String.eqb String.eqb_refl), U|].
  intros J. apply negb_true_iff in Z. assert (X : existsb (String.eqb "") (map fst (variants_of e)) = true).
  { apply existsb_exists. exists "". split; [exact J | reflexivity]. }
  congruence.
Qed.

Lemma enum_from_code e (v : enum e) : enum_from e (code v) = Some v.
Proof.
  unfold enum_from. destruct (Bool.bool_dec (memb (code v) (e_codes e)) true) as [H|N].
  - f_equal. apply enum_eq. reflexivity.
  - exfalso. apply N, code_ok.
Qed.
Lemma enum_from_some e n (v : enum e) : enum_from e n = Some v -> code v = n.
Proof.
  unfold enum_from. destruct (Bool.bool_dec (memb n (e_codes e)) true) as [H|N]; [|discriminate].
  intros [= <-]. reflexivity.
Qed.

Lemma find_fst (l : list (string * N)) n c : NoDup (map fst l) -> In (n, c) l ->
  find (fun p => String.eqb (fst p) n) l = Some (n, c).
Proof.
  induction l as [|[m d] l IH]; cbn; [easy|]. intros D [H|H].
  - injection H as -> ->. now rewrite String.eqb_refl.
  - inversion D as [|? ? Q D']; subst. destruct (String.eqb m n) eqn:E; [|apply IH; assumption].
    apply String.eqb_eq in E. subst. exfalso. apply Q. apply in_map_iff. exists (n, c). split; [reflexivity | exact H].
Qed.
Lemma find_snd (l : list (string * N)) n c : NoDup (map snd l) -> In (n, c) l ->
  find (fun p => (snd p =? c)%N) l = Some (n, c).
Proof.
  induction l as [|[m d] l IH]; cbn; [easy|]. intros D [H|H].
  - injection H as -> ->. now rewrite N.eqb_refl.
  - inversion D as [|? ? Q D']; subst. destruct (N.eqb d c) eqn:E; [|apply IH; assumption].
    apply N.eqb_eq in E. subst. exfalso. apply Q. apply in_map_iff. exists (n, c). split; [reflexivity | exact H].
Qed.
(** The row of a value. *)
Lemma row_of_value e (v : enum e) : In e all_enums -> exists n, In (n, code v) (variants_of e) /\ enum_debug v = n.
Proof.
  intros I. destruct (C82_variants e I) as [M [_ _]].
  destruct (Prop_Types.C18_codes e I) as [D _].
  assert (C : In (code v) (map snd (variants_of e))) by (rewrite M; apply memb_In, code_ok).
  apply in_map_iff in C as [[n c] [E J]]. cbn in E. subst c. exists n. split; [exact J|].
  unfold enum_debug. rewrite (find_snd _ n); [reflexivity | rewrite M; exact D | exact J].
Qed.

(** Names and values of an enumeration correspond one to one: printing a value and reading the
    printed name as source text gives the value back, and a name prints as itself. *)
Theorem C82_names_one_to_one : forall e, In e all_enums ->
  (forall v : enum e, enum_variant e (enum_debug v) = Some v) /\
  (forall n (v : enum e), enum_variant e n = Some v -> enum_debug v = n) /\
  (forall v w : enum e, enum_debug v = enum_debug w -> v = w).
Proof.
  intros e I. destruct (C82_variants e I) as [M [U _]].
  assert (A : forall v : enum e, enum_variant e (enum_debug v) = Some v).
  { intros v. destruct (row_of_value e v I) as [n [J E]]. rewrite E. unfold enum_variant.
    rewrite (find_fst _ n (code v) U J). cbn. apply enum_from_code. }
  split; [exact A|]. split.
  - intros n v H. unfold enum_variant in H.
    destruct (find (fun p => String.eqb (fst p) n) (variants_of e)) as [[m c]|] eqn:F; [|discriminate].
    cbn in H. apply find_some in F as [J E]. apply String.eqb_eq in E. cbn in E. subst m.
    apply enum_from_some in H. subst c. unfold enum_debug.
    rewrite (find_snd _ n); [reflexivity | rewrite M; apply (Prop_Types.C18_codes e I) | exact J].
  - intros v w H. assert (X := A v). rewrite H, A in X. now injection X.
Qed.
(** A name that is not in the list is not a variant (a program that writes it does not compile). *)
Theorem C82_no_other_name : forall e n, In e all_enums ->
  (enum_variant e n <> None <-> In n (map fst (variants_of e))).
Proof.
  intros e n I. destruct (C82_variants e I) as [M [U _]]. split.
  - unfold enum_variant. destruct (find (fun p => String.eqb (fst p) n) (variants_of e)) as [[m c]|] eqn:F; [|congruence].
    intros _. apply find_some in F as [J E]. apply String.eqb_eq in E. cbn in E. subst m.
    apply in_map_iff. exists (n, c). split; [reflexivity | exact J].
  - intros J. apply in_map_iff in J as [[m c] [E J]]. cbn in E. subst m. unfold enum_variant.
    rewrite (find_fst _ n c U J). cbn.
    assert (C : In c (e_codes e)) by (rewrite <- M; apply in_map_iff; exists (n, c); split; [reflexivity | exact J]).
    apply memb_In in C. unfold enum_from. destruct (Bool.bool_dec (memb c (e_codes e)) true); [discriminate | contradiction].
Qed.

(** What the standard's table says about an enumeration [e]. *)
Definition code_of (e : enum_spec) (n : string) : option N := option_map code (enum_variant e n).
Definition agrees (e : enum_spec) (complete : bool) (rows : list (string * N)) : bool :=
  forallb (fun r => match code_of e (fst r) with Some c => N.eqb c (snd r) | None => false end) rows &&
  (if complete then Nat.eqb (List.length rows) (List.length (e_codes e)) else true).
Definition siso_row_ok (r : string * bool * list (string * N)) : bool :=
  existsb (fun e => if String.eqb (e_name e) (fst (fst r)) then agrees e (snd (fst r)) (snd r) else false) all_enums.
Lemma siso_rows : forallb siso_row_ok siso = true.
Proof. vm_compute. reflexivity. Qed.

Lemma decode_code e (v : enum e) rest : enum_deserialize e ((big_endian (e_bytes e) (code v) ++ rest)%list) = Ok (v, rest).
Proof. apply (Prop_Types.C18_decode e). Qed.

(** Every value of [siso] is a variant of the same name with the standard's number, decoded from
    that number on the wire; the lists marked complete have all variants. *)
Theorem C82_siso : forall en complete rows, In (en, complete, rows) siso ->
  exists e, In e all_enums /\ e_name e = en /\
    (forall n c, In (n, c) rows -> exists v, enum_variant e n = Some v /\ enum_debug v = n /\ code v = c /\
       forall rest, enum_deserialize e ((big_endian (e_bytes e) c ++ rest)%list) = Ok (v, rest)) /\
    (complete = true -> List.length rows = List.length (e_codes e)).
Proof.
  intros en complete rows I. assert (R := siso_rows). rewrite forallb_forall in R. apply R in I. clear R.
  unfold siso_row_ok in I. apply existsb_exists in I as [e [J H]]. cbn [fst snd] in H.
  destruct (String.eqb (e_name e) en) eqn:N; [|discriminate]. apply String.eqb_eq in N.
  apply andb_true_iff in H as [A L].
  exists e. split; [exact J|]. split; [exact N|]. split.
  - intros n c K. rewrite forallb_forall in A. apply A in K. cbn in K. unfold code_of in K.
    destruct (enum_variant e n) as [v|] eqn:V; [|discriminate]. cbn in K. apply N.eqb_eq in K. subst c.
    exists v. split; [reflexivity|]. split; [now apply (C82_names_one_to_one e J)|]. split; [reflexivity|].
    intros rest. apply decode_code.
  - intros ->. now apply Nat.eqb_eq.
Qed.

(** The name of what is decoded from any number: the name listed for it, or the default's. *)
Theorem C82_decoded_name : forall e bs v rest, In e all_enums -> enum_deserialize e bs = Ok (v, rest) ->
  let n := number (firstn (e_bytes e) bs) in
  (forall name, In (name, n) (variants_of e) -> enum_debug v = name) /\
  (~ In n (map snd (variants_of e)) -> enum_debug v = enum_debug (enum_default e)).
Proof.
  intros e bs v rest I H. cbn zeta. destruct (C82_variants e I) as [M [U _]].
  destruct (Prop_Types.C18_decode e) as [_ [D P]].
  destruct (Nat.le_gt_cases (e_bytes e) (List.length bs)) as [L|L]; [|rewrite (P bs L) in H; discriminate].
  destruct (D bs L) as [x [E [K1 K2]]]. rewrite H in E. injection E as <- ->. split.
  - intros name J. assert (C : In (number (firstn (e_bytes e) bs)) (e_codes e)).
    { rewrite <- M. apply in_map_iff. exists (name, number (firstn (e_bytes e) bs)). split; [reflexivity | exact J]. }
    unfold enum_debug. rewrite (find_snd _ name); [reflexivity | rewrite M; apply (Prop_Types.C18_codes e I)|].
    rewrite (K1 C). exact J.
  - intros J. rewrite M in J. f_equal. apply enum_eq. rewrite (K2 J). reflexivity.
Qed.
(** Numbers outside the list are not always reported as "other": for these enumerations an
    unknown number decodes to a variant that means something definite (finding 28). *)
Definition misread_as : list (string * string) := [
  ("ProtocolVersion", "IEEE1278_1_2012"); ("EmitterName", "_12456X"); ("AcknowledgeFlag", "CreateEntity");
  ("VariableRecordTypes", "EntityIDList"); ("EntityCapabilities", "LandPlatformEntityCapabilities");
  ("VariableParameterRecordType", "ArticulatedPart"); ("RequiredReliabilityService", "Acknowledged");
  ("RepairCompleteRepair", "NoRepairsPerformed"); ("TransmitterTransmitState", "Off"); ("ReceiverReceiverState", "Off");
  ("ComponentIdentification", "EntityCenter"); ("ComponentDamageStatus", "NoDamage"); ("CollisionType", "Inelastic");
  ("SignalUserProtocolIdentificationNumber", "CCSIL"); ("EnvironmentalProcessRecordType", "COMBICState");
  ("IntercomControlCommand", "NoCommand"); ("BeamStatusBeamState", "Active"); ("FireTypeIndicator", "Munition");
  ("RecordQueryREventType", "Periodic"); ("GriddedDataCoordinateSystem", "RightHandedCartesian");
  ("APAParameterIndexAPAStatus", "DeselectedOff"); ("TransmitterCryptoSystem", "NoEncryptionDevice");
  ("TransmitterAntennaPatternType", "Isotropic"); ("ElectromagneticEmissionStateUpdateIndicator", "HeartbeatUpdate")
].
Definition misread_ok (r : string * string) : bool :=
  existsb (fun e => if String.eqb (e_name e) (fst r) then String.eqb (enum_debug (enum_default e)) (snd r)
    && negb (memb (256 ^ N.of_nat (e_bytes e) - 1) (e_codes e)) else false) all_enums.
Lemma misread_rows : forallb misread_ok misread_as = true.
Proof. vm_compute. reflexivity. Qed.
Theorem C82_unknown_misread : forall en d, In (en, d) misread_as -> exists e, In e all_enums /\ e_name e = en /\
  (forall n, ~ In n (map snd (variants_of e)) -> n < 256 ^ N.of_nat (e_bytes e) -> forall rest, exists v,
     enum_deserialize e ((big_endian (e_bytes e) n ++ rest)%list) = Ok (v, rest) /\ enum_debug v = d) /\
  exists n, ~ In n (map snd (variants_of e)) /\ n < 256 ^ N.of_nat (e_bytes e).
Proof.
  intros en d I. assert (R := misread_rows). rewrite forallb_forall in R. apply R in I. clear R.
  unfold misread_ok in I. apply existsb_exists in I as [e [J H]]. cbn [fst snd] in H.
  destruct (String.eqb (e_name e) en) eqn:N; [|discriminate]. apply andb_true_iff in H as [D Q].
  apply String.eqb_eq in N, D. exists e. split; [exact J|]. split; [exact N|].
  destruct (C82_variants e J) as [M _]. split.
  - intros n K L rest. set (bs := (big_endian (e_bytes e) n ++ rest)%list).
    assert (LE : List.length (big_endian (e_bytes e) n) = e_bytes e) by (rewrite big_endian_eq; apply be_encode_length).
    assert (F : firstn (e_bytes e) bs = big_endian (e_bytes e) n).
    { unfold bs. rewrite firstn_app, LE, Nat.sub_diag, firstn_all2 by lia. cbn. apply app_nil_r. }
    assert (S' : skipn (e_bytes e) bs = rest).
    { unfold bs. rewrite skipn_app, LE, Nat.sub_diag, skipn_all2 by lia. reflexivity. }
    destruct (Prop_Types.C18_decode e) as [_ [X _]].
    destruct (X bs) as [v [E _]]; [unfold bs; rewrite app_length, LE; lia|].
    rewrite S' in E. exists v. split; [exact E|].
    destruct (C82_decoded_name e bs v rest J E) as [_ Y]. rewrite Y; [exact D|].
    rewrite F, number_eq, big_endian_eq, be_decode_encode, N.mod_small by exact L. exact K.
  - exists (256 ^ N.of_nat (e_bytes e) - 1). split.
    + rewrite M. intros K. apply memb_In in K. rewrite K in Q. discriminate.
    + assert (P : 256 ^ N.of_nat (e_bytes e) <> 0) by (apply N.pow_nonzero; discriminate). lia.
Qed.

(** The names in error messages are these names. *)
Theorem C82_error_text : (forall t : PduType, PduType_debug t = enum_debug t) /\
  (forall v : ProtocolVersion, ProtocolVersion_debug v = enum_debug v).
Proof.
  assert (T : forallb (fun c => String.eqb (nth (N.to_nat c) PduType_names "")
      (match find (fun p => (snd p =? c)%N) (variants_of PduType_spec) with Some p => fst p | None => "" end)) (e_codes PduType_spec) = true)
    by (vm_compute; reflexivity).
  assert (V : forallb (fun c => String.eqb (nth (N.to_nat c) ProtocolVersion_names "")
      (match find (fun p => (snd p =? c)%N) (variants_of ProtocolVersion_spec) with Some p => fst p | None => "" end)) (e_codes ProtocolVersion_spec) = true)
    by (vm_compute; reflexivity).
  rewrite forallb_forall in T, V. split.
  - intros t. apply String.eqb_eq. apply T. apply memb_In, (code_ok t).
  - intros t. apply String.eqb_eq. apply V. apply memb_In, (code_ok t).
Qed.

(** Concrete cases: the tables are not empty, and a byte of the wire gets its name. *)
Example C82_size : List.length siso = 70%nat /\ List.length (flat_map snd siso) = 662%nat /\
  List.length (flat_map variants_of all_enums) = 9070%nat.
Proof. vm_compute. repeat split. Qed.
Example C82_example :
  match enum_deserialize ForceId_spec (map as_u8 [2; 9]) with
  | Ok (v, rest) => enum_debug v = "Opposing" /\ rest = map as_u8 [9]
  | _ => False end /\
  match enum_deserialize ForceId_spec (map as_u8 [200]) with Ok (v, _) => enum_debug v = "Other" | _ => False end /\
  match enum_deserialize AcknowledgeFlag_spec (map as_u8 [0; 77]) with Ok (v, _) => enum_debug v = "CreateEntity" | _ => False end /\
  option_map code (enum_variant EntityKind_spec "Munition") = Some 2 /\ enum_variant EntityKind_spec "Missile" = None.
Proof. vm_compute. repeat split. Qed.

Definition Prop_EnumNames_theorems : True :=
  let _ := @C82_variants in let _ := @C82_names_one_to_one in let _ := @C82_no_other_name in let _ := @C82_siso in
  let _ := @C82_decoded_name in let _ := @C82_unknown_misread in let _ := @C82_error_text in
  let _ := @C82_size in let _ := @C82_example in I.
Print Assumptions Prop_EnumNames_theorems.
