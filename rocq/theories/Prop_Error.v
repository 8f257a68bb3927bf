(** * Error texts (C52). *)
From Coq Require Import String Ascii DecimalString DecimalN DecimalFacts.
From Verif Require Import Base BaseFacts EnumModel Enums EnumFacts Header HeaderFacts HeaderProofs PduMacro PduMacroFacts DataTypes Pdus Spec ClassFacts PduProofs Prop_Pdu Prop_Dispatch ErrorText.
Local Open Scope list_scope.
Local Notation "a +++ b" := (String.append a b) (at level 60, right associativity).

(** ** Lemmas on strings *)
Lemma append_inj a : forall x y, a +++ x = a +++ y -> x = y.
Proof. induction a as [|c a IH]; cbn; intros x y E; [exact E|]. injection E as E. auto. Qed.
Fixpoint all_chars (P : ascii -> bool) (s : string) : bool :=
  match s with EmptyString => true | String c s' => P c && all_chars P s' end.
(** A word followed by something that starts with a character not allowed in words. *)
Definition breaks (P : ascii -> bool) (s : string) : bool := match s with EmptyString => true | String c _ => negb (P c) end.
Lemma word_split P a : forall a' x y, all_chars P a = true -> all_chars P a' = true -> breaks P x = true -> breaks P y = true ->
  a +++ x = a' +++ y -> a = a' /\ x = y.
Proof.
  induction a as [|c a IH]; intros [|c' a'] x y A A' X Y E; cbn in *.
  - auto.
  - subst x. cbn in X. apply andb_true_iff in A' as [A' _]. rewrite A' in X. discriminate.
  - subst y. cbn in Y. apply andb_true_iff in A as [A _]. rewrite A in Y. discriminate.
  - apply andb_true_iff in A as [_ A], A' as [_ A']. injection E as -> E. destruct (IH a' x y A A' X Y E) as [-> ->]. auto.
Qed.
Definition digit (c : ascii) : bool := (48 <=? N_of_ascii c) && (N_of_ascii c <=? 57).
Definition name_char (c : ascii) : bool :=
  digit c || ((65 <=? N_of_ascii c) && (N_of_ascii c <=? 90)) || ((97 <=? N_of_ascii c) && (N_of_ascii c <=? 122)) || (N_of_ascii c =? 95).
Lemma digits_string d : all_chars digit (NilEmpty.string_of_uint d) = true.
Proof. induction d; cbn; auto. Qed.
Lemma decimal_digits n : all_chars digit (decimal n) = true.
Proof. unfold decimal, NilZero.string_of_uint. destruct (N.to_uint n); [reflexivity|..]; apply digits_string. Qed.
Lemma to_uint_nonnil n : N.to_uint n <> Decimal.Nil.
Proof. intros E. assert (Z := DecimalN.Unsigned.of_to n). rewrite E in Z. cbn in Z. subst n. discriminate E. Qed.
Lemma decimal_inj n k : decimal n = decimal k -> n = k.
Proof.
  unfold decimal. intros E. apply (f_equal NilZero.uint_of_string) in E.
  rewrite !NilZero.usu in E by apply to_uint_nonnil. injection E as E.
  rewrite <- (DecimalN.Unsigned.of_to n), <- (DecimalN.Unsigned.of_to k). now rewrite E.
Qed.
(** Variant names: words, all different. *)
Lemma names_inj (e : enum_spec) l : e_codes e = map N.of_nat (seq 0 (length l)) -> NoDup l ->
  forall x y : enum e, nth (N.to_nat (code x)) l ""%string = nth (N.to_nat (code y)) l ""%string -> x = y.
Proof.
  intros C ND x y E. apply enum_eq.
  assert (R : forall z : enum e, (N.to_nat (code z) < length l)%nat).
  { intros z. assert (H := code_ok z). apply memb_In in H. rewrite C in H. apply in_map_iff in H as [k [<- K]]. apply in_seq in K. lia. }
  apply (proj1 (NoDup_nth l ""%string) ND) in E; [lia | apply R | apply R].
Qed.
Lemma nodup_strings l : (fix f l := match l with [] => true | x :: l' => negb (existsb (String.eqb x) l') && f l' end) l = true -> NoDup l.
Proof.
  induction l as [|x l IH]; [constructor|]. intros H. apply andb_true_iff in H as [H1 H2]. constructor; [|auto].
  intros I. apply negb_true_iff in H1. rewrite <- not_true_iff_false in H1. apply H1, existsb_exists. exists x. split; [exact I | apply String.eqb_refl].
Qed.
Lemma type_name_inj x y : PduType_debug x = PduType_debug y -> x = y.
Proof. apply (names_inj PduType_spec PduType_names); [reflexivity | apply nodup_strings; vm_compute; reflexivity]. Qed.
Lemma version_name_inj x y : ProtocolVersion_debug x = ProtocolVersion_debug y -> x = y.
Proof. apply (names_inj ProtocolVersion_spec ProtocolVersion_names); [reflexivity | apply nodup_strings; vm_compute; reflexivity]. Qed.
Lemma names_words l n : forallb (all_chars name_char) l = true -> all_chars name_char (nth n l ""%string) = true.
Proof.
  intros H. rewrite forallb_forall in H. destruct (nth_in_or_default n l ""%string) as [I| ->]; [apply H, I | reflexivity].
Qed.
Lemma type_name_word t : all_chars name_char (PduType_debug t) = true.
Proof. apply names_words. vm_compute. reflexivity. Qed.
Lemma version_name_word t : all_chars name_char (ProtocolVersion_debug t) = true.
Proof. apply names_words. vm_compute. reflexivity. Qed.

(** ** C52: the text of an error tells which error it is: the kind, and every piece of data
    in it. The one exception is [InvalidFieldValue], whose three free texts run together. *)
Theorem C52_text_identifies : forall x y, display x = display y ->
  x = y \/ exists f v r f' v' r', x = EInvalidFieldValue f v r /\ y = EInvalidFieldValue f' v' r'.
Proof.
  intros x y E. destruct x, y; cbn [display] in E;
    try (exfalso; cbn [String.append] in E; repeat (injection E as E); discriminate E);
    apply append_inj in E.
  - left. congruence.
  - left. congruence.
  - left. congruence.
  - left. destruct current_state, target_state, current_state0, target_state0; first [reflexivity | discriminate E].
  - left. apply (word_split name_char) in E as [E1 E2]; [|apply version_name_word|apply version_name_word|reflexivity|reflexivity].
    apply append_inj in E2. apply version_name_inj in E1, E2. congruence.
  - right. repeat eexists.
  - left. apply (word_split digit) in E as [E1 E2]; [|apply decimal_digits|apply decimal_digits|reflexivity|reflexivity].
    apply append_inj in E2. apply (word_split digit) in E2 as [E2 _]; [|apply decimal_digits|apply decimal_digits|reflexivity|reflexivity].
    apply decimal_inj in E1, E2. congruence.
  - left. congruence.
  - left. apply (word_split digit) in E as [E1 E2]; [|apply decimal_digits|apply decimal_digits|reflexivity|reflexivity].
    apply append_inj in E2. apply decimal_inj in E1, E2. congruence.
Qed.
(** Two different invalid-field errors with the same text. *)
Theorem C52_field_text_refuted : exists f v r f' v' r', invalid_field f v r <> invalid_field f' v' r' /\
  display (invalid_field f v r) = display (invalid_field f' v' r').
Proof.
  exists "a"%string, "b"%string, "c, d"%string, "a"%string, "b, c"%string, "d"%string. split; [intros E; discriminate E | reflexivity].
Qed.

(** The errors the library itself returns are told apart by their texts. *)
Theorem C52_library_texts : forall e e' : DISError, display (full_error e) = display (full_error e') -> e = e'.
Proof.
  intros e e' E. apply C52_text_identifies in E as [E|[f [v [r [f' [v' [r' [E _]]]]]]]]; [|destruct e; discriminate E].
  assert (J : forall a b, EInvalidHeader a = EInvalidHeader b -> a = b) by congruence.
  destruct e, e'; unfold full_error, invalid_header, pdu_size_exceeded in E; try discriminate E.
  - apply J, append_inj in E. apply (word_split name_char) in E as [E1 E2]; [|apply type_name_word|apply type_name_word|reflexivity|reflexivity].
    apply append_inj in E2. apply type_name_inj in E1, E2. congruence.
  - congruence.
Qed.

(** What a caller reads when a datagram is given to the wrong class: the class's own name (without
    the suffix Pdu; plural in one case) and the type found in the datagram. *)
Definition plain_name (c : pdu_class) : string :=
  if String.eqb (cls_name c) "ElectromagneticEmissionsPdu" then "ElectromagneticEmission"%string
  else String.substring 0 (String.length (cls_name c) - 3) (cls_name c).
Lemma type_names m : forall c, In c (all_pdus m) -> PduType_debug (cls_type c) = plain_name c.
Proof. by_class. all_classes ltac:(vm_compute; reflexivity). Qed.
Theorem C52_wrong_type_text : forall m c c' p buf p' out rest, In c (all_pdus m) -> In c' (all_pdus m) -> c <> c' ->
  serialize c p buf = Ok (ROk tt, p', buf ++ out) ->
  exists e left, deserialize c' (out ++ rest) = Ok (RErr e, left) /\
    display (full_error e) = ("Invalid PDU header: Expected PDU type " +++ plain_name c' +++ ", got " +++ plain_name c)%string.
Proof.
  intros m c c' p buf p' out rest I I' N S.
  destruct (serialize_spec m c I _ _ _ _ S) as [fl [Eo [St _]]]. apply app_inv_head in Eo. subst out.
  destruct St as [_ [_ [_ [_ [_ [T _]]]]]].
  assert (L : (12 <= length ((PduHeader_serialize (header p') ++ fl) ++ rest))%nat) by (rewrite !app_length, header_ser_length; lia).
  destruct (C05_type_check c' _ L) as [h [D [W [R _]]]].
  rewrite <- (app_assoc _ fl rest), header_rt in D. assert (Eh : h = header p') by congruence. subst h. rewrite T in W, R.
  eexists. eexists. split.
  - apply R. rewrite <- W. intros K. apply N. exact (same_type_same_class m c c' I I' K).
  - unfold full_error, invalid_header, display. rewrite (type_names m c I), (type_names m c' I'). reflexivity.
Qed.
(** What a caller reads when a PDU is too large. *)
Theorem C52_too_large_text : forall m c p buf p' buf' e, In c (all_pdus m) ->
  serialize c p buf = Ok (RErr e, p', buf') ->
  65535 < declared_size p /\
  display (full_error e) = ("PDU size exceeds maximum allowed: " +++ decimal (declared_size p) +++ " > 8192")%string.
Proof.
  intros m c p buf p' buf' e I S.
  destruct (serialize_cases c p buf (all_prep_ok m c I)) as [[G [q [Es _]]]|[G [h' [_ Es]]]]; rewrite Es in S.
  - injection S as <- _ _. split; [lia|]. reflexivity.
  - destruct (body_serialize _ _); discriminate.
Qed.

(** Numbers appear in decimal: reading the digits back, most significant first, gives the number. *)
Fixpoint digits_value (acc : N) (s : string) : N :=
  match s with
  | EmptyString => acc
  | String a t => digits_value (10 * acc + (N_of_ascii a - 48)) t
  end.
Lemma value_uint d : forall acc, digits_value (Npos acc) (NilEmpty.string_of_uint d) = Npos (Pos.of_uint_acc d acc).
Proof.
  induction d; intros acc; cbn [NilEmpty.string_of_uint digits_value Pos.of_uint_acc]; [reflexivity|..];
    refine (eq_trans _ (IHd _)); f_equal;
    match goal with |- context [N_of_ascii ?a - 48] => let v := eval vm_compute in (N_of_ascii a - 48) in change (N_of_ascii a - 48) with v end; lia.
Qed.
Lemma value_zero d : digits_value 0 (NilEmpty.string_of_uint d) = N.of_uint d.
Proof. induction d; cbn [NilEmpty.string_of_uint digits_value]; [reflexivity|exact IHd|..]; apply value_uint. Qed.
Theorem C52_decimal : forall n, digits_value 0 (decimal n) = n /\ all_chars digit (decimal n) = true.
Proof.
  intros n. split; [|apply decimal_digits]. rewrite <- (DecimalN.Unsigned.of_to n) at 2. unfold decimal, NilZero.string_of_uint.
  destruct (N.to_uint n) eqn:E; [reflexivity|..]; rewrite <- E; apply value_zero.
Qed.
(** The texts of the errors made with the constructor functions. *)
Theorem C52_constructor_texts : forall s t u a b,
  display (invalid_header s) = ("Invalid PDU header: " +++ s)%string /\
  display (deserialization_error s) = ("PDU deserialization error: " +++ s)%string /\
  display (serialization_error s) = ("PDU serialization error: " +++ s)%string /\
  display (invalid_field s t u) = ("Invalid field value: " +++ s +++ " = " +++ t +++ ", " +++ u)%string /\
  display (buffer_underflow a b) = ("Buffer underflow: tried to read " +++ decimal a +++ " bytes, but only " +++ decimal b +++ " bytes remain")%string /\
  display (pdu_size_exceeded a b) = ("PDU size exceeds maximum allowed: " +++ decimal a +++ " > " +++ decimal b)%string.
Proof. intros. repeat split; reflexivity. Qed.
(** The texts of the three kinds without a constructor function, with the names that appear in
    them: the eight protocol versions by number, the four states. *)
Definition version_name (v : ProtocolVersion) : string :=
  match code v with
  | 0 => "Other" | 1 => "DIS_PDUv1" | 2 => "IEEE1278_1993" | 3 => "DIS_PDUv2_Third_Draft" | 4 => "DIS_PDUv2_Fourth_Draft_Revised"
  | 5 => "IEEE1278_1_1995" | 6 => "IEEE1278_1A_1998" | _ => "IEEE1278_1_2012"
  end%string.
Definition state_name (s : PduState) : string :=
  match s with Uninitialized => "Uninitialized" | HeaderValid => "HeaderValid" | BodyValid => "BodyValid" | Complete => "Complete" end%string.
Lemma version_names v : ProtocolVersion_debug v = version_name v.
Proof.
  destruct v as [n H]. unfold ProtocolVersion_debug, version_name. cbn [code].
  assert (X : forallb (fun n => String.eqb (nth (N.to_nat n) ProtocolVersion_names ""%string)
    (match n with
  | 0 => "Other" | 1 => "DIS_PDUv1" | 2 => "IEEE1278_1993" | 3 => "DIS_PDUv2_Third_Draft" | 4 => "DIS_PDUv2_Fourth_Draft_Revised"
  | 5 => "IEEE1278_1_1995" | 6 => "IEEE1278_1A_1998" | _ => "IEEE1278_1_2012"
  end)%string) (e_codes ProtocolVersion_spec) = true) by (vm_compute; reflexivity).
  rewrite forallb_forall in X. apply String.eqb_eq, X. now apply memb_In.
Qed.
Theorem C52_other_texts : forall e g a b t,
  display (EProtocolVersionMismatch e g) = ("Protocol version mismatch: expected " +++ version_name e +++ ", got " +++ version_name g)%string /\
  display (EInvalidStateTransition a b) = ("Invalid PDU state transition: " +++ state_name a +++ " -> " +++ state_name b)%string /\
  display (ENetworkError t) = ("Network error: " +++ t)%string.
Proof. intros. rewrite <- !version_names. repeat split; destruct a, b; reflexivity. Qed.
Example C52_example :
  display (full_error (InvalidHeader (cls_type FirePdu) (cls_type EntityStatePdu))) = "Invalid PDU header: Expected PDU type Fire, got EntityState"%string /\
  display (full_error (Header.PduSizeExceeded 70000 8192)) = "PDU size exceeds maximum allowed: 70000 > 8192"%string.
Proof. vm_compute. auto. Qed.

(** What the theorems above rest on (one traversal for all of them; not part of the model). *)
Definition Prop_Error_theorems : True :=
  let _ := @C52_text_identifies in
  let _ := @C52_field_text_refuted in
  let _ := @C52_library_texts in
  let _ := @C52_wrong_type_text in
  let _ := @C52_too_large_text in
  let _ := @C52_decimal in
  let _ := @C52_constructor_texts in
  let _ := @C52_other_texts in
  I.
Print Assumptions Prop_Error_theorems.
