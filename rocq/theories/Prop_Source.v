(** * Sources of errors (C73). *)
From Coq Require Import String.
From Verif Require Import Base EnumModel Enums Header PduMacro DataTypes Pdus Spec ErrorText Prop_Error ErrorSource.
Local Open Scope string_scope.

(** What a caller gets from each way of making an error: the text, and the source. *)
Theorem C73_constructors : forall (t u w : string) (n k : N) (s : option std_error) (io : std_error),
  (error_text (invalid_header_from t s) = String.append "Invalid PDU header: " t /\ error_source (invalid_header_from t s) = s) /\
  (error_text (deserialization_error_from t s) = String.append "PDU deserialization error: " t /\ error_source (deserialization_error_from t s) = s) /\
  (error_text (serialization_error_from t s) = String.append "PDU serialization error: " t /\ error_source (serialization_error_from t s) = s) /\
  (error_text (from_io io) = String.append "Network error: " (std_text io) /\ error_source (from_io io) = Some io) /\
  error_source (invalid_field_value t u w) = None /\ error_source (buffer_underflow_value n k) = None /\
  error_source (pdu_size_exceeded_value n k) = None.
Proof. intros. repeat split. Qed.


(** The constructor functions put their arguments into the fields of that name, in order, and
    the texts show all fields, in order. *)
Theorem C73_fields : forall (t u w : string) (n k : N) (s : option std_error) (io : std_error),
  invalid_header_from t s = VInvalidHeader t s /\
  deserialization_error_from t s = VDeserializationError t s /\
  serialization_error_from t s = VSerializationError t s /\
  invalid_field_value t u w = VInvalidFieldValue t u w /\
  buffer_underflow_value n k = VBufferUnderflow n k /\
  pdu_size_exceeded_value n k = VPduSizeExceeded n k /\
  from_io io = VNetworkError io.
Proof. intros. repeat split. Qed.
Theorem C73_texts : forall (t u w : string) (n k : N) (a b : PduState) (v v' : ProtocolVersion),
  let cat := fold_right String.append ""%string in
  error_text (VInvalidFieldValue t u w) = cat ["Invalid field value: "; t; " = "; u; ", "; w]%list /\
  error_text (VBufferUnderflow n k) = cat ["Buffer underflow: tried to read "; decimal n; " bytes, but only "; decimal k; " bytes remain"]%list /\
  error_text (VPduSizeExceeded n k) = cat ["PDU size exceeds maximum allowed: "; decimal n; " > "; decimal k]%list /\
  error_text (VInvalidStateTransition a b) = cat ["Invalid PDU state transition: "; PduState_debug a; " -> "; PduState_debug b]%list /\
  error_text (VProtocolVersionMismatch v v') = cat ["Protocol version mismatch: expected "; ProtocolVersion_debug v; ", got "; ProtocolVersion_debug v']%list.
Proof.
  assert (E : forall x, String.append x "" = x) by (induction x as [|c x IH]; [reflexivity | cbn; now rewrite IH]).
  intros. subst cat. cbn [fold_right]. rewrite !E. repeat split.
Qed.
(** A boxed error keeps its text and source. *)
Theorem C73_boxed : forall e, std_text (boxed e) = error_text e /\ std_source (boxed e) = error_source e.
Proof. intros e. split; reflexivity. Qed.
(** The source does not show in the text, and text and source together tell which error it
    is (invalid field values aside, see C52). *)
Theorem C73_text_and_source : forall x y, error_text x = error_text y -> error_source x = error_source y ->
  x = y \/ exists f v r f' v' r', x = VInvalidFieldValue f v r /\ y = VInvalidFieldValue f' v' r'.
Proof.
  intros x y T S0. apply C52_text_identifies in T as [T|[f [v [r [f' [v' [r' [Tx Ty]]]]]]]].
  - left. destruct x, y; cbn [without_source error_source] in *; congruence.
  - right. destruct x; try discriminate. destruct y; try discriminate. repeat eexists.
Qed.
(** The text alone does not. *)
Theorem C73_text_alone_refuted : exists x y, error_text x = error_text y /\ x <> y /\ error_source x = None.
Proof. exists (invalid_header_from "a" None), (invalid_header_from "a" (Some (mk_std_error "b" None))). repeat split. discriminate. Qed.

(** Reporting an error by following its sources: its own text, then the report of its source. *)
Theorem C73_report : forall e,
  report (boxed e) = error_text e :: match error_source e with Some s => report s | None => [] end.
Proof. intros e. unfold boxed. cbn [report]. destruct (error_source e); reflexivity. Qed.
(** Errors wrapped in errors, any number of times: every layer is reported, outermost first,
    and nothing is lost. *)
Definition wrapped (layers : list string) (e : error_value) : error_value :=
  fold_right (fun reason inner => deserialization_error_from reason (Some (boxed inner))) e layers.
Theorem C73_layers : forall layers e,
  report (boxed (wrapped layers e)) = (map (String.append "PDU deserialization error: ") layers ++ report (boxed e))%list.
Proof.
  intros layers e. induction layers as [|r layers IH]; [reflexivity|].
  cbn [wrapped fold_right map app]. rewrite C73_report. cbn [error_source deserialization_error_from]. f_equal. exact IH.
Qed.
(** The errors that [serialize] and [deserialize] return have no source: their report is the
    one text of C52. *)
Theorem C73_library_errors : forall m c, In c (all_pdus m) ->
  (forall bs e rest, deserialize c bs = Ok (RErr e, rest) -> report (boxed (library_error e)) = [display (full_error e)]) /\
  (forall p buf e p' buf', serialize c p buf = Ok (RErr e, p', buf') -> report (boxed (library_error e)) = [display (full_error e)]).
Proof. intros m c _. split; intros; destruct e; reflexivity. Qed.
Example C73_example :
  report (boxed (wrapped ["outer"; "inner"] (from_io (mk_std_error "connection refused" (Some (mk_std_error "os error 111" None)))))) =
  ["PDU deserialization error: outer"; "PDU deserialization error: inner"; "Network error: connection refused";
   "connection refused"; "os error 111"].
Proof. reflexivity. Qed.
(** Such errors exist: a header announcing another type. *)
Example C73_library_example : forall m, In FirePdu (all_pdus m) /\
  exists e rest, deserialize FirePdu (map B [7; 1; 1; 1; 0; 0; 0; 0; 0; 12; 0; 0]) = Ok (RErr e, rest).
Proof. intros m. split; [cbn; tauto|].
  assert (X : match deserialize FirePdu (map B [7; 1; 1; 1; 0; 0; 0; 0; 0; 12; 0; 0]) with Ok (RErr _, _) => true | _ => false end = true) by (vm_compute; reflexivity).
  destruct (deserialize FirePdu (map B [7; 1; 1; 1; 0; 0; 0; 0; 0; 12; 0; 0])) as [[[p|e] rest]|e]; try discriminate. now exists e, rest.
Qed.

Definition Prop_Source_theorems : True :=
  let _ := @C73_constructors in
  let _ := @C73_fields in let _ := @C73_texts in let _ := @C73_boxed in
  let _ := @C73_text_and_source in
  let _ := @C73_text_alone_refuted in
  let _ := @C73_report in
  let _ := @C73_layers in
  let _ := @C73_library_errors in
  I.
Print Assumptions Prop_Source_theorems.
