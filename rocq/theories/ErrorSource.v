(** * The sources of errors ([src/common/dis_error.rs]).
    [ErrorText.dis_error] leaves out the [source] of the first three variants; here it is.
    Errors of other crates (what a [Box<dyn Error>] holds, and [std::io::Error]) are represented
    by their text and their own source. *)
From Coq Require Import String.
From Verif Require Import Base EnumModel Enums Header ErrorText.
Local Open Scope string_scope.

(** [std::error::Error]: [to_string()] and [source()]. *)
Inductive std_error := mk_std_error (text : string) (cause : option std_error).

(** dis_error.rs:20-70: all nine variants with all their fields. *)
Inductive error_value :=
| VInvalidHeader (reason : string) (source : option std_error)
| VDeserializationError (msg : string) (source : option std_error)
| VSerializationError (msg : string) (source : option std_error)
| VInvalidStateTransition (current_state target_state : PduState)
| VProtocolVersionMismatch (expected got : ProtocolVersion)
| VInvalidFieldValue (field value reason : string)
| VBufferUnderflow (attempted available : N)
| VNetworkError (io : std_error)
| VPduSizeExceeded (size max_size : N).

Definition std_text (e : std_error) : string := let 'mk_std_error t _ := e in t.
Definition std_source (e : std_error) : option std_error := let 'mk_std_error _ s := e in s.

(** The value without its source, as in ErrorText.v. *)
Definition without_source (e : error_value) : dis_error :=
  match e with
  | VInvalidHeader r _ => EInvalidHeader r
  | VDeserializationError m _ => EDeserializationError m
  | VSerializationError m _ => ESerializationError m
  | VInvalidStateTransition c t => EInvalidStateTransition c t
  | VProtocolVersionMismatch x g => EProtocolVersionMismatch x g
  | VInvalidFieldValue f v r => EInvalidFieldValue f v r
  | VBufferUnderflow a v => EBufferUnderflow a v
  | VNetworkError io => ENetworkError (std_text io)
  | VPduSizeExceeded s m => EPduSizeExceeded s m
  end.
(** [derive(Error)] (thiserror), dis_error.rs:20: [to_string()] is the text of the attribute;
    [source()] is the field marked [#[source]] (lines 26, 33, 40) or [#[from]] (line 65). *)
Definition error_text (e : error_value) : string := display (without_source e).
Definition error_source (e : error_value) : option std_error :=
  match e with
  | VInvalidHeader _ s => s
  | VDeserializationError _ s => s
  | VSerializationError _ s => s
  | VNetworkError io => Some io
  | _ => None
  end.
(** [Box::new(e) as Box<dyn Error + Send + Sync>]. *)
Definition boxed (e : error_value) : std_error := mk_std_error (error_text e) (error_source e).

(** dis_error.rs:74-106: the constructor functions with a source. *)
Definition invalid_header_from (reason : string) (source : option std_error) : error_value := VInvalidHeader reason source.
Definition deserialization_error_from (msg : string) (source : option std_error) : error_value := VDeserializationError msg source.
Definition serialization_error_from (msg : string) (source : option std_error) : error_value := VSerializationError msg source.
(** dis_error.rs:108-129: those without. *)
Definition invalid_field_value (field value reason : string) : error_value := VInvalidFieldValue field value reason.
Definition buffer_underflow_value (attempted available : N) : error_value := VBufferUnderflow attempted available.
Definition pdu_size_exceeded_value (size max_size : N) : error_value := VPduSizeExceeded size max_size.
(** [From<std::io::Error>] (dis_error.rs:65), which [?] applies. *)
Definition from_io (io : std_error) : error_value := VNetworkError io.

(** The errors the library itself returns: pdu_macro.rs:333-336 passes [None]; 287-290 has no source. *)
Definition library_error (e : DISError) : error_value :=
  match e with
  | InvalidHeader expected got =>
      invalid_header_from (String.append "Expected PDU type " (String.append (PduType_debug expected) (String.append ", got " (PduType_debug got)))) None
  | Header.PduSizeExceeded size max_size => VPduSizeExceeded size max_size
  end.

(** Following [source()] to the end: the texts that a report prints, outermost first. *)
Fixpoint report (e : std_error) : list string :=
  match e with
  | mk_std_error t None => [t]
  | mk_std_error t (Some e') => t :: report e'
  end.
