(** * The macro system of [src/pdu_macro.rs] and the [Pdu] trait ([src/common/pdu.rs]).

    [define_pdu!] takes a class description (name, PDU type, protocol family and an
    ordered list of fields, each optionally annotated with [#[len = other_field]])
    and generates the struct and its [Pdu] implementation. Here the description is a
    value of type [pdu_class] and each generated function is a function of it. *)
From Verif Require Import Base EnumModel Enums Header.

(** ** Field traits *)

(** An implementation of [FieldSerialize] (pdu_macro.rs:14-16), [FieldDeserialize]
    (19-21) and [FieldLen] (24-26) for the type [T]. *)
Record codec (T : Type) := mk_codec {
  c_ser : T -> writer;
  c_des : reader T;
  c_len : T -> N
}.
Arguments mk_codec {T} c_ser c_des c_len.
Arguments c_ser {T} c.
Arguments c_des {T} c.
Arguments c_len {T} c.

(** pdu_macro.rs:109-140 [impl_primitive!]: u8, i8, u16, i16, u32, i32, u64, i64,
    f32, f64. Lengths 1, 1, 2, 2, 4, 4, 8, 8, 4, 8 as listed at 131-140. *)
Definition u8_codec : codec u8 := mk_codec (fun v => Ok (put_u8 v)) get_u8 (fun _ => 1).
Definition i8_codec : codec i8 := mk_codec (fun v => Ok (put_i8 v)) get_i8 (fun _ => 1).
Definition u16_codec : codec u16 := mk_codec (fun v => Ok (put_u16 v)) get_u16 (fun _ => 2).
Definition i16_codec : codec i16 := mk_codec (fun v => Ok (put_i16 v)) get_i16 (fun _ => 2).
Definition u32_codec : codec u32 := mk_codec (fun v => Ok (put_u32 v)) get_u32 (fun _ => 4).
Definition i32_codec : codec i32 := mk_codec (fun v => Ok (put_i32 v)) get_i32 (fun _ => 4).
Definition u64_codec : codec u64 := mk_codec (fun v => Ok (put_u64 v)) get_u64 (fun _ => 8).
Definition i64_codec : codec i64 := mk_codec (fun v => Ok (put_i64 v)) get_i64 (fun _ => 8).
Definition f32_codec : codec f32 := mk_codec (fun v => Ok (put_f32 v)) get_f32 (fun _ => 4).
Definition f64_codec : codec f64 := mk_codec (fun v => Ok (put_f64 v)) get_f64 (fun _ => 8).

(** pdu_macro.rs:142-158 [String]: a string is modelled by its UTF-8 bytes (the
    model also admits byte strings that are not valid UTF-8). *)
Definition string_codec : codec bytes := mk_codec (fun v => Ok v) (ret []) lenN.

(** Sum of lengths ([iter().map(FieldLen::field_len).sum()]). *)
Fixpoint sumN (l : list N) : N :=
  match l with
  | [] => 0
  | x :: l' => x + sumN l'
  end.

(** pdu_macro.rs:160-186 [Vec<T>]: [deserialize_field] ignores the buffer. *)
Definition vec_codec {T} (c : codec T) : codec (list T) :=
  mk_codec (fun v => wconcat (map (c_ser c) v)) (ret []) (fun v => sumN (map (c_len c) v)).

(** pdu_macro.rs:188-214 [Option<T>]: [deserialize_field] ignores the buffer. *)
Definition option_codec {T} (c : codec T) : codec (option T) :=
  mk_codec (fun v => match v with Some x => c_ser c x | None => Ok [] end)
           (ret None)
           (fun v => match v with Some x => c_len c x | None => 0 end).

(** pdu_macro.rs:35-48: [FieldDeserializeWithLen] for [Option<T>]. *)
Definition option_deserialize_with_len {T} (r : N -> reader T) (len : N) : reader (option T) :=
  if len =? 0 then ret None else let* x := r len in ret (Some x).

(** ** Class descriptions *)

(** One entry of [fields: { ... }].
    [f_u8] is the view of a [u8] field used by [$len_field as usize] and by the
    assignment [self.$len_field = ..]; it is [Some] exactly for fields of type [u8].
    [f_len_attr] is the [#[len = name]] annotation with the
    [FieldDeserializeWithLen] implementation of the field type. *)
Record field := mk_field {
  f_name : string;
  f_type : Type;
  f_codec : codec f_type;
  f_default : f_type;
  f_u8 : option ((f_type -> N) * (u8 -> f_type));
  f_len_attr : option (string * (N -> reader f_type))
}.

(** A plain field, a [u8] field and a field with a length annotation. *)
Definition plain (name : string) {T} (c : codec T) (d : T) : field :=
  mk_field name T c d None None.
Definition u8_field (name : string) : field :=
  mk_field name u8 u8_codec (as_u8 0) (Some (@uval 1, fun x => x)) None.
Definition len_field (name : string) {T} (c : codec T) (d : T) (l : string) (r : N -> reader T) : field :=
  mk_field name T c d None (Some (l, r)).

(** The arguments of one [define_pdu!] invocation (pdu_macro.rs:217-230). Only
    [header: PduHeader] occurs in the repository, so the header type is fixed. *)
Record pdu_class := mk_class {
  cls_name : string;
  cls_type : PduType;
  cls_family : ProtocolFamily;
  cls_fields : list field
}.

(** The body fields of the generated struct, in declaration order (pdu_macro.rs:231-237). *)
Fixpoint values (fs : list field) : Type :=
  match fs with
  | [] => unit
  | f :: fs' => (f_type f * values fs')%type
  end.

Record pdu (c : pdu_class) := mk_pdu { header : PduHeader; body : values (cls_fields c) }.
Arguments mk_pdu {c} header body.
Arguments header {c} p.
Arguments body {c} p.

(** ** Generated functions *)

(** pdu_macro.rs:239-249 [Default]; [ts] is the timestamp read by the header's default. *)
Fixpoint body_default (fs : list field) : values fs :=
  match fs with
  | [] => tt
  | f :: fs' => (f_default f, body_default fs')
  end.
Definition pdu_default (c : pdu_class) (ts : u32) : pdu c :=
  mk_pdu (PduHeader_default ts) (body_default (cls_fields c)).

(** pdu_macro.rs:283-285: the sum of the [field_len]s. *)
Fixpoint body_len (fs : list field) : values fs -> N :=
  match fs return values fs -> N with
  | [] => fun _ => 0
  | f :: fs' => fun v => c_len (f_codec f) (fst v) + body_len fs' (snd v)
  end.

(** pdu_macro.rs:279-291 [calculate_length]. [usize] additions are not wrapped. *)
Definition calculate_length (c : pdu_class) (p : pdu c) : result u16 DISError :=
  let len := PduHeader_LENGTH + body_len (cls_fields c) (body p) in
  match try_uint 2 len with
  | Some l => ROk l
  | None => RErr (PduSizeExceeded len MAX_PDU_SIZE_OCTETS)
  end.

(** pdu_macro.rs:309 with 61-67 ([__pdu_prep_serialize_field!]): for each field with
    [#[len = name]], the assignment [self.name = u8::try_from(field_len).unwrap_or_default()].
    (The arm at 55-59 never applies: an [Option<..>] captured as [$ftype:ty] is opaque
    to the inner macro, so the arm for [$t:ty] is taken.)
    The assignments are collected from the body before any of them is made; since they
    only change [u8] fields, whose [field_len] is constant, this equals the sequential
    execution. *)
Definition len_byte (n : N) : u8 := match try_uint 1 n with Some x => x | None => as_u8 0 end.
Fixpoint len_updates (fs : list field) : values fs -> list (string * u8) :=
  match fs return values fs -> list (string * u8) with
  | [] => fun _ => []
  | f :: fs' => fun v =>
      match f_len_attr f with
      | Some (l, _) => (l, len_byte (c_len (f_codec f) (fst v))) :: len_updates fs' (snd v)
      | None => len_updates fs' (snd v)
      end
  end.
Fixpoint assign_u8 (name : string) (x : u8) (fs : list field) : values fs -> values fs :=
  match fs return values fs -> values fs with
  | [] => fun v => v
  | f :: fs' => fun v =>
      match f_u8 f with
      | Some (_, of) => if String.eqb (f_name f) name then (of x, snd v) else (fst v, assign_u8 name x fs' (snd v))
      | None => (fst v, assign_u8 name x fs' (snd v))
      end
  end.
Fixpoint assign_all (us : list (string * u8)) (fs : list field) (v : values fs) : values fs :=
  match us with
  | [] => v
  | (name, x) :: us' => assign_all us' fs (assign_u8 name x fs v)
  end.
Definition prep_body (fs : list field) (v : values fs) : values fs := assign_all (len_updates fs v) fs v.

(** pdu_macro.rs:319-321: every field in order. *)
Fixpoint body_serialize (fs : list field) : values fs -> writer :=
  match fs return values fs -> writer with
  | [] => fun _ => Ok []
  | f :: fs' => fun v => wapp (c_ser (f_codec f) (fst v)) (body_serialize fs' (snd v))
  end.

(** pdu_macro.rs:301-324 [serialize(&mut self, buf)]: returns the result, the mutated
    PDU and the buffer. *)
Definition serialize (c : pdu_class) (p : pdu c) (buf : bytes) : outcome (result unit DISError * pdu c * bytes) :=
  let h1 := set_protocol_family (cls_family c) (set_pdu_type (cls_type c) (header p)) in
  let b1 := prep_body (cls_fields c) (body p) in
  let p1 := mk_pdu h1 b1 in
  match calculate_length c p1 with
  | RErr e => Ok (RErr e, p1, buf)
  | ROk len =>
      let h2 := set_length len h1 in
      match body_serialize (cls_fields c) b1 with
      | Ok out => Ok (ROk tt, mk_pdu h2 b1, buf ++ PduHeader_serialize h2 ++ out)
      | Panic e => Panic e
      end
  end.

(** pdu_macro.rs:257-272 [deserialize_body] with 76-105 ([__pdu_deserialize_field!]).
    [env] holds the already decoded [u8] fields, i.e. the Rust local variables that
    [$len_field as usize] may refer to. A length annotation naming no such variable
    would not compile in Rust; the model reports it as a panic. *)
Fixpoint lookup (name : string) (env : list (string * N)) : option N :=
  match env with
  | [] => None
  | (n, v) :: env' => if String.eqb n name then Some v else lookup name env'
  end.
Definition field_deserialize (env : list (string * N)) (f : field) : reader (f_type f) :=
  match f_len_attr f with
  | None => c_des (f_codec f)
  | Some (l, r) => match lookup l env with Some n => r n | None => rfail NotImplemented end
  end.
Definition extend_env (f : field) (x : f_type f) (env : list (string * N)) : list (string * N) :=
  match f_u8 f with Some (to, _) => (f_name f, to x) :: env | None => env end.
Fixpoint body_deserialize (env : list (string * N)) (fs : list field) : reader (values fs) :=
  match fs return reader (values fs) with
  | [] => ret tt
  | f :: fs' =>
      let* x := field_deserialize env f in
      let* xs := body_deserialize (extend_env f x env) fs' in
      ret (x, xs)
  end.

(** pdu_macro.rs:326-343 [deserialize]: returns the [Result] and the unread bytes. *)
Definition deserialize (c : pdu_class) (bs : bytes) : outcome (result (pdu c) DISError * bytes) :=
  match PduHeader_deserialize bs with
  | Panic e => Panic e
  | Ok (h, rest) =>
      if enum_eqb (pdu_type h) (cls_type c) then
        match body_deserialize [] (cls_fields c) rest with
        | Panic e => Panic e
        | Ok (b, rest') => Ok (ROk (mk_pdu h b), rest')
        end
      else Ok (RErr (InvalidHeader (cls_type c) (pdu_type h)), rest)
  end.

(** pdu_macro.rs:345-350 [deserialize_without_header]. *)
Definition deserialize_without_header (c : pdu_class) (bs : bytes) (h : PduHeader)
  : outcome (result (pdu c) DISError * bytes) :=
  match body_deserialize [] (cls_fields c) bs with
  | Panic e => Panic e
  | Ok (b, rest') => Ok (ROk (mk_pdu h b), rest')
  end.

(** common/pdu.rs:24-27 [finalize]: [set_length(calculate_length().unwrap_or_default())]. *)
Definition finalize (c : pdu_class) (p : pdu c) : pdu c :=
  let len := match calculate_length c p with ROk l => l | RErr _ => as_u16 0 end in
  mk_pdu (set_length len (header p)) (body p).

(** pdu_macro.rs:358-367 [new]. *)
Definition pdu_new (c : pdu_class) (ts : u32) : pdu c :=
  let p := pdu_default c ts in
  finalize c (mk_pdu (set_protocol_family (cls_family c) (set_pdu_type (cls_type c) (header p))) (body p)).
