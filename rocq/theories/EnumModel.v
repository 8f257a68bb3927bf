(** * Enumerations of [src/common/enums.rs]: the generic model.

    Every enumeration in enums.rs is declared with [#[derive(FromPrimitive)]],
    one [#[default]] variant and
<<
    pub fn deserialize<B: Buf>(buf: &mut B) -> Self {
        Self::from_uN(buf.get_uN()).unwrap_or_else(Self::default)
    }
>>
    with N = 8, 16 or 32. A Rust enumeration is modelled by the list of its
    discriminants, its wire width and its default; a value is one of the
    discriminants (variant names are dropped, except for the named constants in
    [Header.v]; distinct variants have distinct discriminants, so nothing is
    identified that Rust distinguishes). The 402 instances are in [Enums.v]. *)
From Verif Require Import Base.

Definition memb (n : N) (l : list N) : bool := existsb (N.eqb n) l.

Record enum_spec := mk_enum_spec {
  e_name : string;
  e_bytes : nat;           (** width read by [deserialize], in bytes *)
  e_codes : list N;        (** discriminants *)
  e_default : N;           (** discriminant of the [#[default]] variant *)
  e_default_ok : memb e_default e_codes = true;
  e_fits : forallb (fun c => c <? 256 ^ N.of_nat e_bytes) e_codes = true
}.

(** A value of the enumeration. *)
Record enum (e : enum_spec) := mk_enum { code : N; code_ok : memb code (e_codes e) = true }.
Arguments mk_enum {e} code code_ok.
Arguments code {e} _.
Arguments code_ok {e} _.

(** The variant with discriminant [n]. *)
Definition variant (e : enum_spec) (n : N) (H : memb n (e_codes e) = true) : enum e := mk_enum n H.

Definition enum_default (e : enum_spec) : enum e := mk_enum (e_default e) (e_default_ok e).

(** [FromPrimitive::from_uN] as derived by num-derive: the variant with that
    discriminant, if there is one. *)
Definition enum_from (e : enum_spec) (n : N) : option (enum e) :=
  match Bool.bool_dec (memb n (e_codes e)) true with
  | left H => Some (mk_enum n H)
  | right _ => None
  end.

(** [E::deserialize] (the pattern above, for every enumeration). *)
Definition enum_deserialize (e : enum_spec) : reader (enum e) :=
  let* n := get_uint (e_bytes e) in
  ret (match enum_from e (uval n) with
       | Some v => v
       | None => enum_default e
       end).
