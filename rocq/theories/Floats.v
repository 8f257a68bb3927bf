(** * Single-precision arithmetic, vectors and the DIS clock.

    Rust's [f32] operations are IEEE-754 binary32 with round-to-nearest-even; they are
    modelled by Flocq's operations on [binary_float 24 128]. NaN payloads and NaN signs,
    which Rust leaves unspecified for the result of an arithmetic operation, are not
    represented: there is one NaN. *)
From Coq Require Import ZArith Reals.
From Flocq Require Import Core.Core IEEE754.BinarySingleNaN.
From Flocq Require IEEE754.Binary IEEE754.Bits.
From Verif Require Import Base DataTypes.

Definition f32_prec : Z := 24.
Definition f32_emax : Z := 128.
Global Instance f32_prec_gt_0 : Prec_gt_0 f32_prec := eq_refl.
Global Instance f32_prec_lt_emax : Prec_lt_emax f32_prec f32_emax := eq_refl.
Definition F : Type := binary_float f32_prec f32_emax.

Definition f_add : F -> F -> F := Bplus mode_NE.
Definition f_sub : F -> F -> F := Bminus mode_NE.
Definition f_mul : F -> F -> F := Bmult mode_NE.
Definition f_div : F -> F -> F := Bdiv mode_NE.
(** [a.mul_add(b, c)] *)
Definition f_mul_add : F -> F -> F -> F := Bfma mode_NE.
Definition f_sqrt : F -> F := Bsqrt mode_NE.
Definition f_neg : F -> F := @Bopp f32_prec f32_emax.
(** [a == b] *)
Definition f_eqb : F -> F -> bool := @Beqb f32_prec f32_emax.
(** [n as f32] for an integer. *)
Definition f_of_Z (n : Z) : F := binary_normalize f32_prec f32_emax _ _ mode_NE n 0 false.
(** [x as u32]: truncation, saturating, NaN to 0. *)
Definition f_to_u32 (x : F) : u32 :=
  match x with
  | B754_nan => as_u32 0
  | B754_infinity true => as_u32 0
  | B754_infinity false => as_u32 4294967295
  | _ => as_u32 (Z.to_N (Z.min 4294967295 (Z.max 0 (Btrunc x))))
  end.

(** ** vector3_float.rs *)

(** vector3_float.rs:11-20: the vector as numbers (one NaN). *)
Record vec3 := mk_vec3 { vx : F; vy : F; vz : F }.

(** The number with a given bit pattern ([f32::from_bits]), for the wire representation of
    [Vector3Float] in [DataTypes]. *)
Definition f_of_bits (b : f32) : F := Binary.B2BSN 24 128 (Bits.b32_of_bits (Z.of_N (uval b))).
Definition vec3_of (v : Vector3Float) : vec3 :=
  mk_vec3 (f_of_bits (Vector3Float_x v)) (f_of_bits (Vector3Float_y v)) (f_of_bits (Vector3Float_z v)).

Definition f_zero : F := B754_zero false.
Definition f_one : F := f_of_Z 1.
(** vector3_float.rs:29-57. *)
Definition vec3_zero : vec3 := mk_vec3 f_zero f_zero f_zero.
Definition vec3_one : vec3 := mk_vec3 f_one f_one f_one.
Definition vec3_unit_x : vec3 := mk_vec3 f_one f_zero f_zero.
Definition vec3_unit_y : vec3 := mk_vec3 f_zero f_one f_zero.
Definition vec3_unit_z : vec3 := mk_vec3 f_zero f_zero f_one.

(** vector3_float.rs:61-64. *)
Definition vec3_dot (a b : vec3) : F :=
  f_mul_add (vz a) (vz b) (f_mul_add (vx a) (vx b) (f_mul (vy a) (vy b))).
(** vector3_float.rs:68-74. *)
Definition vec3_cross (a b : vec3) : vec3 := mk_vec3
  (f_mul_add (vy a) (vz b) (f_neg (f_mul (vz a) (vy b))))
  (f_mul_add (vz a) (vx b) (f_neg (f_mul (vx a) (vz b))))
  (f_mul_add (vx a) (vy b) (f_neg (f_mul (vy a) (vx b)))).
(** vector3_float.rs:78-82. *)
Definition vec3_magnitude (a : vec3) : F :=
  f_sqrt (f_mul_add (vz a) (vz a) (f_mul_add (vx a) (vx a) (f_mul (vy a) (vy a)))).
(** vector3_float.rs:86-93. *)
Definition vec3_normalize (a : vec3) : option vec3 :=
  let mag := vec3_magnitude a in
  if f_eqb mag f_zero then None
  else Some (mk_vec3 (f_div (vx a) mag) (f_div (vy a) mag) (f_div (vz a) mag)).
(** vector3_float.rs:110-140. *)
Definition vec3_add (a b : vec3) : vec3 := mk_vec3 (f_add (vx a) (vx b)) (f_add (vy a) (vy b)) (f_add (vz a) (vz b)).
Definition vec3_sub (a b : vec3) : vec3 := mk_vec3 (f_sub (vx a) (vx b)) (f_sub (vy a) (vy b)) (f_sub (vz a) (vz b)).
Definition vec3_mul (a : vec3) (s : F) : vec3 := mk_vec3 (f_mul (vx a) s) (f_mul (vy a) s) (f_mul (vz a) s).
Definition vec3_div (a : vec3) (s : F) : vec3 := mk_vec3 (f_div (vx a) s) (f_div (vy a) s) (f_div (vz a) s).

(** ** The clock (pdu_header.rs:241-254, live_entity_pdu_header.rs:118-136) *)

(** A reading of [Utc::now()]: the parts of it the code looks at. [chrono] guarantees
    [minute < 60], [second < 60] and [nanosecond < 2_000_000_000] (leap seconds). *)
Record reading := mk_reading { rd_minute : u32; rd_second : u32; rd_nanosecond : u32 }.

(** Multiplication of [u32]s. *)
Definition mul_u32 (m : profile) (a b : u32) : outcome u32 :=
  let n := uval a * uval b in
  match m with
  | Checked => if n <? 4294967296 then Ok (as_u32 n) else Panic ArithOverflow
  | Wrapping => Ok (as_u32 n)
  end.
(** The literal [1.68f32]. *)
Definition f_1_68 : F := f_div (f_of_Z 168) (f_of_Z 100).

(** pdu_header.rs:248-254 (and the identical live_entity_pdu_header.rs:126-132), given the
    results of its three calls of [Utc::now()]. [u64] additions cannot overflow here. *)
Definition calculate_dis_timestamp (m : profile) (now1 now2 now3 : reading) : outcome u32 :=
  match mul_u32 m (rd_minute now1) (as_u32 60) with
  | Panic e => Panic e
  | Ok a =>
      match mul_u32 m a (as_u32 1000000) with
      | Panic e => Panic e
      | Ok minute_curr =>
          match mul_u32 m (rd_second now2) (as_u32 1000000) with
          | Panic e => Panic e
          | Ok second_curr =>
              let nanosecond_curr := uval (rd_nanosecond now3) / 1000 in
              let sum := uval second_curr + uval minute_curr + nanosecond_curr in
              Ok (f_to_u32 (f_div (f_of_Z (Z.of_N sum)) f_1_68))
          end
      end
  end.
