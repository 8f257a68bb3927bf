(** * The vector operators (C36). *)
From Coq Require Import ZArith Reals Lra Lia Bool.
From Flocq Require Import Core.Core IEEE754.BinarySingleNaN.
From Verif Require Import Base Floats FloatFacts Prop_Vector.
Local Open Scope R_scope.

(** ** Specification vocabulary *)
(** The binary32 number nearest to [r], ties to even, as if the exponent were unbounded above. *)
Definition nearest (r : R) : R := round radix2 (FLT_exp (-149) 24) ZnearestE r.
(** [x] is the IEEE result for the exact value [r]: the nearest number, or the infinity of
    [r]'s sign when that is out of range. *)
Definition ieee (r : R) (x : F) : Prop :=
  (Rabs (nearest r) < bpow radix2 128 -> is_finite x = true /\ B2R x = nearest r) /\
  (bpow radix2 128 <= Rabs (nearest r) -> exists s, x = B754_infinity s /\ (s = true <-> r < 0)).
Definition ieee_vec (a b c : R) (v : vec3) : Prop := ieee a (vx v) /\ ieee b (vy v) /\ ieee c (vz v).

(** ** Proofs *)
Lemma nearest_eq r : nearest r = round radix2 (SpecFloat.fexp f32_prec f32_emax) (round_mode mode_NE) r.
Proof. reflexivity. Qed.
Lemma sign_real (x : F) : is_finite x = true -> B2R x <> 0 -> (Bsign x = true <-> B2R x < 0).
Proof.
  intros Fx N. destruct x as [s|s| |s m e H]; try discriminate; [contradiction N; reflexivity|]. cbn [Bsign B2R].
  destruct s; cbn [cond_Zopp]; split; intros X; try discriminate; try reflexivity.
  - apply F2R_lt_0. reflexivity.
  - exfalso. assert (P : 0 < F2R (Float radix2 (Z.pos m) e)) by (apply F2R_gt_0; reflexivity). cbn in *. lra.
Qed.
Lemma overflow_inf (x : F) s : B2SF x = binary_overflow f32_prec f32_emax mode_NE s -> x = B754_infinity s.
Proof.
  intros E. apply B2SF_inj. rewrite E. reflexivity.
Qed.
Lemma nearest_big r : bpow radix2 128 <= Rabs (nearest r) -> r <> 0.
Proof.
  intros H E. rewrite E in H. unfold nearest in H. rewrite round_0 in H by apply valid_rnd_N. rewrite Rabs_R0 in H. assert (P := bpow_gt_0 radix2 128). lra.
Qed.
Lemma mul_ieee x y : is_finite x = true -> is_finite y = true -> ieee (B2R x * B2R y) (f_mul x y).
Proof.
  intros Fx Fy. assert (C := Bmult_correct f32_prec f32_emax _ _ mode_NE x y). fold (f_mul x y) in C. rewrite <- nearest_eq in C.
  split; intros H.
  - rewrite Rlt_bool_true in C by exact H. destruct C as [E [Fi _]]. rewrite Fi, Fx, Fy. auto.
  - rewrite Rlt_bool_false in C by exact H. exists (xorb (Bsign x) (Bsign y)). split; [apply overflow_inf, C|].
    apply nearest_big in H. assert (X : B2R x <> 0) by (intros E; rewrite E in H; lra). assert (Y : B2R y <> 0) by (intros E; rewrite E in H; lra).
    assert (Sx := sign_real x Fx X). assert (Sy := sign_real y Fy Y).
    destruct (Bsign x), (Bsign y); cbn [xorb]; split; intros K; try discriminate; try reflexivity.
    + exfalso. assert (B2R x < 0) by tauto. assert (B2R y < 0) by tauto. nra.
    + assert (B2R x < 0) by tauto. assert (~ B2R y < 0) by (intros Z; apply Sy in Z; discriminate). nra.
    + assert (B2R y < 0) by tauto. assert (~ B2R x < 0) by (intros Z; apply Sx in Z; discriminate). nra.
    + exfalso. assert (~ B2R x < 0) by (intros Z; apply Sx in Z; discriminate). assert (~ B2R y < 0) by (intros Z; apply Sy in Z; discriminate). nra.
Qed.
Lemma sum_sign a b s s' : bpow radix2 128 <= Rabs (nearest (a + b)) -> s = s' ->
  (a <> 0 -> (s = true <-> a < 0)) -> (b <> 0 -> (s' = true <-> b < 0)) -> (s = true <-> a + b < 0).
Proof.
  intros H <- A B. apply nearest_big in H. destruct (Req_dec a 0) as [->|Na]; [rewrite Rplus_0_l in *; now apply B|].
  destruct (Req_dec b 0) as [->|Nb]; [rewrite Rplus_0_r in *; now apply A|]. specialize (A Na). specialize (B Nb). destruct s; split; intros K; try discriminate; try reflexivity.
  - assert (a < 0) by tauto. assert (b < 0) by tauto. lra.
  - assert (~ a < 0) by (intros Z; apply A in Z; discriminate). assert (~ b < 0) by (intros Z; apply B in Z; discriminate). lra.
Qed.
Lemma add_ieee x y : is_finite x = true -> is_finite y = true -> ieee (B2R x + B2R y) (f_add x y).
Proof.
  intros Fx Fy. assert (C := Bplus_correct f32_prec f32_emax _ _ mode_NE x y Fx Fy). fold (f_add x y) in C. rewrite <- nearest_eq in C.
  split; intros H.
  - rewrite Rlt_bool_true in C by exact H. destruct C as [E [Fi _]]. auto.
  - rewrite Rlt_bool_false in C by exact H. destruct C as [C S]. exists (Bsign x). split; [apply overflow_inf, C|].
    exact (sum_sign _ _ _ _ H S (sign_real x Fx) (sign_real y Fy)).
Qed.
Lemma sub_ieee x y : is_finite x = true -> is_finite y = true -> ieee (B2R x - B2R y) (f_sub x y).
Proof.
  intros Fx Fy. assert (C := Bminus_correct f32_prec f32_emax _ _ mode_NE x y Fx Fy). fold (f_sub x y) in C. rewrite <- nearest_eq in C.
  split; intros H.
  - rewrite Rlt_bool_true in C by exact H. destruct C as [E [Fi _]]. auto.
  - rewrite Rlt_bool_false in C by exact H. destruct C as [C S]. exists (Bsign x). split; [apply overflow_inf, C|].
    apply (sum_sign _ (- B2R y) _ (negb (Bsign y)) H S (sign_real x Fx)). intros N.
    assert (N' : B2R y <> 0) by lra. assert (Sy := sign_real y Fy N'). destruct (Bsign y); cbn [negb]; split; intros K; try discriminate; try reflexivity.
    + assert (B2R y < 0) by tauto. lra.
    + assert (~ B2R y < 0) by (intros Z; apply Sy in Z; discriminate). lra.
Qed.
Lemma div_ieee x y : is_finite x = true -> is_finite y = true -> B2R y <> 0 -> ieee (B2R x / B2R y) (f_div x y).
Proof.
  intros Fx Fy N. assert (C := Bdiv_correct f32_prec f32_emax _ _ mode_NE x y N). fold (f_div x y) in C. rewrite <- nearest_eq in C.
  split; intros H.
  - rewrite Rlt_bool_true in C by exact H. destruct C as [E [Fi _]]. rewrite Fi. auto.
  - rewrite Rlt_bool_false in C by exact H. exists (xorb (Bsign x) (Bsign y)). split; [apply overflow_inf, C|].
    apply nearest_big in H. assert (X : B2R x <> 0) by (intros E; rewrite E in H; unfold Rdiv in H; lra).
    assert (Sx := sign_real x Fx X). assert (Sy := sign_real y Fy N).
    assert (Pos : 0 < B2R y -> 0 < / B2R y) by apply Rinv_0_lt_compat. assert (Neg : B2R y < 0 -> / B2R y < 0) by apply Rinv_lt_0_compat.
    unfold Rdiv in *.
    destruct (Bsign x), (Bsign y); cbn [xorb]; split; intros K; try discriminate; try reflexivity.
    + exfalso. assert (B2R x < 0) by tauto. assert (B2R y < 0) by tauto. specialize (Neg H1). nra.
    + assert (B2R x < 0) by tauto. assert (0 < B2R y) by (destruct (Rtotal_order (B2R y) 0) as [Z|[Z|Z]]; [apply Sy in Z; discriminate | contradiction | exact Z]). specialize (Pos H1). nra.
    + assert (B2R y < 0) by tauto. assert (~ B2R x < 0) by (intros Z; apply Sx in Z; discriminate). specialize (Neg H0). nra.
    + exfalso. assert (~ B2R x < 0) by (intros Z; apply Sx in Z; discriminate).
      assert (0 < B2R y) by (destruct (Rtotal_order (B2R y) 0) as [Z|[Z|Z]]; [apply Sy in Z; discriminate | contradiction | exact Z]). specialize (Pos H1). nra.
Qed.
Lemma div_zero x y : is_finite x = true -> is_finite y = true -> B2R y = 0 -> is_finite (f_div x y) = false.
Proof.
  intros Fx Fy Z. destruct y as [s'|s'| |s' m' e' H']; try discriminate.
  - destruct x as [s|s| |s m e H]; try discriminate; reflexivity.
  - exfalso. cbn [B2R] in Z. apply eq_0_F2R in Z. destruct s'; discriminate Z.
Qed.

(** Every operator computes, in each component, the IEEE result for the exact value; a vector
    divided by zero has no finite component. *)
Theorem C36_operators : forall v w s, finite_vec v -> finite_vec w -> is_finite s = true ->
  ieee_vec (rx v + rx w) (ry v + ry w) (rz v + rz w) (vec3_add v w) /\
  ieee_vec (rx v - rx w) (ry v - ry w) (rz v - rz w) (vec3_sub v w) /\
  ieee_vec (rx v * B2R s) (ry v * B2R s) (rz v * B2R s) (vec3_mul v s) /\
  (B2R s <> 0 -> ieee_vec (rx v / B2R s) (ry v / B2R s) (rz v / B2R s) (vec3_div v s)) /\
  (B2R s = 0 -> is_finite (vx (vec3_div v s)) = false /\ is_finite (vy (vec3_div v s)) = false /\ is_finite (vz (vec3_div v s)) = false).
Proof.
  intros v w s [V1 [V2 V3]] [W1 [W2 W3]] Fs. unfold ieee_vec, vec3_add, vec3_sub, vec3_mul, vec3_div, rx, ry, rz. cbn [vx vy vz].
  repeat lazymatch goal with |- _ /\ _ => split | |- (_ = _ -> _) => intros ? | |- (_ <> _ -> _) => intros ? end;
    auto using add_ieee, sub_ieee, mul_ieee, div_ieee, div_zero.
Qed.

(** The named vectors. *)
Theorem C36_constants :
  (forall v, v = vec3_zero \/ v = vec3_one \/ v = vec3_unit_x \/ v = vec3_unit_y \/ v = vec3_unit_z -> finite_vec v) /\
  (rx vec3_zero = 0 /\ ry vec3_zero = 0 /\ rz vec3_zero = 0) /\ (rx vec3_one = 1 /\ ry vec3_one = 1 /\ rz vec3_one = 1) /\
  (rx vec3_unit_x = 1 /\ ry vec3_unit_x = 0 /\ rz vec3_unit_x = 0) /\ (rx vec3_unit_y = 0 /\ ry vec3_unit_y = 1 /\ rz vec3_unit_y = 0) /\
  (rx vec3_unit_z = 0 /\ ry vec3_unit_z = 0 /\ rz vec3_unit_z = 1).
Proof.
  assert (One : B2R f_one = 1).
  { replace f_one with (B754_finite (prec := f32_prec) (emax := f32_emax) false 8388608 (-23) eq_refl) by (apply B2SF_inj; vm_compute; reflexivity).
    unfold B2R, F2R. cbn [Fnum Fexp cond_Zopp]. change (bpow radix2 (-23)) with (/ 8388608). lra. }
  split; [intros v H; repeat (destruct H as [->|H]); [..|subst v]; repeat split; vm_compute; reflexivity|].
  unfold rx, ry, rz, vec3_zero, vec3_one, vec3_unit_x, vec3_unit_y, vec3_unit_z. cbn [vx vy vz]. rewrite One. cbn [B2R f_zero]. tauto.
Qed.

(** A NaN operand gives a NaN in that component. *)
Definition nan_in (x y r : F) : Prop := is_nan x = true \/ is_nan y = true -> is_nan r = true.
Lemma nan_ops x y : nan_in x y (f_add x y) /\ nan_in x y (f_sub x y) /\ nan_in x y (f_mul x y) /\ nan_in x y (f_div x y).
Proof.
  unfold nan_in. repeat split; intros [H|H];
    first [destruct x; try discriminate H; destruct y; reflexivity | destruct y; try discriminate H; destruct x; reflexivity].
Qed.
Theorem C36_operators_nan : forall v w s,
  (nan_in (vx v) (vx w) (vx (vec3_add v w)) /\ nan_in (vy v) (vy w) (vy (vec3_add v w)) /\ nan_in (vz v) (vz w) (vz (vec3_add v w))) /\
  (nan_in (vx v) (vx w) (vx (vec3_sub v w)) /\ nan_in (vy v) (vy w) (vy (vec3_sub v w)) /\ nan_in (vz v) (vz w) (vz (vec3_sub v w))) /\
  (nan_in (vx v) s (vx (vec3_mul v s)) /\ nan_in (vy v) s (vy (vec3_mul v s)) /\ nan_in (vz v) s (vz (vec3_mul v s))) /\
  (nan_in (vx v) s (vx (vec3_div v s)) /\ nan_in (vy v) s (vy (vec3_div v s)) /\ nan_in (vz v) s (vz (vec3_div v s))).
Proof.
  intros v w s. unfold vec3_add, vec3_sub, vec3_mul, vec3_div. cbn [vx vy vz].
  repeat lazymatch goal with |- _ /\ _ => split end; apply nan_ops.
Qed.

(** What the theorems above rest on (one traversal for all of them; not part of the model). *)
Definition Prop_Operators_theorems : True :=
  let _ := @C36_operators in
  let _ := @C36_constants in
  let _ := @C36_operators_nan in
  I.
Print Assumptions Prop_Operators_theorems.
