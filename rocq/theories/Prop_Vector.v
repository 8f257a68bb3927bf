(** * Vector arithmetic (C36). *)
From Coq Require Import ZArith Reals Lra Lia Bool.
From Flocq Require Import Core.Core IEEE754.BinarySingleNaN Relative Calc.Operations.
From Verif Require Import Base Floats FloatFacts.
Local Open Scope R_scope.

(** ** Specification vocabulary *)

(** The components of a vector as real numbers, and finiteness. *)
Definition finite_vec (v : vec3) : Prop := is_finite (vx v) = true /\ is_finite (vy v) = true /\ is_finite (vz v) = true.
Definition rx (v : vec3) : R := B2R (vx v).
Definition ry (v : vec3) : R := B2R (vy v).
Definition rz (v : vec3) : R := B2R (vz v).
(** Every component is at most [b] in absolute value; some component is at least [b]. *)
Definition all_at_most (b : R) (v : vec3) : Prop := Rabs (rx v) <= b /\ Rabs (ry v) <= b /\ Rabs (rz v) <= b.
Definition some_at_least (b : R) (v : vec3) : Prop := b <= Rabs (rx v) \/ b <= Rabs (ry v) \/ b <= Rabs (rz v).
(** Euclidean length over the reals. *)
Definition length (v : vec3) : R := sqrt (rx v * rx v + ry v * ry v + rz v * rz v).
(** Rust's [==] on vectors (derived [PartialEq]). *)
Definition vec3_eqb (v w : vec3) : bool := f_eqb (vx v) (vx w) && f_eqb (vy v) (vy w) && f_eqb (vz v) (vz w).
Definition has_nan (v : vec3) : Prop := is_nan (vx v) = true \/ is_nan (vy v) = true \/ is_nan (vz v) = true.

(** ** Commutativity *)
Lemma f_add_comm x y : f_add x y = f_add y x.
Proof.
  unfold f_add. destruct x as [sx|sx| |sx mx ex Hx], y as [sy|sy| |sy my ey Hy]; try reflexivity; try (destruct sx, sy; reflexivity).
  cbn [Bplus]. cbv zeta. rewrite (Z.min_comm ex ey). f_equal. unfold Fplus_naive. apply Z.add_comm.
Qed.
Lemma f_mul_comm x y : f_mul x y = f_mul y x.
Proof.
  unfold f_mul. destruct x as [sx|sx| |sx mx ex Hx], y as [sy|sy| |sy my ey Hy]; try reflexivity; try (destruct sx, sy; reflexivity).
  apply B2SF_inj. cbn [Bmult]. rewrite !B2SF_SF2B. rewrite (xorb_comm sx sy), (Pos.mul_comm mx my), (Z.add_comm ex ey). reflexivity.
Qed.
Lemma f_mul_add_comm x y z : f_mul_add x y z = f_mul_add y x z.
Proof.
  unfold f_mul_add.
  assert (S : @Bfma_szero f32_prec f32_emax mode_NE x y z = @Bfma_szero f32_prec f32_emax mode_NE y x z) by (unfold Bfma_szero; rewrite xorb_comm; reflexivity).
  destruct x as [sx|sx| |sx mx ex Hx], y as [sy|sy| |sy my ey Hy]; try reflexivity; cbn [Bfma] in *; try (rewrite (xorb_comm sx sy), ?S; reflexivity).
  all: try (rewrite S; reflexivity).
  rewrite S. cbn [Fmult]. rewrite (Z.mul_comm (cond_Zopp sx _)), (Z.add_comm ex ey). reflexivity.
Qed.

(** Addition and the dot product are commutative on all operands, special values included. *)
Theorem C36_commutative : forall a b, vec3_add a b = vec3_add b a /\ vec3_dot a b = vec3_dot b a.
Proof.
  intros a b. unfold vec3_add, vec3_dot. split.
  - rewrite (f_add_comm (vx a)), (f_add_comm (vy a)), (f_add_comm (vz a)). reflexivity.
  - rewrite (f_mul_comm (vy a)), (f_mul_add_comm (vx a)), (f_mul_add_comm (vz a)). reflexivity.
Qed.

(** ** Neutral elements *)
Lemma f_add_zero x : x <> B754_zero true -> f_add x f_zero = x.
Proof. intros H. destruct x as [[]|[]| |s m e Hb]; try reflexivity. contradiction H. reflexivity. Qed.
Lemma f_eqb_refl x : is_nan x = false -> f_eqb x x = true.
Proof. intros H. unfold f_eqb. rewrite (Beqb_refl _ _ x), H. reflexivity. Qed.
(** The zero vector is neutral for addition up to the sign of zero: the result is the operand
    itself unless a component is [-0.0], and is [==] to the operand unless a component is a NaN. *)
Theorem C36_zero_identity : forall v,
  (vx v <> B754_zero true -> vy v <> B754_zero true -> vz v <> B754_zero true -> vec3_add v vec3_zero = v) /\
  (~ has_nan v -> vec3_eqb (vec3_add v vec3_zero) v = true).
Proof.
  intros [x y z]. split.
  - cbn [vx vy vz]. intros X Y Z. unfold vec3_add, vec3_zero. cbn [vx vy vz]. rewrite !f_add_zero by assumption. reflexivity.
  - intros N. unfold has_nan in N. cbn [vx vy vz] in N.
    assert (K : forall c, is_nan c = false -> f_eqb (f_add c f_zero) c = true).
    { intros c Hc. destruct c as [[]|[]| |s m e Hb]; try reflexivity; try discriminate. rewrite f_add_zero by discriminate. apply f_eqb_refl. reflexivity. }
    unfold vec3_eqb, vec3_add, vec3_zero. cbn [vx vy vz].
    rewrite !K; try reflexivity; apply not_true_is_false; tauto.
Qed.

(** ** Rounding *)
Definition u : R := / 16777216.
Definition h : R := bpow radix2 (-150).
Lemma u_val : u_ro radix2 f32_prec = u.
Proof. unfold u_ro, u. change (bpow radix2 (- f32_prec + 1)) with (/ 8388608). lra. Qed.
(** The error of a rounding is at most half an ulp, relative or absolute. *)
Lemma rnd_err t : Rabs (rnd t - t) <= u * Rabs t + h.
Proof.
  destruct (relative_error_N_FLT'_ex radix2 (3 - f32_emax - f32_prec) f32_prec ltac:(reflexivity) (fun x => negb (Z.even x)) t) as [e [n [He [Hn [_ E]]]]].
  change (rnd t = t * (1 + e) + n) in E. rewrite E. rewrite u_val in He.
  assert (Hh : / 2 * bpow radix2 (3 - f32_emax - f32_prec) = h).
  { unfold h. change (3 - f32_emax - f32_prec)%Z with (1 + (-150))%Z. rewrite bpow_plus. change (bpow radix2 1) with 2. lra. }
  rewrite Hh in Hn. replace (t * (1 + e) + n - t) with (t * e + n) by ring.
  apply (Rle_trans _ _ _ (Rabs_triang _ _)). apply Rplus_le_compat; [|exact Hn]. rewrite Rabs_mult, Rmult_comm.
  apply Rmult_le_compat_r; [apply Rabs_pos|]. apply (Rle_trans _ _ _ He). unfold u. lra.
Qed.
Lemma rnd_rel t : bpow radix2 (-126) <= Rabs t -> Rabs (rnd t - t) <= u * Rabs t.
Proof.
  intros H. assert (E := relative_error_N_FLT radix2 (3 - f32_emax - f32_prec) f32_prec ltac:(reflexivity) (fun x => negb (Z.even x)) t H).
  replace (/ 2 * bpow radix2 (- f32_prec + 1)) with u in E; [exact E|]. unfold u. change (bpow radix2 (- f32_prec + 1)) with (/ 8388608). lra.
Qed.
Lemma rnd_pos t : 0 <= t -> 0 <= rnd t.
Proof. intros H. rewrite <- rnd_0. apply rnd_le, H. Qed.
(** A nonnegative real rounds to zero iff it is at most half the least subnormal. *)
Lemma rnd_half : rnd h = 0.
Proof.
  assert (C := binary_normalize_correct f32_prec f32_emax _ _ mode_NE 1 (-150) false). cbv zeta in C.
  replace (F2R (Float radix2 1 (-150))) with h in C by (unfold F2R, h; cbn [Fnum Fexp]; rewrite Rmult_1_l; reflexivity).
  rewrite (no_overflow h 0) in C; [|lia | rewrite Rabs_pos_eq by (apply bpow_ge_0); apply bpow_le; lia].
  destruct C as [C _]. change (round radix2 _ _ h) with (rnd h) in C. rewrite <- C. rewrite <- SF2R_B2SF.
  match goal with |- context [B2SF ?x] => replace (B2SF x) with (SpecFloat.S754_zero false) by (vm_compute; reflexivity) end. reflexivity.
Qed.
Lemma rnd_zero_iff t : 0 <= t -> (rnd t = 0 <-> t <= h).
Proof.
  intros P. split.
  - intros E. destruct (Rle_or_lt t h) as [L|G]; [exact L | exfalso].
    destruct (Rle_or_lt (bpow radix2 (-149)) t) as [L2|G2].
    + apply rnd_le in L2. rewrite rnd_bpow in L2 by lia. assert (Q := bpow_gt_0 radix2 (-149)). lra.
    + assert (N : t <> 0) by (unfold h in G; assert (Q := bpow_gt_0 radix2 (-150)); lra).
      assert (B : Rabs (rnd t - t) <= / 2 * ulp radix2 fe t) by (apply error_le_half_ulp; auto with typeclass_instances).
      rewrite E in B. replace (0 - t) with (- t) in B by ring. rewrite Rabs_Ropp, Rabs_pos_eq in B by exact P.
      rewrite ulp_neq_0 in B by exact N. unfold cexp in B.
      assert (M : (mag radix2 t <= -149)%Z) by (apply mag_le_bpow; [exact N | rewrite Rabs_pos_eq by exact P; exact G2]).
      replace (fe (mag radix2 t)) with (1 + (-150))%Z in B
        by (unfold SpecFloat.fexp, SpecFloat.emin, f32_emax, f32_prec; lia).
      rewrite bpow_plus in B. change (bpow radix2 1) with 2 in B. fold h in B. lra.
  - intros L. apply Rle_antisym; [|apply rnd_pos, P]. rewrite <- rnd_half. apply rnd_le, L.
Qed.
Lemma rnd_least t : 0 < rnd t -> bpow radix2 (-149) <= rnd t.
Proof.
  intros H. apply (generic_format_ge_bpow radix2 fe); [|exact H | apply generic_format_round; auto with typeclass_instances].
  intros e. unfold SpecFloat.fexp, SpecFloat.emin, f32_emax, f32_prec. lia.
Qed.

(** ** Nonnegative floats: sums of squares *)
Definition nn (c : F) : Prop := match c with B754_nan => False | B754_zero s | B754_infinity s | B754_finite s _ _ _ => s = false end.
Lemma nn_real c : nn c -> 0 <= B2R c.
Proof. destruct c as [s|s| |s m e H]; cbn; try lra. intros ->. apply F2R_ge_0. cbn. lia. Qed.
Lemma nn_overflow (c : F) : B2SF c = SpecFloat.S754_infinity false -> c = B754_infinity false.
Proof. destruct c; cbn; congruence. Qed.
(** The value of a rounded, possibly overflowing nonnegative result. *)
Definition is_rounding (c : F) (t : R) : Prop :=
  (rnd t < bpow radix2 128 /\ is_finite c = true /\ B2R c = rnd t) \/ (bpow radix2 128 <= rnd t /\ c = B754_infinity false).
Lemma mul_square x : is_finite x = true -> nn (f_mul x x) /\ is_rounding (f_mul x x) (B2R x * B2R x).
Proof.
  intros Fx. assert (C := Bmult_correct f32_prec f32_emax _ _ mode_NE x x). unfold f_mul.
  assert (P : 0 <= B2R x * B2R x) by nra. assert (Q := rnd_pos _ P).
  change (round radix2 _ _ (B2R x * B2R x)) with (rnd (B2R x * B2R x)) in C. rewrite (Rabs_pos_eq _ Q) in C.
  destruct (Rlt_bool_spec (rnd (B2R x * B2R x)) (bpow radix2 f32_emax)) as [L|G].
  - destruct C as [C1 [C2 C3]]. rewrite Fx in C2. cbn in C2. rewrite xorb_nilpotent in C3. split; [|left; auto].
    destruct (Bmult mode_NE x x); cbn in *; try discriminate; apply C3; reflexivity.
  - rewrite xorb_nilpotent in C. apply nn_overflow in C. rewrite C. split; [reflexivity | right; auto].
Qed.
Lemma fma_square x c : is_finite x = true -> nn c -> is_finite c = true ->
  nn (f_mul_add x x c) /\ is_rounding (f_mul_add x x c) (B2R x * B2R x + B2R c).
Proof.
  intros Fx Nc Fc. assert (C := Bfma_correct f32_prec f32_emax _ _ mode_NE x x c Fx Fx Fc). unfold f_mul_add. cbv zeta in C.
  assert (Pc := nn_real c Nc). assert (P : 0 <= B2R x * B2R x + B2R c) by nra. assert (Q := rnd_pos _ P).
  change (round radix2 _ _ (B2R x * B2R x + B2R c)) with (rnd (B2R x * B2R x + B2R c)) in C. rewrite (Rabs_pos_eq _ Q) in C.
  destruct (Rlt_bool_spec (rnd (B2R x * B2R x + B2R c)) (bpow radix2 f32_emax)) as [L|G].
  - destruct C as [C1 [C2 C3]]. split; [|left; auto].
    assert (S : Bsign (Bfma mode_NE x x c) = false).
    { rewrite C3. destruct (Rcompare_spec (B2R x * B2R x + B2R c) 0); [lra | | reflexivity].
      unfold Bfma_szero. rewrite xorb_nilpotent. destruct (eqb false (Bsign c)); reflexivity. }
    destruct (Bfma mode_NE x x c); cbn in *; try discriminate; exact S.
  - rewrite Rlt_bool_false in C by exact P. apply nn_overflow in C. rewrite C. split; [reflexivity | right; auto].
Qed.
Lemma fma_square_inf x : is_finite x = true -> f_mul_add x x (B754_infinity false) = B754_infinity false.
Proof. destruct x; intros; cbn in *; try discriminate; reflexivity. Qed.

(** The sum of squares under the root. *)
Definition sum_sq (v : vec3) : F := f_mul_add (vz v) (vz v) (f_mul_add (vx v) (vx v) (f_mul (vy v) (vy v))).
Definition A (v : vec3) : R := rnd (ry v * ry v).
Definition B (v : vec3) : R := rnd (rx v * rx v + A v).
Definition C (v : vec3) : R := rnd (rz v * rz v + B v).
Lemma sq_pos t : 0 <= t * t.
Proof. nra. Qed.
Lemma A_pos v : 0 <= A v.
Proof. apply rnd_pos, sq_pos. Qed.
Lemma B_pos v : 0 <= B v.
Proof. apply rnd_pos. assert (X := sq_pos (rx v)). assert (Y := A_pos v). lra. Qed.
Lemma C_pos v : 0 <= C v.
Proof. apply rnd_pos. assert (X := sq_pos (rz v)). assert (Y := B_pos v). lra. Qed.
Lemma rnd_ge_format t c : generic_format radix2 fe c -> c <= t -> c <= rnd t.
Proof. intros H L. apply round_ge_generic; auto with typeclass_instances. Qed.
Lemma AB v : A v <= B v.
Proof.
  unfold B. apply rnd_ge_format; [apply generic_format_round; auto with typeclass_instances|]. assert (X := sq_pos (rx v)). lra.
Qed.
Lemma BC v : B v <= C v.
Proof.
  unfold C. apply rnd_ge_format; [apply generic_format_round; auto with typeclass_instances|]. assert (X := sq_pos (rz v)). lra.
Qed.
Lemma sum_sq_value v : finite_vec v -> nn (sum_sq v) /\
  ((C v < bpow radix2 128 /\ is_finite (sum_sq v) = true /\ B2R (sum_sq v) = C v) \/
   (bpow radix2 128 <= C v /\ sum_sq v = B754_infinity false)).
Proof.
  intros [Fx [Fy Fz]]. unfold sum_sq. assert (AB := AB v). assert (BC := BC v).
  destruct (mul_square _ Fy) as [N1 [[L1 [F1 E1]]|[L1 E1]]].
  2: { rewrite E1, !fma_square_inf by assumption. split; [reflexivity|]. right. split; [|reflexivity]. fold (ry v) in L1. fold (A v) in L1. lra. }
  destruct (fma_square _ _ Fx N1 F1) as [N2 D]. rewrite E1 in D. fold (ry v) in D. fold (A v) in D. fold (rx v) in D. unfold is_rounding in D. fold (B v) in D.
  destruct D as [[L2 [F2 E2]]|[L2 E2]].
  2: { rewrite E2, !fma_square_inf by assumption. split; [reflexivity|]. right. split; [|reflexivity]. lra. }
  destruct (fma_square _ _ Fz N2 F2) as [N3 D]. rewrite E2 in D. split; [exact N3|]. exact D.
Qed.

(** ** Magnitude *)
Lemma magnitude_def v : vec3_magnitude v = f_sqrt (sum_sq v).
Proof. reflexivity. Qed.
Lemma sqrt_nn c : nn c -> nn (f_sqrt c) /\ B2R (f_sqrt c) = rnd (sqrt (B2R c)) /\ is_finite (f_sqrt c) = is_finite c.
Proof.
  intros N. destruct (Bsqrt_correct f32_prec f32_emax _ _ mode_NE c) as [E1 [E2 E3]]. fold f_sqrt in E1, E2, E3.
  assert (Fi : is_finite (f_sqrt c) = is_finite c). { rewrite E2. destruct c as [s|s| |s m e H]; cbn in *; try reflexivity. rewrite N. reflexivity. }
  split; [|split; [exact E1 | exact Fi]].
  destruct c as [s|s| |s m e H]; cbn in N; try (subst s; reflexivity); [contradiction|]. subst s.
  destruct (f_sqrt (B754_finite false m e H)); cbn in *; try discriminate; apply E3; reflexivity.
Qed.
(** A magnitude is never negative; it is a NaN only if a component is. *)
Lemma nn_fma_any x c : is_nan x = false -> nn c -> nn (f_mul_add x x c).
Proof.
  intros Hx Hc. destruct (is_finite x) eqn:Fx.
  - destruct (is_finite c) eqn:Fc; [apply fma_square; assumption|].
    destruct c as [s|s| |s m e H]; cbn in *; try discriminate; try contradiction. subst s. rewrite fma_square_inf by exact Fx. reflexivity.
  - destruct x as [s|s| |s m e H]; cbn in *; try discriminate. unfold f_mul_add, Bfma. rewrite xorb_nilpotent.
    destruct c as [s'|s'| |s' m e H]; cbn in *; subst; try contradiction; reflexivity.
Qed.
Lemma nn_mul_any x : is_nan x = false -> nn (f_mul x x).
Proof.
  intros Hx. destruct (is_finite x) eqn:Fx; [apply mul_square, Fx|]. destruct x as [s|s| |s m e H]; cbn in *; try discriminate. apply xorb_nilpotent.
Qed.
Lemma fma_nan_1 x c : is_nan x = true -> f_mul_add x x c = B754_nan.
Proof. destruct x; cbn; try discriminate. reflexivity. Qed.
Lemma fma_nan_2 x : f_mul_add x x B754_nan = B754_nan.
Proof. destruct x; reflexivity. Qed.
Theorem C36_magnitude_sign : forall v,
  (has_nan v -> vec3_magnitude v = B754_nan) /\
  (~ has_nan v -> is_nan (vec3_magnitude v) = false /\ Bsign (vec3_magnitude v) = false).
Proof.
  intros v. rewrite magnitude_def. split.
  - intros H. replace (sum_sq v) with (@B754_nan f32_prec f32_emax); [reflexivity|]. symmetry. unfold sum_sq. destruct H as [H|[H|H]].
    + rewrite (fma_nan_1 (vx v)) by exact H. apply fma_nan_2.
    + replace (f_mul (vy v) (vy v)) with (@B754_nan f32_prec f32_emax) by (destruct (vy v); cbn in H; try discriminate; reflexivity). rewrite !fma_nan_2. reflexivity.
    + apply fma_nan_1, H.
  - intros H. unfold has_nan in H.
    assert (N : nn (f_sqrt (sum_sq v))).
    { apply sqrt_nn, nn_fma_any; [apply not_true_is_false; tauto|]. apply nn_fma_any; [apply not_true_is_false; tauto|]. apply nn_mul_any, not_true_is_false. tauto. }
    destruct (f_sqrt (sum_sq v)); cbn in *; try contradiction; auto.
Qed.

(** ** Normalization *)
Lemma small_square t : t * t <= h <-> Rabs t <= bpow radix2 (-75).
Proof.
  unfold h. change (-150)%Z with (-75 + -75)%Z. rewrite bpow_plus. assert (P := bpow_gt_0 radix2 (-75)). set (b := bpow radix2 (-75)) in *.
  assert (Q := Rabs_pos t). replace (t * t) with (Rabs t * Rabs t) by (unfold Rabs; destruct (Rcase_abs t); ring). split; intros H; nra.
Qed.
Lemma C_zero v : C v = 0 <-> all_at_most (bpow radix2 (-75)) v.
Proof.
  unfold all_at_most. rewrite <- !small_square.
  assert (PA := A_pos v). assert (PB := B_pos v). assert (AB := AB v). assert (BC := BC v).
  assert (ZA : A v = 0 <-> ry v * ry v <= h) by (apply rnd_zero_iff, sq_pos).
  assert (ZB : B v = 0 <-> rx v * rx v + A v <= h) by (apply rnd_zero_iff; assert (X := sq_pos (rx v)); lra).
  assert (ZC : C v = 0 <-> rz v * rz v + B v <= h) by (apply rnd_zero_iff; assert (X := sq_pos (rz v)); lra).
  split.
  - intros E. assert (EB : B v = 0) by lra. assert (EA : A v = 0) by lra. rewrite EB in ZC. rewrite EA in ZB. rewrite !Rplus_0_r in *. tauto.
  - intros [X [Y Z]]. apply ZA in Y. rewrite Y in ZB. rewrite Rplus_0_r in ZB. apply ZB in X. rewrite X in ZC. rewrite Rplus_0_r in ZC. apply ZC, Z.
Qed.
Lemma f_eqb_zero c : nn c -> f_eqb c f_zero = true <-> is_finite c = true /\ B2R c = 0.
Proof.
  intros N. unfold f_eqb, f_zero. destruct c as [s|s| |s m e H]; cbn in N |- *; try contradiction; subst s.
  - split; intros; [split; reflexivity | reflexivity].
  - split; [discriminate | intros [D _]; discriminate D].
  - split; [discriminate|]. intros [_ D]. assert (P := F2R_gt_0 radix2 (Float radix2 (Zpos m) e) ltac:(reflexivity)). unfold cond_Zopp in D. lra.
Qed.
Lemma rnd_sqrt_zero c : 0 <= c -> (c = 0 \/ bpow radix2 (-149) <= c) -> (rnd (sqrt c) = 0 <-> c = 0).
Proof.
  intros P H. split; [|intros ->; rewrite sqrt_0; apply rnd_0].
  intros E. destruct H as [H|H]; [exact H | exfalso].
  assert (L : bpow radix2 (-75) <= sqrt c).
  { apply Rsqr_incr_0; [|apply bpow_ge_0 | apply sqrt_pos]. rewrite Rsqr_sqrt by exact P. unfold Rsqr. rewrite <- bpow_plus. cbv [Z.add Pos.add Pos.succ].
    apply (Rle_trans _ (bpow radix2 (-149))); [apply bpow_le; lia | exact H]. }
  apply rnd_le in L. rewrite rnd_bpow in L by lia. rewrite E in L. assert (Q := bpow_gt_0 radix2 (-75)). lra.
Qed.
(** [normalize] returns [None] for exactly the vectors all of whose components are at most
    [2^-75] in absolute value, not only for the zero vector. *)
Theorem C36_normalize_none_iff : forall v, vec3_normalize v = None <-> finite_vec v /\ all_at_most (bpow radix2 (-75)) v.
Proof.
  intros v. unfold vec3_normalize. cbv zeta. rewrite magnitude_def.
  assert (X : f_eqb (f_sqrt (sum_sq v)) f_zero = true <-> finite_vec v /\ all_at_most (bpow radix2 (-75)) v).
  2: { destruct (f_eqb _ _); [tauto|]. split; [discriminate|]. intros H. apply X in H. discriminate. }
  assert (FD : finite_vec v \/ ~ finite_vec v).
  { unfold finite_vec. destruct (is_finite (vx v)), (is_finite (vy v)), (is_finite (vz v)); intuition discriminate. }
  destruct FD as [Fi|NF].
  - destruct (sum_sq_value v Fi) as [N D]. destruct (sqrt_nn _ N) as [N2 [E1 E2]]. rewrite (f_eqb_zero _ N2), E1, E2. split.
    + intros [Fs Z]. split; [exact Fi|]. apply C_zero. destruct D as [[_ [_ E]]|[_ E]]; [|rewrite E in Fs; discriminate].
      rewrite E in Z. revert Z. apply rnd_sqrt_zero; [apply C_pos|].
      destruct (Req_dec (C v) 0) as [Z|NZ]; [left; exact Z | right]. apply rnd_least. fold (C v). assert (P := C_pos v). lra.
    + intros [_ H]. apply C_zero in H. destruct D as [[_ [Fs E]]|[L _]]; [|exfalso; assert (P := bpow_gt_0 radix2 128); lra].
      rewrite E, H, sqrt_0, rnd_0. split; [exact Fs | reflexivity].
  - split; [|intros [H _]; contradiction]. intros H. exfalso. apply NF.
    destruct (is_nan (vx v)) eqn:Nx; [rewrite <- magnitude_def, (proj1 (C36_magnitude_sign v)) in H; [discriminate | unfold has_nan; auto]|].
    destruct (is_nan (vy v)) eqn:Ny; [rewrite <- magnitude_def, (proj1 (C36_magnitude_sign v)) in H; [discriminate | unfold has_nan; auto]|].
    destruct (is_nan (vz v)) eqn:Nz; [rewrite <- magnitude_def, (proj1 (C36_magnitude_sign v)) in H; [discriminate | unfold has_nan; auto]|].
    assert (Ny2 := nn_mul_any _ Ny). assert (Nx2 := nn_fma_any _ _ Nx Ny2). assert (Nz2 := nn_fma_any _ _ Nz Nx2).
    destruct (sqrt_nn _ Nz2) as [N2 [_ E2]]. unfold sum_sq in H. apply (f_eqb_zero _ N2) in H. destruct H as [H _]. rewrite E2 in H.
    assert (K : forall x c, nn c -> is_finite (f_mul_add x x c) = true -> is_finite x = true /\ is_finite c = true).
    { intros x c Hc Hf. destruct x as [s|s| |s m e Hb], c as [s'|s'| |s' m' e' Hb']; cbn in *; try contradiction; try discriminate; auto;
        rewrite ?xorb_nilpotent in Hf; subst; discriminate. }
    destruct (K _ _ Nx2 H) as [Hz H2]. destruct (K _ _ Ny2 H2) as [Hx H3]. split; [exact Hx|]. split; [|exact Hz].
    destruct (vy v); cbn in *; try discriminate; reflexivity.
Qed.

(** Finite vectors with a component of [2^64] or more overflow: [normalize] returns a vector of
    zeros, of length 0 instead of 1. *)
Lemma div_inf x : is_finite x = true -> is_finite (f_div x (B754_infinity false)) = true /\ B2R (f_div x (B754_infinity false)) = 0.
Proof. destruct x; cbn; intros; try discriminate; auto. Qed.
Lemma big_square t : bpow radix2 64 <= Rabs t -> bpow radix2 128 <= t * t.
Proof.
  intros H. change 128%Z with (64 + 64)%Z. rewrite bpow_plus. assert (P := bpow_gt_0 radix2 64). set (b := bpow radix2 64) in *.
  replace (t * t) with (Rabs t * Rabs t) by (unfold Rabs; destruct (Rcase_abs t); ring). nra.
Qed.
Lemma rnd_ge_bpow t e : (-149 <= e)%Z -> bpow radix2 e <= t -> bpow radix2 e <= rnd t.
Proof. intros He H. rewrite <- (rnd_bpow e) by exact He. apply rnd_le, H. Qed.
Theorem C36_normalize_huge : forall v, finite_vec v -> some_at_least (bpow radix2 64) v ->
  exists w, vec3_normalize v = Some w /\ finite_vec w /\ rx w = 0 /\ ry w = 0 /\ rz w = 0.
Proof.
  intros v Fi H. assert (L : bpow radix2 128 <= C v).
  { assert (AB := AB v). assert (BC := BC v). assert (PA := A_pos v). assert (PB := B_pos v).
    destruct H as [H|[H|H]]; apply big_square in H.
    - apply (Rle_trans _ (B v)); [|exact BC]. apply rnd_ge_bpow; [lia|]. lra.
    - apply (Rle_trans _ (A v)); [|lra]. apply rnd_ge_bpow; [lia|]. lra.
    - apply rnd_ge_bpow; [lia|]. lra. }
  destruct (sum_sq_value v Fi) as [_ [[D _]|[_ E]]]; [lra|].
  assert (M : vec3_magnitude v = B754_infinity false) by (rewrite magnitude_def, E; reflexivity).
  destruct Fi as [Fx [Fy Fz]].
  unfold vec3_normalize. cbv zeta. rewrite M. eexists. split; [reflexivity|]. unfold finite_vec, rx, ry, rz. cbn [vx vy vz].
  destruct (div_inf _ Fx) as [? ?], (div_inf _ Fy) as [? ?], (div_inf _ Fz) as [? ?]. auto 10.
Qed.

(** ** Accuracy *)
Definition S (v : vec3) : R := rx v * rx v + ry v * ry v + rz v * rz v.
Lemma Rabs_sq t : t * t = Rabs t * Rabs t.
Proof. unfold Rabs; destruct (Rcase_abs t); ring. Qed.
Lemma S_pos v : 0 <= S v.
Proof. unfold S. assert (X := sq_pos (rx v)). assert (Y := sq_pos (ry v)). assert (Z := sq_pos (rz v)). lra. Qed.
Lemma sq_ge t b : 0 <= b -> b <= Rabs t -> b * b <= t * t.
Proof. intros P H. rewrite (Rabs_sq t). nra. Qed.
Lemma S_large v b : 0 <= b -> some_at_least b v -> b * b <= S v.
Proof.
  intros P H. unfold S. assert (X := sq_pos (rx v)). assert (Y := sq_pos (ry v)). assert (Z := sq_pos (rz v)).
  destruct H as [H|[H|H]]; apply (sq_ge _ _ P) in H; lra.
Qed.
Lemma sq_le t e : Rabs t <= bpow radix2 e -> t * t <= bpow radix2 (e + e).
Proof. intros H. rewrite bpow_plus, Rabs_sq. assert (P := Rabs_pos t). assert (Q := bpow_gt_0 radix2 e). nra. Qed.
Lemma C_bounds v : all_at_most (bpow radix2 62) v -> some_at_least (bpow radix2 (-50)) v ->
  bpow radix2 (-100) <= S v /\ Rabs (C v - S v) <= 4 * u * S v /\ C v <= bpow radix2 126.
Proof.
  intros [LX [LY LZ]] H. assert (SL := S_large v _ (bpow_ge_0 radix2 (-50)) H). rewrite <- bpow_plus in SL. change (-50 + -50)%Z with (-100)%Z in SL.
  split; [exact SL|].
  assert (X := sq_pos (rx v)). assert (Y := sq_pos (ry v)). assert (Z := sq_pos (rz v)).
  assert (PA := A_pos v). assert (PB := B_pos v).
  split.
  - assert (EA := rnd_err (ry v * ry v)). fold (A v) in EA.
    assert (EB := rnd_err (rx v * rx v + A v)). fold (B v) in EB.
    assert (EC := rnd_err (rz v * rz v + B v)). fold (C v) in EC.
    rewrite (Rabs_pos_eq (ry v * ry v)) in EA by exact Y. rewrite (Rabs_pos_eq (rx v * rx v + A v)) in EB by lra. rewrite (Rabs_pos_eq (rz v * rz v + B v)) in EC by lra.
    assert (Hh : h <= / 1125899906842624 * S v).
    { unfold h. change (-150)%Z with (-50 + -100)%Z. rewrite bpow_plus. change (bpow radix2 (-50)) with (/ 1125899906842624). lra. }
    apply Rabs_le_inv in EA, EB, EC. unfold u in *. unfold S in *. apply Rabs_le. lra.
  - apply sq_le in LX, LY, LZ. change (62 + 62)%Z with 124%Z in *.
    assert (HA : A v <= bpow radix2 124) by (rewrite <- (rnd_bpow 124) by lia; apply rnd_le, LY).
    assert (HB : B v <= bpow radix2 125).
    { rewrite <- (rnd_bpow 125) by lia. apply rnd_le. change 125%Z with (1 + 124)%Z. rewrite bpow_plus. change (bpow radix2 1) with 2. lra. }
    assert (HB2 : bpow radix2 125 = 2 * bpow radix2 124) by (change 125%Z with (1 + 124)%Z; rewrite bpow_plus; reflexivity).
    rewrite <- (rnd_bpow 126) by lia. apply rnd_le. change 126%Z with (2 + 124)%Z. rewrite bpow_plus. change (bpow radix2 2) with 4. assert (Q := bpow_gt_0 radix2 124). lra.
Qed.
Lemma sqrt_near c s e : 0 <= e <= 1 -> 0 <= s -> Rabs (c - s) <= e * s -> Rabs (sqrt c - sqrt s) <= e * sqrt s.
Proof.
  intros He Hs H. apply Rabs_le_inv in H. assert (Hc : 0 <= c) by nra.
  assert (Q := sqrt_pos s). apply Rabs_le. split.
  - assert ((1 - e) * sqrt s <= sqrt c); [|lra]. apply Rsqr_incr_0; [|nra | apply sqrt_pos]. rewrite Rsqr_sqrt by exact Hc.
    unfold Rsqr. replace ((1 - e) * sqrt s * ((1 - e) * sqrt s)) with ((1 - e) * (1 - e) * (sqrt s * sqrt s)) by ring. rewrite sqrt_sqrt by exact Hs. assert (0 <= e * (1 - e) * s) by (repeat apply Rmult_le_pos; lra). lra.
  - assert (sqrt c <= (1 + e) * sqrt s); [|lra]. apply Rsqr_incr_0; [|apply sqrt_pos | nra]. rewrite Rsqr_sqrt by exact Hc.
    unfold Rsqr. replace ((1 + e) * sqrt s * ((1 + e) * sqrt s)) with ((1 + e) * (1 + e) * (sqrt s * sqrt s)) by ring. rewrite sqrt_sqrt by exact Hs. assert (0 <= e * (1 + e) * s) by (repeat apply Rmult_le_pos; lra). lra.
Qed.
Lemma bpow_sqrt_ge e s : bpow radix2 (e + e) <= s -> bpow radix2 e <= sqrt s.
Proof.
  intros H. rewrite bpow_plus in H. assert (P := bpow_gt_0 radix2 e). rewrite <- (sqrt_Rsqr (bpow radix2 e)) by lra. apply sqrt_le_1_alt, H.
Qed.
(** The magnitude is the Euclidean length up to a relative error of [6 * 2^-24]. *)
Theorem C36_magnitude_accurate : forall v, finite_vec v -> all_at_most (bpow radix2 62) v -> some_at_least (bpow radix2 (-50)) v ->
  is_finite (vec3_magnitude v) = true /\ Rabs (B2R (vec3_magnitude v) - length v) <= 6 * / 2 ^ 24 * length v.
Proof.
  intros v Fi L H. destruct (C_bounds v L H) as [SL [EC CL]].
  destruct (sum_sq_value v Fi) as [N [[_ [Fs E]]|[D _]]].
  2: { exfalso. assert (bpow radix2 126 < bpow radix2 128) by (apply bpow_lt; lia). lra. }
  destruct (sqrt_nn _ N) as [_ [E1 E2]]. rewrite magnitude_def, E2, E1, E. split; [exact Fs|].
  change (length v) with (sqrt (S v)). replace (/ 2 ^ 24) with u by (unfold u; lra).
  assert (SN : Rabs (sqrt (C v) - sqrt (S v)) <= 4 * u * sqrt (S v)) by (apply sqrt_near; [unfold u; lra | apply S_pos | exact EC]).
  assert (SQ : bpow radix2 (-50) <= sqrt (S v)) by (apply bpow_sqrt_ge, SL). assert (P50 := bpow_gt_0 radix2 (-50)).
  assert (R0 : Rabs (rnd (sqrt (C v)) - sqrt (C v)) <= u * Rabs (sqrt (C v))).
  { apply rnd_rel. rewrite Rabs_pos_eq by apply sqrt_pos. apply Rabs_le_inv in SN.
    apply (Rle_trans _ (/ 2 * bpow radix2 (-50))); [|unfold u in SN; lra]. change (/ 2) with (bpow radix2 (-1)). rewrite <- bpow_plus. apply bpow_le. lia. }
  rewrite (Rabs_pos_eq (sqrt (C v))) in R0 by apply sqrt_pos.
  apply Rabs_le_inv in SN, R0. apply Rabs_le. unfold u in *. lra.
Qed.

Lemma div_step (c m : F) (s : R) : is_finite c = true -> 0 < s -> Rabs (B2R c) <= s -> Rabs (B2R m - s) <= 6 * u * s ->
  is_finite (f_div c m) = true /\ Rabs (B2R (f_div c m) - B2R c / s) <= 8 * u * Rabs (B2R c / s) + h /\ Rabs (B2R c / s) <= 1.
Proof.
  intros Fc Ps Hc Hm. apply Rabs_le_inv in Hm. set (D := B2R m) in *. assert (PD : (1 - 6 * u) * s <= D) by lra.
  assert (PD0 : 0 < D) by (unfold u in PD; lra).
  set (r := B2R c / s). set (k := s / D). assert (Q : B2R c / D = r * k) by (unfold r, k; field; lra).
  assert (K : Rabs (k - 1) <= 61 / 10 * u).
  { unfold k. replace (s / D - 1) with ((s - D) * / D) by (field; lra). rewrite Rabs_mult. rewrite (Rabs_pos_eq (/ D)) by (left; apply Rinv_0_lt_compat, PD0).
    apply (Rmult_le_reg_r D); [exact PD0|]. rewrite Rmult_assoc, Rinv_l, Rmult_1_r by lra. unfold u in *. apply Rabs_le. lra. }
  assert (R1 : Rabs r <= 1).
  { unfold r, Rdiv. rewrite Rabs_mult, (Rabs_pos_eq (/ s)) by (left; apply Rinv_0_lt_compat, Ps).
    apply (Rmult_le_reg_r s); [exact Ps|]. rewrite Rmult_assoc, Rinv_l by lra. lra. }
  assert (Qr : Rabs (r * k - r) <= 61 / 10 * u * Rabs r).
  { replace (r * k - r) with ((k - 1) * r) by ring. rewrite Rabs_mult. apply Rmult_le_compat_r; [apply Rabs_pos | exact K]. }
  assert (Qa : Rabs (r * k) <= (1 + 61 / 10 * u) * Rabs r).
  { replace (r * k) with ((r * k - r) + r) by ring. apply (Rle_trans _ _ _ (Rabs_triang _ _)). lra. }
  assert (Cd := Bdiv_correct f32_prec f32_emax _ _ mode_NE c m ltac:(fold D; lra)). fold D in Cd. rewrite Q in Cd.
  rewrite (no_overflow _ 1) in Cd; [|lia | change (bpow radix2 1) with 2; unfold u in Qa; lra].
  destruct Cd as [E1 [E2 _]]. fold f_div in E1, E2. rewrite E2. split; [exact Fc|]. split; [|exact R1].
  change (B2R (f_div c m) = rnd (r * k)) in E1. rewrite E1. assert (E := rnd_err (r * k)).
  replace (rnd (r * k) - r) with ((rnd (r * k) - r * k) + (r * k - r)) by ring. apply (Rle_trans _ _ _ (Rabs_triang _ _)).
  assert (PR := Rabs_pos r). unfold u in *. lra.
Qed.
Lemma h_small : h <= / 1000000000000.
Proof. unfold h. apply (Rle_trans _ (bpow radix2 (-40))); [apply bpow_le; lia|]. change (bpow radix2 (-40)) with (/ 1099511627776). lra. Qed.
Lemma sq_near w r : Rabs r <= 1 -> Rabs (w - r) <= 8 * u * Rabs r + h -> Rabs (w * w - r * r) <= 17 * u * (r * r) + 3 * h.
Proof.
  intros R1 H. replace (w * w - r * r) with ((w - r) * (w + r)) by ring. rewrite Rabs_mult.
  assert (W : Rabs (w + r) <= 2 * Rabs r + (8 * u * Rabs r + h)).
  { replace (w + r) with ((w - r) + (r + r)) by ring. apply (Rle_trans _ _ _ (Rabs_triang _ _)). assert (T := Rabs_triang r r). lra. }
  assert (P := Rabs_pos r). assert (P1 := Rabs_pos (w - r)). assert (P2 := Rabs_pos (w + r)). rewrite (Rabs_sq r).
  assert (Ph : 0 < h) by apply bpow_gt_0. assert (Hs := h_small). set (x := Rabs r) in *. clearbody x.
  apply (Rle_trans _ ((8 * u * x + h) * (2 * x + (8 * u * x + h)))).
  - apply Rmult_le_compat; assumption.
  - replace ((8 * u * x + h) * (2 * x + (8 * u * x + h))) with (8 * u * (2 + 8 * u) * (x * x) + h * (2 * x + 16 * u * x + h)) by ring.
    apply Rplus_le_compat.
    + apply Rmult_le_compat_r; [nra|]. unfold u. lra.
    + rewrite (Rmult_comm 3). apply Rmult_le_compat_l; [lra|]. unfold u. lra.
Qed.
(** For vectors of moderate size (largest component between [2^-50] and [2^62] in absolute
    value) [normalize] succeeds; every component is that of the exact unit vector up to a
    relative error of [2^-21], and the length of the result is 1 up to [2^-19]. *)
Theorem C36_normalize_accurate : forall v, finite_vec v -> all_at_most (bpow radix2 62) v -> some_at_least (bpow radix2 (-50)) v ->
  exists w, vec3_normalize v = Some w /\ finite_vec w /\
    Rabs (rx w - rx v / length v) <= / 2 ^ 21 * Rabs (rx v / length v) + bpow radix2 (-150) /\
    Rabs (ry w - ry v / length v) <= / 2 ^ 21 * Rabs (ry v / length v) + bpow radix2 (-150) /\
    Rabs (rz w - rz v / length v) <= / 2 ^ 21 * Rabs (rz v / length v) + bpow radix2 (-150) /\
    Rabs (length w - 1) <= / 2 ^ 19.
Proof.
  intros v Fi L H. destruct (C36_magnitude_accurate v Fi L H) as [Fm Em].
  destruct (C_bounds v L H) as [SL _]. assert (SQ : bpow radix2 (-50) <= length v) by (apply bpow_sqrt_ge, SL).
  assert (Ps : 0 < length v) by (assert (P50 := bpow_gt_0 radix2 (-50)); lra).
  replace (6 * / 2 ^ 24) with (6 * u) in Em by (unfold u; lra). replace (/ 2 ^ 21) with (8 * u) by (unfold u; lra). fold h.
  assert (NZ : f_eqb (vec3_magnitude v) f_zero = false).
  { unfold f_eqb. rewrite Beqb_correct by (try exact Fm; reflexivity). apply Req_bool_false. cbn [B2R f_zero]. apply Rabs_le_inv in Em. unfold u in Em. lra. }
  assert (Le : forall c, c * c <= S v -> Rabs c <= length v).
  { intros c Hc. change (length v) with (sqrt (S v)). rewrite <- sqrt_Rsqr_abs. apply sqrt_le_1_alt. exact Hc. }
  assert (X := sq_pos (rx v)). assert (Y := sq_pos (ry v)). assert (Z := sq_pos (rz v)).
  destruct Fi as [Fx [Fy Fz]].
  destruct (div_step (vx v) _ _ Fx Ps (Le (rx v) ltac:(unfold S; lra)) Em) as [Gx [Ex Rx]].
  destruct (div_step (vy v) _ _ Fy Ps (Le (ry v) ltac:(unfold S; lra)) Em) as [Gy [Ey Ry]].
  destruct (div_step (vz v) _ _ Fz Ps (Le (rz v) ltac:(unfold S; lra)) Em) as [Gz [Ez Rz]].
  unfold vec3_normalize. cbv zeta. rewrite NZ. eexists. split; [reflexivity|].
  split; [split; [exact Gx | split; [exact Gy | exact Gz]]|].
  split; [exact Ex|]. split; [exact Ey|]. split; [exact Ez|].
  assert (Qx := sq_near _ _ Rx Ex). assert (Qy := sq_near _ _ Ry Ey). assert (Qz := sq_near _ _ Rz Ez).
  assert (One : B2R (vx v) / length v * (B2R (vx v) / length v) + B2R (vy v) / length v * (B2R (vy v) / length v) + B2R (vz v) / length v * (B2R (vz v) / length v) = 1).
  { replace (B2R (vx v) / length v * (B2R (vx v) / length v) + B2R (vy v) / length v * (B2R (vy v) / length v) + B2R (vz v) / length v * (B2R (vz v) / length v))
      with (S v / (length v * length v)) by (unfold S, rx, ry, rz; field; lra).
    replace (length v * length v) with (S v) by (symmetry; apply sqrt_sqrt, S_pos). apply Rinv_r. assert (P := bpow_gt_0 radix2 (-100)). lra. }
  assert (Hs := h_small).
  change (length (mk_vec3 (f_div (vx v) (vec3_magnitude v)) (f_div (vy v) (vec3_magnitude v)) (f_div (vz v) (vec3_magnitude v)))) with
    (sqrt (S (mk_vec3 (f_div (vx v) (vec3_magnitude v)) (f_div (vy v) (vec3_magnitude v)) (f_div (vz v) (vec3_magnitude v))))).
  rewrite <- sqrt_1 at 1. replace (/ 2 ^ 19) with (/ 2 ^ 19 * sqrt 1) by (rewrite sqrt_1; ring).
  apply sqrt_near; [lra | lra |]. unfold S, rx, ry, rz. cbn [vx vy vz].
  apply Rabs_le_inv in Qx, Qy, Qz. apply Rabs_le. unfold u in *. lra.
Qed.

(** ** Dot and cross product *)
Lemma mul_real x y : is_finite x = true -> is_finite y = true -> Rabs (B2R x * B2R y) <= bpow radix2 127 ->
  is_finite (f_mul x y) = true /\ B2R (f_mul x y) = rnd (B2R x * B2R y).
Proof.
  intros Fx Fy H. assert (Cm := Bmult_correct f32_prec f32_emax _ _ mode_NE x y). rewrite (no_overflow _ 127) in Cm by (try lia; exact H).
  destruct Cm as [E1 [E2 _]]. rewrite Fx, Fy in E2. split; [exact E2 | exact E1].
Qed.
Lemma fma_real x y c : is_finite x = true -> is_finite y = true -> is_finite c = true -> Rabs (B2R x * B2R y + B2R c) <= bpow radix2 127 ->
  is_finite (f_mul_add x y c) = true /\ B2R (f_mul_add x y c) = rnd (B2R x * B2R y + B2R c).
Proof.
  intros Fx Fy Fc H. assert (Cm := Bfma_correct f32_prec f32_emax _ _ mode_NE x y c Fx Fy Fc). cbv zeta in Cm. rewrite (no_overflow _ 127) in Cm by (try lia; exact H).
  destruct Cm as [E1 [E2 _]]. split; [exact E2 | exact E1].
Qed.
Lemma neg_real x : is_finite (f_neg x) = is_finite x /\ B2R (f_neg x) = - B2R x.
Proof. split; [apply is_finite_Bopp | apply B2R_Bopp]. Qed.
Lemma prod_le a b e : Rabs a <= bpow radix2 e -> Rabs b <= bpow radix2 e -> Rabs (a * b) <= bpow radix2 (e + e).
Proof. intros Ha Hb. rewrite Rabs_mult, bpow_plus. apply Rmult_le_compat; try assumption; apply Rabs_pos. Qed.
Lemma bpow_S e : bpow radix2 (1 + e) = 2 * bpow radix2 e.
Proof. rewrite bpow_plus. reflexivity. Qed.
Lemma dot_real v w e : (-70 <= e <= 60)%Z -> finite_vec v -> finite_vec w -> all_at_most (bpow radix2 e) v -> all_at_most (bpow radix2 e) w ->
  is_finite (vec3_dot v w) = true /\ B2R (vec3_dot v w) = rnd (rz v * rz w + rnd (rx v * rx w + rnd (ry v * ry w))).
Proof.
  intros He [Fx [Fy Fz]] [Gx [Gy Gz]] [Lx [Ly Lz]] [Mx [My Mz]]. unfold vec3_dot.
  assert (Px := prod_le _ _ _ Lx Mx). assert (Py := prod_le _ _ _ Ly My). assert (Pz := prod_le _ _ _ Lz Mz).
  assert (HY := rnd_abs_le (ry v * ry w) (e + e) ltac:(lia) Py).
  assert (T1 := Rabs_triang (rx v * rx w) (rnd (ry v * ry w))).
  assert (HX := rnd_abs_le (rx v * rx w + rnd (ry v * ry w)) (1 + (e + e)) ltac:(lia) ltac:(rewrite bpow_S; lra)). rewrite bpow_S in HX.
  assert (T2 := Rabs_triang (rz v * rz w) (rnd (rx v * rx w + rnd (ry v * ry w)))).
  assert (Big : 4 * bpow radix2 (e + e) <= bpow radix2 127).
  { change 4 with (bpow radix2 2). rewrite <- bpow_plus. apply bpow_le. lia. }
  assert (P0 := bpow_gt_0 radix2 (e + e)).
  destruct (mul_real (vy v) (vy w) Fy Gy ltac:(fold (ry v) (ry w); lra)) as [F1 E1].
  destruct (fma_real (vx v) (vx w) _ Fx Gx F1 ltac:(rewrite E1; fold (rx v) (rx w) (ry v) (ry w); lra)) as [F2 E2]. rewrite E1 in E2.
  destruct (fma_real (vz v) (vz w) _ Fz Gz F2 ltac:(rewrite E2; fold (rx v) (rx w) (ry v) (ry w) (rz v) (rz w); lra)) as [F3 E3]. rewrite E2 in E3.
  split; [exact F3 | exact E3].
Qed.
(** One component of the cross product, [a*b - c*d]. *)
Lemma cross_component a b c d e : (-70 <= e <= 60)%Z -> is_finite a = true -> is_finite b = true -> is_finite c = true -> is_finite d = true ->
  Rabs (B2R a) <= bpow radix2 e -> Rabs (B2R b) <= bpow radix2 e -> Rabs (B2R c) <= bpow radix2 e -> Rabs (B2R d) <= bpow radix2 e ->
  is_finite (f_mul_add a b (f_neg (f_mul c d))) = true /\
  B2R (f_mul_add a b (f_neg (f_mul c d))) = rnd (B2R a * B2R b - rnd (B2R c * B2R d)).
Proof.
  intros He Fa Fb Fc Fd La Lb Lc Ld. assert (P1 := prod_le _ _ _ La Lb). assert (P2 := prod_le _ _ _ Lc Ld).
  assert (H2 := rnd_abs_le (B2R c * B2R d) (e + e) ltac:(lia) P2).
  assert (T := Rabs_triang (B2R a * B2R b) (- rnd (B2R c * B2R d))). rewrite Rabs_Ropp in T.
  assert (Big : 4 * bpow radix2 (e + e) <= bpow radix2 127).
  { change 4 with (bpow radix2 2). rewrite <- bpow_plus. apply bpow_le. lia. }
  assert (P0 := bpow_gt_0 radix2 (e + e)).
  destruct (mul_real c d Fc Fd ltac:(lra)) as [F1 E1]. destruct (neg_real (f_mul c d)) as [F2 E2]. rewrite F1 in F2. rewrite E1 in E2.
  destruct (fma_real a b _ Fa Fb F2 ltac:(rewrite E2; lra)) as [F3 E3]. rewrite E2 in E3. split; [exact F3 | exact E3].
Qed.
Definition abs_sum (a b c : R) : R := Rabs a + Rabs b + Rabs c.
(** Without overflow the dot product is exact up to [2^-22] of the sum of the absolute
    products, the cross product up to [2^-22] of the two absolute products of the component. *)
Theorem C36_dot_accurate : forall v w, finite_vec v -> finite_vec w -> all_at_most (bpow radix2 60) v -> all_at_most (bpow radix2 60) w ->
  is_finite (vec3_dot v w) = true /\
  Rabs (B2R (vec3_dot v w) - (rx v * rx w + ry v * ry w + rz v * rz w)) <=
    / 2 ^ 22 * abs_sum (rx v * rx w) (ry v * ry w) (rz v * rz w) + bpow radix2 (-148).
Proof.
  intros v w Fv Fw Lv Lw. destruct (dot_real v w 60 ltac:(lia) Fv Fw Lv Lw) as [Fd E]. split; [exact Fd|]. rewrite E. unfold abs_sum.
  set (p := rx v * rx w). set (q := ry v * ry w). set (r := rz v * rz w).
  assert (E1 := rnd_err q). assert (E2 := rnd_err (p + rnd q)). assert (E3 := rnd_err (r + rnd (p + rnd q))).
  assert (T2 := Rabs_triang p (rnd q)). assert (T3 := Rabs_triang r (rnd (p + rnd q))).
  assert (T1 : Rabs (rnd q) <= Rabs (rnd q - q) + Rabs q) by (replace (rnd q) with ((rnd q - q) + q) at 1 by ring; apply Rabs_triang).
  assert (T4 : Rabs (rnd (p + rnd q)) <= Rabs (rnd (p + rnd q) - (p + rnd q)) + Rabs (p + rnd q)) by (replace (rnd (p + rnd q)) with ((rnd (p + rnd q) - (p + rnd q)) + (p + rnd q)) at 1 by ring; apply Rabs_triang).
  assert (T5 : Rabs (rnd (r + rnd (p + rnd q)) - (p + q + r)) <= Rabs (rnd (r + rnd (p + rnd q)) - (r + rnd (p + rnd q))) + (Rabs (rnd (p + rnd q) - (p + rnd q)) + Rabs (rnd q - q))).
  { replace (rnd (r + rnd (p + rnd q)) - (p + q + r)) with ((rnd (r + rnd (p + rnd q)) - (r + rnd (p + rnd q))) + ((rnd (p + rnd q) - (p + rnd q)) + (rnd q - q))) by ring.
    apply (Rle_trans _ _ _ (Rabs_triang _ _)). apply Rplus_le_compat_l, Rabs_triang. }
  assert (Hh : bpow radix2 (-148) = 4 * h) by (unfold h; change (-148)%Z with (2 + -150)%Z; rewrite bpow_plus; reflexivity). rewrite Hh.
  assert (Ph : 0 < h) by apply bpow_gt_0. assert (Pp := Rabs_pos p). assert (Pq := Rabs_pos q). assert (Pr := Rabs_pos r).
  unfold u in *. lra.
Qed.
Lemma cross_err a b : Rabs (rnd (a - rnd b) - (a - b)) <= / 2 ^ 22 * (Rabs a + Rabs b) + bpow radix2 (-148).
Proof.
  assert (E1 := rnd_err b). assert (E2 := rnd_err (a - rnd b)).
  assert (T1 : Rabs (rnd b) <= Rabs (rnd b - b) + Rabs b) by (replace (rnd b) with ((rnd b - b) + b) at 1 by ring; apply Rabs_triang).
  assert (T2 := Rabs_triang a (- rnd b)). rewrite Rabs_Ropp in T2. change (a + - rnd b) with (a - rnd b) in T2.
  assert (T3 : Rabs (rnd (a - rnd b) - (a - b)) <= Rabs (rnd (a - rnd b) - (a - rnd b)) + Rabs (rnd b - b)).
  { replace (rnd (a - rnd b) - (a - b)) with ((rnd (a - rnd b) - (a - rnd b)) + - (rnd b - b)) by ring. rewrite <- (Rabs_Ropp (rnd b - b)). apply Rabs_triang. }
  assert (Hh : bpow radix2 (-148) = 4 * h) by (unfold h; change (-148)%Z with (2 + -150)%Z; rewrite bpow_plus; reflexivity). rewrite Hh.
  assert (Ph : 0 < h) by apply bpow_gt_0. assert (Pa := Rabs_pos a). assert (Pb := Rabs_pos b). unfold u in *. lra.
Qed.
Lemma cross_real v w e : (-70 <= e <= 60)%Z -> finite_vec v -> finite_vec w -> all_at_most (bpow radix2 e) v -> all_at_most (bpow radix2 e) w ->
  finite_vec (vec3_cross v w) /\
  rx (vec3_cross v w) = rnd (ry v * rz w - rnd (rz v * ry w)) /\
  ry (vec3_cross v w) = rnd (rz v * rx w - rnd (rx v * rz w)) /\
  rz (vec3_cross v w) = rnd (rx v * ry w - rnd (ry v * rx w)).
Proof.
  intros He [Fx [Fy Fz]] [Gx [Gy Gz]] [Lx [Ly Lz]] [Mx [My Mz]].
  destruct (cross_component (vy v) (vz w) (vz v) (vy w) e He Fy Gz Fz Gy Ly Mz Lz My) as [F1 E1].
  destruct (cross_component (vz v) (vx w) (vx v) (vz w) e He Fz Gx Fx Gz Lz Mx Lx Mz) as [F2 E2].
  destruct (cross_component (vx v) (vy w) (vy v) (vx w) e He Fx Gy Fy Gx Lx My Ly Mx) as [F3 E3].
  split; [split; [exact F1 | split; [exact F2 | exact F3]]|]. split; [exact E1|]. split; [exact E2 | exact E3].
Qed.
Theorem C36_cross_accurate : forall v w, finite_vec v -> finite_vec w -> all_at_most (bpow radix2 60) v -> all_at_most (bpow radix2 60) w ->
  let c := vec3_cross v w in finite_vec c /\
  Rabs (rx c - (ry v * rz w - rz v * ry w)) <= / 2 ^ 22 * (Rabs (ry v * rz w) + Rabs (rz v * ry w)) + bpow radix2 (-148) /\
  Rabs (ry c - (rz v * rx w - rx v * rz w)) <= / 2 ^ 22 * (Rabs (rz v * rx w) + Rabs (rx v * rz w)) + bpow radix2 (-148) /\
  Rabs (rz c - (rx v * ry w - ry v * rx w)) <= / 2 ^ 22 * (Rabs (rx v * ry w) + Rabs (ry v * rx w)) + bpow radix2 (-148).
Proof.
  intros v w Fv Fw Lv Lw c. destruct (cross_real v w 60 ltac:(lia) Fv Fw Lv Lw) as [Fc [E1 [E2 E3]]]. unfold c.
  split; [exact Fc|]. rewrite E1, E2, E3. split; [apply cross_err|]. split; apply cross_err.
Qed.

(** ** Small integers *)
Definition int_vec (x y z : Z) (v : vec3) : Prop :=
  finite_vec v /\ rx v = IZR x /\ ry v = IZR y /\ rz v = IZR z /\ (Z.abs x <= 2048 /\ Z.abs y <= 2048 /\ Z.abs z <= 2048)%Z.
Lemma rnd_int n : (Z.abs n <= 2 ^ 24)%Z -> rnd (IZR n) = IZR n.
Proof.
  intros H. apply round_generic; [auto with typeclass_instances|].
  apply (generic_format_FLT radix2 (3 - f32_emax - f32_prec) f32_prec). 
  destruct (Z.eq_dec (Z.abs n) (2 ^ 24)) as [E|N].
  - apply (FLT_spec _ _ _ _ (Float radix2 (Z.sgn n) 24)); [|cbn; lia | cbn; lia].
    unfold F2R. cbn [Fnum Fexp]. change (bpow radix2 24) with (IZR (2 ^ 24)). rewrite <- mult_IZR. f_equal. lia.
  - apply (FLT_spec _ _ _ _ (Float radix2 n 0)); [unfold F2R; cbn; lra | cbn; lia | cbn; lia].
Qed.
Lemma int_bound n v : IZR n = v -> (Z.abs n <= 2048)%Z -> Rabs v <= bpow radix2 11.
Proof. intros <- H. rewrite <- abs_IZR. change (bpow radix2 11) with (IZR 2048). apply IZR_le, H. Qed.
(** On vectors of integers up to 2048 in absolute value both products are exact. *)
Theorem C36_exact_on_integers : forall a b c v d e f w, int_vec a b c v -> int_vec d e f w ->
  B2R (vec3_dot v w) = IZR (a * d + b * e + c * f) /\
  rx (vec3_cross v w) = IZR (b * f - c * e) /\ ry (vec3_cross v w) = IZR (c * d - a * f) /\ rz (vec3_cross v w) = IZR (a * e - b * d).
Proof.
  intros a b c v d e f w [Fv [Vx [Vy [Vz [La [Lb Lc]]]]]] [Fw [Wx [Wy [Wz [Ld [Le Lf]]]]]].
  assert (Av : all_at_most (bpow radix2 11) v) by (repeat split; eapply int_bound; eauto).
  assert (Aw : all_at_most (bpow radix2 11) w) by (repeat split; eapply int_bound; eauto).
  assert (M : forall p q, (Z.abs p <= 2048 -> Z.abs q <= 2048 -> Z.abs (p * q) <= 4194304)%Z) by (intros; rewrite Z.abs_mul; nia).
  destruct (dot_real v w 11 ltac:(lia) Fv Fw Av Aw) as [_ E]. destruct (cross_real v w 11 ltac:(lia) Fv Fw Av Aw) as [_ [E1 [E2 E3]]].
  rewrite E, E1, E2, E3, Vx, Vy, Vz, Wx, Wy, Wz, <- !mult_IZR.
  assert (Mad := M a d La Ld). assert (Mae := M a e La Le). assert (Maf := M a f La Lf).
  assert (Mbd := M b d Lb Ld). assert (Mbe := M b e Lb Le). assert (Mbf := M b f Lb Lf).
  assert (Mcd := M c d Lc Ld). assert (Mce := M c e Lc Le). assert (Mcf := M c f Lc Lf).
  clear La Lb Lc Ld Le Lf M. apply Z.abs_le in Mad, Mae, Maf, Mbd, Mbe, Mbf, Mcd, Mce, Mcf.
  assert (RI : forall n, (-16777216 <= n <= 16777216)%Z -> rnd (IZR n) = IZR n) by (intros n Hn; apply rnd_int; change (2 ^ 24)%Z with 16777216%Z; lia).
  rewrite (RI (b * e)%Z), (RI (c * e)%Z), (RI (a * f)%Z), (RI (b * d)%Z) by lia.
  rewrite <- !minus_IZR, <- !plus_IZR.
  rewrite (RI (a * d + b * e)%Z) by lia. rewrite <- plus_IZR.
  rewrite !RI by lia. split; [f_equal; ring | auto].
Qed.

(** ** What does not hold *)
Definition of_bits (x y z : N) : vec3 := mk_vec3 (f_of_bits (as_u32 x)) (f_of_bits (as_u32 y)) (f_of_bits (as_u32 z)).
(** [v x v] is not always zero: the fused multiply-add leaves the rounding error of one
    product. Here [v = (1.1, 1.1, 1.1)]. *)
Theorem C36_cross_self_refuted : exists v, finite_vec v /\ vec3_eqb (vec3_cross v v) vec3_zero = false.
Proof. exists (of_bits 0x3f8ccccd 0x3f8ccccd 0x3f8ccccd). split; [repeat split; vm_compute; reflexivity|]. vm_compute. reflexivity. Qed.
(** Nor is the cross product anticommutative. *)
Theorem C36_cross_anticommutative_refuted : exists v w, finite_vec v /\ finite_vec w /\
  vec3_eqb (vec3_cross v w) (vec3_sub vec3_zero (vec3_cross w v)) = false.
Proof.
  exists (of_bits 0x3f8ccccd 0x3f8ccccd 0x3f8ccccd), (of_bits 0x3f8ccccd 0x3f8ccccd 0x3f8ccccd).
  split; [repeat split; vm_compute; reflexivity|]. split; [repeat split; vm_compute; reflexivity|]. vm_compute. reflexivity.
Qed.
(** Addition is not associative. *)
Theorem C36_add_associative_refuted : exists a b c, finite_vec a /\ finite_vec b /\ finite_vec c /\
  vec3_eqb (vec3_add a (vec3_add b c)) (vec3_add (vec3_add a b) c) = false.
Proof.
  exists (of_bits 0x3f800000 0 0), (of_bits 0x4b800000 0 0), (of_bits 0xcb800000 0 0).
  split; [repeat split; vm_compute; reflexivity|]. split; [repeat split; vm_compute; reflexivity|]. split; [repeat split; vm_compute; reflexivity|]. vm_compute. reflexivity.
Qed.

(** The unit vectors form a right-handed frame, and (1,2,3) of the repository's test meets the
    hypotheses above. *)
Example C36_frame : vec3_eqb (vec3_cross vec3_unit_x vec3_unit_y) vec3_unit_z = true /\
  vec3_eqb (vec3_cross vec3_unit_y vec3_unit_z) vec3_unit_x = true /\ vec3_eqb (vec3_cross vec3_unit_z vec3_unit_x) vec3_unit_y = true.
Proof. repeat split; vm_compute; reflexivity. Qed.
Definition v123 : vec3 := mk_vec3 (f_of_Z 1) (f_of_Z 2) (f_of_Z 3).
Example C36_example : int_vec 1 2 3 v123 /\ all_at_most (bpow radix2 60) v123 /\ some_at_least (bpow radix2 (-50)) v123.
Proof.
  destruct (f_of_Z_correct 1 ltac:(lia)) as [E1 [F1 _]]. destruct (f_of_Z_correct 2 ltac:(lia)) as [E2 [F2 _]]. destruct (f_of_Z_correct 3 ltac:(lia)) as [E3 [F3 _]].
  rewrite rnd_int in E1, E2, E3 by lia.
  assert (B60 : 3 <= bpow radix2 60) by (apply (Rle_trans _ (bpow radix2 2)); [change (bpow radix2 2) with 4; lra | apply bpow_le; lia]).
  assert (B50 : bpow radix2 (-50) <= 1) by (change 1 with (bpow radix2 0); apply bpow_le; lia).
  split; [|split].
  - split; [split; [exact F1 | split; [exact F2 | exact F3]]|]. split; [exact E1|]. split; [exact E2|]. split; [exact E3|]. lia.
  - unfold all_at_most, rx, ry, rz. cbn [vx vy vz v123]. rewrite E1, E2, E3, !Rabs_pos_eq by lra. lra.
  - left. unfold rx. cbn [vx v123]. rewrite E1, Rabs_pos_eq by lra. exact B50.
Qed.

(** What the theorems above rest on (one traversal for all of them; not part of the model). *)
Definition Prop_Vector_theorems : True :=
  let _ := @C36_commutative in
  let _ := @C36_zero_identity in
  let _ := @C36_magnitude_sign in
  let _ := @C36_normalize_none_iff in
  let _ := @C36_normalize_huge in
  let _ := @C36_magnitude_accurate in
  let _ := @C36_normalize_accurate in
  let _ := @C36_dot_accurate in
  let _ := @C36_cross_accurate in
  let _ := @C36_exact_on_integers in
  let _ := @C36_cross_self_refuted in
  let _ := @C36_cross_anticommutative_refuted in
  let _ := @C36_add_associative_refuted in
  I.
Print Assumptions Prop_Vector_theorems.
