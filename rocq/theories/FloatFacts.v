(** * Facts about single-precision rounding (proof support for C34 and C36). *)
From Coq Require Import ZArith Reals Lra Lia.
From Flocq Require Import Core.Core IEEE754.BinarySingleNaN.
From Verif Require Import Base Floats.
Local Open Scope R_scope.

Notation fe := (SpecFloat.fexp f32_prec f32_emax).
Global Instance fe_valid : Valid_exp fe := FLT_exp_valid (3 - f32_emax - f32_prec) f32_prec.
Definition rnd (x : R) : R := round radix2 fe ZnearestE x.

Lemma rnd_le x y : x <= y -> rnd x <= rnd y.
Proof. apply round_le; auto with typeclass_instances. Qed.
Lemma rnd_bpow e : (-149 <= e)%Z -> rnd (bpow radix2 e) = bpow radix2 e.
Proof.
  intros H. apply round_generic; [auto with typeclass_instances|]. apply generic_format_bpow. unfold SpecFloat.fexp, SpecFloat.emin, f32_emax, f32_prec. lia.
Qed.
Lemma rnd_0 : rnd 0 = 0.
Proof. apply round_0; auto with typeclass_instances. Qed.
Lemma rnd_opp x : rnd (- x) = - rnd x.
Proof. apply round_NE_opp. Qed.
Lemma rnd_abs_le x e : (-149 <= e)%Z -> Rabs x <= bpow radix2 e -> Rabs (rnd x) <= bpow radix2 e.
Proof. intros H1 H2. apply abs_round_le_generic; auto with typeclass_instances. apply generic_format_bpow. unfold SpecFloat.fexp, SpecFloat.emin, f32_emax, f32_prec. lia. Qed.
Lemma no_overflow x e : (-149 <= e < 128)%Z -> Rabs x <= bpow radix2 e ->
  Rlt_bool (Rabs (round radix2 fe (round_mode mode_NE) x)) (bpow radix2 f32_emax) = true.
Proof.
  intros H1 H2. apply Rlt_bool_true. apply (Rle_lt_trans _ (bpow radix2 e)); [apply (rnd_abs_le x e); [lia | exact H2]|].
  apply bpow_lt. unfold f32_emax. lia.
Qed.
(** Half an ulp below [2^e]. *)
Lemma rnd_error x e : (-125 <= e)%Z -> Rabs x <= bpow radix2 e -> Rabs (rnd x - x) <= bpow radix2 (e - 25).
Proof.
  intros H1 H2. assert (P := bpow_gt_0 radix2 (e - 25)).
  destruct (Req_dec x 0) as [->|N]; [rewrite rnd_0; rewrite Rminus_0_r, Rabs_R0; lra|].
  destruct (Req_dec (Rabs x) (bpow radix2 e)) as [E|NE].
  { unfold rnd. rewrite round_generic; [rewrite Rminus_diag_eq, Rabs_R0 by reflexivity; lra | auto with typeclass_instances |].
    apply generic_format_abs_inv. rewrite E. apply generic_format_bpow. unfold SpecFloat.fexp, SpecFloat.emin, f32_emax, f32_prec. lia. }
  assert (M : (mag radix2 x <= e)%Z) by (apply mag_le_bpow; [exact N | lra]).
  apply (Rle_trans _ (/ 2 * ulp radix2 fe x)); [apply error_le_half_ulp; auto with typeclass_instances|].
  rewrite ulp_neq_0 by exact N. unfold cexp.
  apply (Rle_trans _ (/ 2 * bpow radix2 (e - 24))).
  - apply Rmult_le_compat_l; [lra|]. apply bpow_le. unfold SpecFloat.fexp, SpecFloat.emin, f32_emax, f32_prec. lia.
  - replace (e - 24)%Z with (1 + (e - 25))%Z by lia. rewrite bpow_plus. change (bpow radix2 1) with 2. lra.
Qed.
Lemma rnd_error_le x y e : (-125 <= e)%Z -> Rabs x <= bpow radix2 e -> bpow radix2 (e - 25) <= y -> Rabs (rnd x - x) <= y.
Proof. intros H1 H2 H3. apply (Rle_trans _ (bpow radix2 (e - 25))); [apply rnd_error; assumption | exact H3]. Qed.

Lemma f_of_Z_correct n : (0 <= n <= 2 ^ 33)%Z -> B2R (f_of_Z n) = rnd (IZR n) /\ is_finite (f_of_Z n) = true /\ Bsign (f_of_Z n) = false.
Proof.
  intros H. assert (C := binary_normalize_correct f32_prec f32_emax _ _ mode_NE n 0 false). cbv zeta in C.
  replace (F2R (Float radix2 n 0)) with (IZR n) in C by (unfold F2R; cbn; lra).
  rewrite (no_overflow (IZR n) 33) in C; [|lia|].
  - destruct C as [C1 [C2 C3]]. split; [exact C1|]. split; [exact C2|]. refine (eq_trans C3 _).
    destruct (Rcompare_spec (IZR n) 0) as [L|E|G]; try reflexivity. apply lt_IZR in L. lia.
  - rewrite Rabs_pos_eq by (apply IZR_le; lia). change (bpow radix2 33) with (IZR (2 ^ 33)). apply IZR_le. lia.
Qed.
Lemma f_1_68_val : B2R f_1_68 = 14092861 / 8388608 /\ is_finite f_1_68 = true /\ Bsign f_1_68 = false.
Proof.
  assert (E : B2SF f_1_68 = SpecFloat.S754_finite false 14092861 (-23)) by (vm_compute; reflexivity).
  split; [|split; [rewrite <- is_finite_SF_B2SF, E; reflexivity | revert E; destruct f_1_68 as [| | |s m e H]; cbn [B2SF Bsign]; intros [=]; subst; reflexivity]].
  rewrite <- SF2R_B2SF, E.
  cbn [SF2R]. unfold F2R. cbn [Fnum Fexp cond_Zopp bpow]. unfold Rdiv. f_equal.
Qed.
