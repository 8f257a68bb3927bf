(** * Facts about IEEE equality of bit patterns (proofs only). *)
From Coq Require Import ZArith Lia.
From Flocq Require Import IEEE754.Binary IEEE754.Bits.
From Flocq Require IEEE754.BinarySingleNaN.
From Verif Require Import Base.

Definition zero_ff (f : full_float) : Prop := match f with F754_zero _ => True | _ => False end.
Definition nan_ff (f : full_float) : Prop := match f with F754_nan _ _ => True | _ => False end.

Lemma eqb_floats prec emax (x y : binary_float prec emax) :
  BinarySingleNaN.Beqb (B2BSN prec emax x) (B2BSN prec emax y) = true <->
  ~ nan_ff (B2FF _ _ x) /\ ~ nan_ff (B2FF _ _ y) /\ (x = y \/ (zero_ff (B2FF _ _ x) /\ zero_ff (B2FF _ _ y))).
Proof.
  unfold BinarySingleNaN.Beqb. rewrite !B2SF_B2BSN. unfold SpecFloat.SFeqb, SpecFloat.SFcompare.
  destruct x as [s|s|s p H|s m e H], y as [s'|s'|s' p' H'|s' m' e' H']; cbn [B2SF B2FF nan_ff zero_ff];
    try solve [repeat match goal with b : bool |- _ => destruct b end;
      (split; [intros A; first [discriminate A | split; [tauto|]; split; [tauto | first [left; reflexivity | right; tauto]]]
              | intros [A [B [C|[C D]]]]; first [reflexivity | discriminate C | tauto]])].
  split.
  - intros A. split; [tauto|]. split; [tauto|]. left. apply B2FF_inj. cbn [B2FF].
    destruct s, s'; try discriminate A; destruct (Z.compare_spec e e') as [->|?|?]; try discriminate A;
      change (Pos.compare_cont Eq m m') with (Pos.compare m m') in A;
      destruct (Pos.compare_spec m m') as [->|?|?]; cbn in A; try discriminate A; reflexivity.
  - intros [_ [_ [A|[[] _]]]]. injection A as -> -> ->. rewrite Z.compare_refl.
    change (Pos.compare_cont Eq m' m') with (Pos.compare m' m'). rewrite Pos.compare_refl. destruct s'; reflexivity.
Qed.


Lemma eqb_bits mw ew Hmw Hew Hmax x y : (0 <= x < 2 ^ (mw + ew + 1))%Z -> (0 <= y < 2 ^ (mw + ew + 1))%Z ->
  BinarySingleNaN.Beqb (B2BSN _ _ (binary_float_of_bits mw ew Hmw Hew Hmax x)) (B2BSN _ _ (binary_float_of_bits mw ew Hmw Hew Hmax y)) = true <->
  ~ nan_ff (binary_float_of_bits_aux mw ew x) /\ ~ nan_ff (binary_float_of_bits_aux mw ew y) /\
  (x = y \/ (zero_ff (binary_float_of_bits_aux mw ew x) /\ zero_ff (binary_float_of_bits_aux mw ew y))).
Proof.
  intros X Y. rewrite eqb_floats. unfold binary_float_of_bits at 1 2 5 6. rewrite !B2FF_FF2B.
  enough (E : binary_float_of_bits mw ew Hmw Hew Hmax x = binary_float_of_bits mw ew Hmw Hew Hmax y <-> x = y) by tauto.
  split; [|now intros ->]. intros E.
  rewrite <- (bits_of_binary_float_of_bits mw ew Hmw Hew Hmax x X), <- (bits_of_binary_float_of_bits mw ew Hmw Hew Hmax y Y).
  now rewrite E.
Qed.
Lemma aux_class mw ew x : (0 < mw)%Z -> (0 < ew)%Z -> let mx := (x mod 2 ^ mw)%Z in let ex := ((x / 2 ^ mw) mod 2 ^ ew)%Z in
  (nan_ff (binary_float_of_bits_aux mw ew x) <-> ex = (2 ^ ew - 1)%Z /\ mx <> 0%Z) /\
  (zero_ff (binary_float_of_bits_aux mw ew x) <-> ex = 0%Z /\ mx = 0%Z).
Proof.
  intros Hm He mx ex. unfold binary_float_of_bits_aux, split_bits. fold mx ex.
  assert (M : (0 <= mx)%Z) by (apply Z.mod_pos_bound; apply Z.pow_pos_nonneg; lia).
  assert (P : (0 < 2 ^ mw)%Z) by (apply Z.pow_pos_nonneg; lia).
  assert (Q : (2 ^ 1 <= 2 ^ ew)%Z) by (apply Z.pow_le_mono_r; lia). change (2 ^ 1)%Z with 2%Z in Q.
  assert (E : (0 <= ex < 2 ^ ew)%Z) by (apply Z.mod_pos_bound; lia). clearbody mx ex.
  destruct (Zbool.Zeq_bool ex 0) eqn:E0.
  - apply Zbool.Zeq_bool_eq in E0. destruct mx as [|p|p]; cbn [nan_ff zero_ff]; lia.
  - apply Zbool.Zeq_bool_neq in E0. destruct (Zbool.Zeq_bool ex (2 ^ ew - 1)) eqn:E1.
    + apply Zbool.Zeq_bool_eq in E1. destruct mx as [|p|p]; cbn [nan_ff zero_ff]; lia.
    + apply Zbool.Zeq_bool_neq in E1. destruct (mx + 2 ^ mw)%Z as [|p|p] eqn:E2; cbn [nan_ff zero_ff]; lia.
Qed.
