(** * The DIS clock (C34). *)
From Coq Require Import ZArith Reals Lra Lia.
From Flocq Require Import Core.Core IEEE754.BinarySingleNaN.
From Verif Require Import Base Floats FloatFacts.
Local Open Scope N_scope.

(** ** Specification vocabulary *)

(** What [chrono] guarantees of a clock reading. *)
Definition valid_reading (r : reading) : Prop :=
  uval (rd_minute r) < 60 /\ uval (rd_second r) < 60 /\ uval (rd_nanosecond r) < 2000000000.
(** Microseconds past the hour. *)
Definition micros (minute second nanosecond : N) : N := 60000000 * minute + 1000000 * second + nanosecond / 1000.
Definition micros_of (r : reading) : N := micros (uval (rd_minute r)) (uval (rd_second r)) (uval (rd_nanosecond r)).

(** ** The computation *)
Definition ticks (n : Z) : Z := Ztrunc (rnd (rnd (IZR n) / (14092861 / 8388608))).
Lemma ticks_facts n : (0 <= n <= 3602000000)%Z ->
  let q := (rnd (IZR n) / (14092861 / 8388608))%R in
  (0 <= q <= 2144048000)%R /\ (Rabs (q - IZR n / 1.68) <= 145)%R /\ (0 <= rnd q <= 2147483520)%R /\ (Rabs (rnd q - q) <= 64)%R.
Proof.
  intros H q.
  assert (H1 : (0 <= IZR n <= 3602000000)%R) by (split; apply IZR_le; lia).
  assert (E1 : (Rabs (rnd (IZR n) - IZR n) <= 128)%R).
  { apply (rnd_error_le _ _ 32); [lia | rewrite Rabs_pos_eq by lra; cbn; lra | cbn; lra]. }
  apply Rabs_le_inv in E1.
  assert (P1 : (0 <= rnd (IZR n))%R) by (rewrite <- rnd_0; apply rnd_le; lra).
  assert (Q : (0 <= q <= 2144048000)%R) by (unfold q; lra).
  assert (Q2 : (Rabs (q - IZR n / 1.68) <= 145)%R) by (unfold q; apply Rabs_le; lra).
  assert (E2 : (Rabs (rnd q - q) <= 64)%R).
  { apply (rnd_error_le _ _ 31); [lia | rewrite Rabs_pos_eq by lra; cbn; lra | cbn; lra]. }
  split; [exact Q|]. split; [exact Q2|]. split; [|exact E2]. split; [rewrite <- rnd_0; apply rnd_le; lra|].
  apply Rabs_le_inv in E2. lra.
Qed.
Lemma ticks_value n : (0 <= n <= 3602000000)%Z -> uval (f_to_u32 (f_div (f_of_Z n) f_1_68)) = Z.to_N (ticks n).
Proof.
  intros H. destruct (ticks_facts n H) as [Q [_ [Q2 _]]]. cbv zeta in *.
  destruct (f_of_Z_correct n ltac:(lia)) as [V1 [Fi1 S1]]. destruct f_1_68_val as [V2 [Fi2 S2]].
  assert (C := Bdiv_correct f32_prec f32_emax _ _ mode_NE (f_of_Z n) f_1_68). rewrite V1, V2 in C.
  specialize (C ltac:(lra)). rewrite (no_overflow _ 31) in C; [|lia | rewrite Rabs_pos_eq by lra; cbn; lra].
  destruct C as [C1 [C2 C3]]. rewrite Fi1 in C2. fold f_div in C1, C2, C3.
  set (x := f_div (f_of_Z n) f_1_68) in *.
  assert (T : Btrunc x = ticks n).
  { apply eq_IZR. rewrite Btrunc_correct by auto with typeclass_instances. rewrite C1. unfold ticks. apply round_FIX_IZR. }
  assert (B : (0 <= ticks n <= 2147483520)%Z).
  { unfold ticks. rewrite Ztrunc_floor by lra. split; [apply Zfloor_lub; lra|].
    apply le_IZR. apply (Rle_trans _ (rnd (rnd (IZR n) / (14092861 / 8388608)))); [apply Zfloor_lb | lra]. }
  assert (U : forall z, z = ticks n -> uval (as_u32 (Z.to_N (Z.min 4294967295 (Z.max 0 z)))) = Z.to_N (ticks n)).
  { intros z ->. replace (Z.min 4294967295 (Z.max 0 (ticks n))) with (ticks n) by lia. apply as_uint_val. cbn. lia. }
  unfold f_to_u32. destruct x as [s|s| |s m e Hb] eqn:X; cbn [is_finite] in C2; try discriminate; apply U, T.
Qed.
Lemma ticks_mono a b : (0 <= a <= b)%Z -> (ticks a <= ticks b)%Z.
Proof.
  intros H. unfold ticks. apply Ztrunc_le, rnd_le. apply Rmult_le_compat_r; [lra|]. apply rnd_le, IZR_le. lia.
Qed.
Lemma ticks_bounds n : (0 <= n <= 3602000000)%Z -> (0 <= ticks n < 2 ^ 31)%Z /\ (Z.abs (168 * ticks n - 100 * n) <= 168 * 256)%Z.
Proof.
  intros H. destruct (ticks_facts n H) as [Q [Q2 [Q3 Q4]]]. cbv zeta in *. unfold ticks.
  set (q := (rnd (IZR n) / (14092861 / 8388608))%R) in *. rewrite Ztrunc_floor by lra.
  assert (L1 := Zfloor_lb (rnd q)). assert (L2 := Zfloor_ub (rnd q)). split.
  - split; [apply Zfloor_lub; lra|]. apply lt_IZR. cbn. lra.
  - apply Rabs_le_inv in Q2; apply Rabs_le_inv in Q4. apply Z.abs_le. split; apply le_IZR; rewrite ?opp_IZR, minus_IZR, !mult_IZR; lra.
Qed.

Lemma timestamp_value m r1 r2 r3 : valid_reading r1 -> valid_reading r2 -> valid_reading r3 ->
  let n := micros (uval (rd_minute r1)) (uval (rd_second r2)) (uval (rd_nanosecond r3)) in
  n <= 3602000000 /\ exists t, calculate_dis_timestamp m r1 r2 r3 = Ok t /\ uval t = Z.to_N (ticks (Z.of_N n)).
Proof.
  intros [M [_ _]] [_ [S _]] [_ [_ Ns]] n.
  assert (B : n <= 3602000000) by (unfold n, micros; lia). split; [exact B|].
  assert (Mul : forall (a : u32) k, k < 4294967296 -> uval a * k < 4294967296 ->
    exists b, mul_u32 m a (as_u32 k) = Ok b /\ uval b = uval a * k).
  { intros a k K L. assert (E : uval (as_u32 k) = k) by (apply as_uint_val; exact K). unfold mul_u32. rewrite E.
    exists (as_u32 (uval a * k)). split; [|apply as_uint_val; exact L].
    destruct m; [|reflexivity]. rewrite (proj2 (N.ltb_lt _ _) L). reflexivity. }
  unfold calculate_dis_timestamp.
  destruct (Mul (rd_minute r1) 60 ltac:(lia) ltac:(lia)) as [a [-> Ea]].
  destruct (Mul a 1000000 ltac:(lia) ltac:(lia)) as [b [-> Eb]].
  destruct (Mul (rd_second r2) 1000000 ltac:(lia) ltac:(lia)) as [c [-> Ec]].
  eexists. split; [reflexivity|].
  replace (uval c + uval b + uval (rd_nanosecond r3) / 1000) with n by (unfold n, micros; rewrite Ec, Eb, Ea; lia).
  apply ticks_value. lia.
Qed.

(** ** C34 *)

(** Whatever the three clock readings, the computation never overflows, in either build
    profile; the result fits 31 bits and is the reading in units of 1.68 microseconds, up to
    256 units (0.43 ms), of the minute of the first, the second of the second and the
    fraction of the third reading. *)
Theorem C34_timestamp : forall m r1 r2 r3, valid_reading r1 -> valid_reading r2 -> valid_reading r3 ->
  exists t, calculate_dis_timestamp m r1 r2 r3 = Ok t /\ uval t < 2 ^ 31 /\
    let n := micros (uval (rd_minute r1)) (uval (rd_second r2)) (uval (rd_nanosecond r3)) in
    (Z.abs (168 * Z.of_N (uval t) - 100 * Z.of_N n) <= 168 * 256)%Z.
Proof.
  intros m r1 r2 r3 V1 V2 V3. destruct (timestamp_value m r1 r2 r3 V1 V2 V3) as [B [t [E U]]].
  destruct (ticks_bounds (Z.of_N (micros (uval (rd_minute r1)) (uval (rd_second r2)) (uval (rd_nanosecond r3))))) as [T1 T2]; [lia|].
  exists t. split; [exact E|]. cbv zeta. rewrite U, Z2N.id by lia. split; [lia | exact T2].
Qed.
(** For instants of the same hour read at once the timestamp never goes back. *)
Theorem C34_monotone : forall m r s t u, valid_reading r -> valid_reading s -> micros_of r <= micros_of s ->
  calculate_dis_timestamp m r r r = Ok t -> calculate_dis_timestamp m s s s = Ok u -> uval t <= uval u.
Proof.
  intros m r s t u Vr Vs L Et Eu. destruct (timestamp_value m r r r Vr Vr Vr) as [B1 [t' [E1 U1]]].
  destruct (timestamp_value m s s s Vs Vs Vs) as [B2 [u' [E2 U2]]]. rewrite E1 in Et. injection Et as <-. rewrite E2 in Eu. injection Eu as <-.
  fold (micros_of r) in *. fold (micros_of s) in *.
  rewrite U1, U2. assert (M := ticks_mono (Z.of_N (micros_of r)) (Z.of_N (micros_of s)) ltac:(lia)). lia.
Qed.

Definition at_time (minute second nanosecond : N) : reading := mk_reading (as_u32 minute) (as_u32 second) (as_u32 nanosecond).
(** But the clock is read three times: with the minute read one nanosecond before a full
    minute and the rest after it, the result lies 59 to 60 seconds in the past. *)
Theorem C34_torn_read_refuted : forall m, exists t u,
  calculate_dis_timestamp m (at_time 10 59 999999999) (at_time 10 59 999999999) (at_time 10 59 999999999) = Ok t /\
  calculate_dis_timestamp m (at_time 10 59 999999999) (at_time 11 0 0) (at_time 11 0 0) = Ok u /\
  uval u + 35700000 < uval t.
Proof. intros []; eexists _, _; (split; [vm_compute; reflexivity|]; split; [vm_compute; reflexivity | vm_compute; reflexivity]). Qed.
(** Nor is it strictly increasing: late in the hour, readings 200 microseconds apart collide. *)
Theorem C34_strict_refuted : forall m, exists t,
  calculate_dis_timestamp m (at_time 59 0 0) (at_time 59 0 0) (at_time 59 0 0) = Ok t /\
  calculate_dis_timestamp m (at_time 59 0 100000) (at_time 59 0 100000) (at_time 59 0 100000) = Ok t.
Proof. intros []; eexists; (split; vm_compute; reflexivity). Qed.

(** IEEE 1278.1 (6.2.88): bit 0 of the timestamp tells absolute from relative time, the other
    31 bits count units of 3600 s / 2^31 past the hour. The computed value is not in this
    format: read so, it never lies in the second half of the hour. *)
Definition ieee_units (timestamp : N) : N := timestamp / 2.
Definition units_past_hour (microseconds : N) : N := microseconds * 2 ^ 31 / 3600000000.
Theorem C34_ieee_format_refuted : forall m r t, valid_reading r -> calculate_dis_timestamp m r r r = Ok t ->
  ieee_units (uval t) < 2 ^ 30 /\
  (30 <= uval (rd_minute r) -> 2 ^ 30 <= units_past_hour (micros_of r)).
Proof.
  intros m r t V E. destruct (C34_timestamp m r r r V V V) as [t' [E' [L _]]]. rewrite E in E'. injection E' as <-. split.
  - unfold ieee_units. apply N.div_lt_upper_bound; [discriminate|]. exact L.
  - intros H. unfold units_past_hour. apply N.div_le_lower_bound; [discriminate|]. unfold micros_of, micros.
    change (2 ^ 30) with 1073741824. change (2 ^ 31) with 2147483648. lia.
Qed.
Example C34_example : valid_reading (at_time 59 59 999999999) /\
  calculate_dis_timestamp Checked (at_time 59 59 999999999) (at_time 59 59 999999999) (at_time 59 59 999999999) = Ok (as_u32 2142857216).
Proof. split; [repeat split; vm_compute; reflexivity|]. vm_compute. reflexivity. Qed.

(** The conversion [x as u32] on its own, for every [f32]: a finite number loses its fraction and
    is then forced into the range; the infinities go to the ends of the range, NaN to 0. (The
    clock never leaves the finite case.) *)
Theorem C34_as_u32 : forall x : F,
  (is_finite x = true -> uval (f_to_u32 x) = Z.to_N (Z.min (2 ^ 32 - 1) (Z.max 0 (Ztrunc (B2R x))))) /\
  uval (f_to_u32 (B754_infinity false)) = 2 ^ 32 - 1 /\ uval (f_to_u32 (B754_infinity true)) = 0 /\ uval (f_to_u32 B754_nan) = 0.
Proof.
  intros x. split; [|repeat split].
  intros Fi. assert (T : Btrunc x = Ztrunc (B2R x)).
  { apply eq_IZR. rewrite Btrunc_correct by auto with typeclass_instances. apply round_FIX_IZR. }
  assert (U : forall z, uval (as_u32 (Z.to_N (Z.min 4294967295 (Z.max 0 z)))) = Z.to_N (Z.min (2 ^ 32 - 1) (Z.max 0 z))).
  { intros z. apply as_uint_val. cbn. lia. }
  rewrite <- T. unfold f_to_u32. destruct x as [s|s| |s m e Hb]; cbn [is_finite] in Fi; try discriminate; apply U.
Qed.
Example C34_as_u32_example : uval (f_to_u32 (f_div (f_of_Z 7) (f_of_Z 2))) = 3 /\ uval (f_to_u32 (f_neg (f_of_Z 7))) = 0.
Proof. vm_compute. auto. Qed.

(** What the theorems above rest on (one traversal for all of them; not part of the model). *)
Definition Prop_Clock_theorems : True :=
  let _ := @C34_timestamp in
  let _ := @C34_monotone in
  let _ := @C34_torn_read_refuted in
  let _ := @C34_strict_refuted in
  let _ := @C34_ieee_format_refuted in
  let _ := @C34_as_u32 in
  I.
Print Assumptions Prop_Clock_theorems.
