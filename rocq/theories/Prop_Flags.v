(** * C84: sets of flags. *)
From Coq Require Import String.
From Verif Require Import Base BaseFacts EnumModel EnumFacts PduMacro PduMacroFacts Bitflags BitflagsFacts Flags SpecFlags PduProofs.
From Verif Require Prop_Types.
Local Open Scope N_scope.

Lemma pow256 k : 256 ^ N.of_nat k = 2 ^ (8 * N.of_nat k).
Proof. rewrite N.pow_mul_r. reflexivity. Qed.
Lemma as_uint_testbit k n i : N.testbit (uval (as_uint k n)) i = (i <? 8 * N.of_nat k) && N.testbit n i.
Proof.
  cbn [uval as_uint]. rewrite pow256. destruct (N.ltb_spec i (8 * N.of_nat k)).
  - now rewrite N.mod_pow2_bits_low.
  - now rewrite N.mod_pow2_bits_high.
Qed.
Lemma uint_testbit_high k (u : uint k) i : 8 * N.of_nat k <= i -> N.testbit (uval u) i = false.
Proof.
  intros H. rewrite <- (as_uint_id k u), as_uint_testbit. destruct (N.ltb_spec i (8 * N.of_nat k)); [lia | reflexivity].
Qed.
Lemma uint_testbit k (u : uint k) i : (i <? 8 * N.of_nat k) && N.testbit (uval u) i = N.testbit (uval u) i.
Proof. rewrite <- (as_uint_id k u), as_uint_testbit. destruct (i <? _); reflexivity. Qed.

(** The names of each type are distinct, stand for distinct bits, and are all the declared bits. *)
Definition type_ok (t : flag_type) : bool :=
  nodup_by String.eqb (map fst (ft_flags t)) && nodup_by N.eqb (map snd (ft_flags t)) &&
  forallb (fun i => Bool.eqb (N.testbit (ft_all t) i) (memb i (map snd (ft_flags t)))) (map N.of_nat (seq 0 (8 * ft_bytes t))) &&
  forallb (fun b => b <? 8 * N.of_nat (ft_bytes t)) (map snd (ft_flags t)) && (ft_all t <? 256 ^ N.of_nat (ft_bytes t)).
Lemma types_ok : forall t, In t flag_types -> type_ok t = true.
Proof.
  assert (F : forallb type_ok flag_types = true) by (vm_compute; reflexivity). rewrite forallb_forall in F. exact F.
Qed.
Theorem C84_names : forall t, In t flag_types ->
  NoDup (map fst (ft_flags t)) /\ NoDup (map snd (ft_flags t)) /\
  (forall i, N.testbit (ft_all t) i = true <-> In i (map snd (ft_flags t))) /\
  (forall i, In i (map snd (ft_flags t)) -> i < 8 * N.of_nat (ft_bytes t)).
Proof.
  intros t I. assert (K := types_ok t I). unfold type_ok in K. apply andb_true_iff in K as [K A]. apply andb_true_iff in K as [K W].
  apply andb_true_iff in K as [K B]. apply andb_true_iff in K as [U V].
  rewrite forallb_forall in W, B. apply N.ltb_lt in A.
  assert (HW : forall i, In i (map snd (ft_flags t)) -> i < 8 * N.of_nat (ft_bytes t)) by (intros i J; apply N.ltb_lt, W, J).
  split; [apply (nodup_check String.eqb String.eqb_refl), U|]. split; [apply (nodup_check N.eqb N.eqb_refl), V|]. split; [|exact HW].
  assert (HB : forall i, i < 8 * N.of_nat (ft_bytes t) -> N.testbit (ft_all t) i = memb i (map snd (ft_flags t))).
  { intros i H. apply eqb_prop, B. apply in_map_iff. exists (N.to_nat i). split; [lia|]. apply in_seq. lia. }
  intros i. split.
  - intros T. assert (L : i < 8 * N.of_nat (ft_bytes t)).
    { destruct (N.ltb_spec i (8 * N.of_nat (ft_bytes t))) as [L|L]; [exact L|]. exfalso.
      rewrite <- (N.mod_small (ft_all t) _ A), pow256, N.mod_pow2_bits_high in T by exact L. discriminate. }
    rewrite (HB i L) in T. apply memb_In, T.
  - intros J. rewrite (HB i (HW i J)). apply memb_In, J.
Qed.

Lemma find_row (l : list (string * N)) n b : NoDup (map fst l) -> In (n, b) l ->
  find (fun p => String.eqb (fst p) n) l = Some (n, b).
Proof.
  induction l as [|[m c] l IH]; cbn; [easy|]. intros D [H|H].
  - injection H as -> ->. now rewrite String.eqb_refl.
  - inversion D as [|? ? Q D']; subst. destruct (String.eqb m n) eqn:E; [|apply IH; assumption].
    apply String.eqb_eq in E. subst. exfalso. apply Q. apply in_map_iff. exists (n, b). split; [reflexivity | exact H].
Qed.
Lemma bit_of_some t n b : In t flag_types -> In (n, b) (ft_flags t) -> bit_of t n = Some b.
Proof. intros I J. unfold bit_of. destruct (C84_names t I) as [D _]. now rewrite (find_row _ n b D J). Qed.

(** ** The value of an expression has exactly the bits of its members, and only declared bits. *)
Lemma value_bits t : In t flag_types -> forall e : fexpr t, well_named e ->
  (forall n b, In (n, b) (ft_flags t) -> N.testbit (uval (bits (value_of e))) b = member e n) /\
  (forall i, N.testbit (uval (bits (value_of e))) i = true -> N.testbit (ft_all t) i = true).
Proof.
  intros I. destruct (C84_names t I) as [D1 [D2 [AB HW]]].
  assert (Hb : forall n b, In (n, b) (ft_flags t) -> (b <? 8 * N.of_nat (ft_bytes t)) = true /\ N.testbit (ft_all t) b = true).
  { intros n b J. assert (K : In b (map snd (ft_flags t))) by (apply in_map_iff; exists (n, b); auto).
    split; [apply N.ltb_lt, HW, K | apply AB, K]. }
  induction e as [n'| | |r|a IHa b IHb|a IHa b IHb|a IHa b IHb|a IHa b IHb|a IHa|a IHa b IHb v]; intros W; cbn [value_of member well_named] in *.
  - apply in_map_iff in W as [[m c] [E J]]. cbn in E. subst m. rewrite (bit_of_some t n' c I J).
    unfold flag. cbn [bits]. rewrite N.shiftl_1_l. split.
    + intros n b K. rewrite as_uint_testbit, (proj1 (Hb n b K)), N.pow2_bits_eqb. cbn [andb].
      destruct (String.eqb n' n) eqn:E.
      * apply String.eqb_eq in E. subst n'. assert (X := bit_of_some t n b I K). rewrite (bit_of_some t n c I J) in X.
        injection X as ->. apply N.eqb_refl.
      * apply N.eqb_neq. intros ->. apply String.eqb_neq in E. apply E.
        clear - D2 J K. induction (ft_flags t) as [|[m x] l IH]; [contradiction|]. cbn in D2. inversion D2 as [|? ? Q D']; subst.
        cbn in Q. assert (S' : forall m', In (m', x) l -> False) by (intros m' H; apply Q, in_map_iff; exists (m', x); auto).
        destruct J as [J|J], K as [K|K].
        -- congruence.
        -- injection J as ? ?; subst. exfalso. eapply S', K.
        -- injection K as ? ?; subst. exfalso. eapply S', J.
        -- apply IH; assumption.
    + intros i. rewrite as_uint_testbit, N.pow2_bits_eqb. intros T. apply andb_true_iff in T as [_ T]. apply N.eqb_eq in T. subst i.
      apply (proj2 (Hb n' c J)).
  - unfold flags_empty. cbn [bits]. split; intros; rewrite as_uint_testbit, ?N.bits_0, ?andb_false_r in *; [reflexivity | discriminate].
  - unfold flags_all. cbn [bits]. split.
    + intros n b J. rewrite as_uint_testbit. destruct (Hb n b J) as [-> ->]. reflexivity.
    + intros i T. rewrite as_uint_testbit in T. apply andb_true_iff in T. apply T.
  - unfold from_bits_truncate. cbn [bits]. split.
    + intros n b J. rewrite as_uint_testbit, N.land_spec, (bit_of_some t n b I J). destruct (Hb n b J) as [-> ->].
      cbn. apply andb_true_r.
    + intros i T. rewrite as_uint_testbit, N.land_spec in T. apply andb_true_iff in T as [_ T]. apply andb_true_iff in T. apply T.
  - destruct W as [Wa Wb]. destruct (IHa Wa) as [A1 A2], (IHb Wb) as [B1 B2]. unfold f_union. cbn [bits]. split.
    + intros n c J. rewrite as_uint_testbit, N.lor_spec, (A1 n c J), (B1 n c J). destruct (Hb n c J) as [-> _]. reflexivity.
    + intros i T. rewrite as_uint_testbit, N.lor_spec in T. apply andb_true_iff in T as [_ T]. apply orb_true_iff in T as [T|T]; auto.
  - destruct W as [Wa Wb]. destruct (IHa Wa) as [A1 A2], (IHb Wb) as [B1 B2]. unfold f_intersection. cbn [bits]. split.
    + intros n c J. rewrite as_uint_testbit, N.land_spec, (A1 n c J), (B1 n c J). destruct (Hb n c J) as [-> _]. reflexivity.
    + intros i T. rewrite as_uint_testbit, N.land_spec in T. apply andb_true_iff in T as [_ T]. apply andb_true_iff in T as [T _]; auto.
  - destruct W as [Wa Wb]. destruct (IHa Wa) as [A1 A2], (IHb Wb) as [B1 B2]. unfold f_difference. cbn [bits]. split.
    + intros n c J. rewrite as_uint_testbit, N.ldiff_spec, (A1 n c J), (B1 n c J). destruct (Hb n c J) as [-> _]. reflexivity.
    + intros i T. rewrite as_uint_testbit, N.ldiff_spec in T. apply andb_true_iff in T as [_ T]. apply andb_true_iff in T as [T _]; auto.
  - destruct W as [Wa Wb]. destruct (IHa Wa) as [A1 A2], (IHb Wb) as [B1 B2]. unfold f_symmetric_difference. cbn [bits]. split.
    + intros n c J. rewrite as_uint_testbit, N.lxor_spec, (A1 n c J), (B1 n c J). destruct (Hb n c J) as [-> _]. reflexivity.
    + intros i T. rewrite as_uint_testbit, N.lxor_spec in T. apply andb_true_iff in T as [_ T].
      destruct (N.testbit (uval (bits (value_of a))) i) eqn:Ta; [auto|]. destruct (N.testbit (uval (bits (value_of b))) i) eqn:Tb; [auto | discriminate].
  - destruct (IHa W) as [A1 A2]. unfold f_complement, from_bits_truncate. cbn [bits]. split.
    + intros n c J. destruct (Hb n c J) as [L T]. rewrite as_uint_testbit, N.land_spec, as_uint_testbit, L, T. cbn [andb].
      rewrite andb_true_r. apply N.ltb_lt in L. rewrite N.lnot_spec_low by exact L. now rewrite (A1 n c J).
    + intros i T. rewrite as_uint_testbit, N.land_spec in T. apply andb_true_iff in T as [_ T]. apply andb_true_iff in T. apply T.
  - destruct W as [Wa Wb]. destruct (IHa Wa) as [A1 A2], (IHb Wb) as [B1 B2]. unfold f_set. destruct v; unfold f_union, f_difference; cbn [bits]; split.
    + intros n c J. rewrite as_uint_testbit, N.lor_spec, (A1 n c J), (B1 n c J). destruct (Hb n c J) as [-> _]. cbn.
      destruct (member b n); [apply orb_true_r | apply orb_false_r].
    + intros i T. rewrite as_uint_testbit, N.lor_spec in T. apply andb_true_iff in T as [_ T]. apply orb_true_iff in T as [T|T]; auto.
    + intros n c J. rewrite as_uint_testbit, N.ldiff_spec, (A1 n c J), (B1 n c J). destruct (Hb n c J) as [-> _]. cbn.
      destruct (member b n); [apply andb_false_r | apply andb_true_r].
    + intros i T. rewrite as_uint_testbit, N.ldiff_spec in T. apply andb_true_iff in T as [_ T]. apply andb_true_iff in T as [T _]; auto.
Qed.

(** Asking for a flag answers whether it is in the set; all the queries agree with sets. *)
Theorem C84_queries : forall t, In t flag_types -> forall e e' : fexpr t, well_named e -> well_named e' ->
  (forall n, In n (map fst (ft_flags t)) -> f_contains (value_of e) (value_of (Named n)) = member e n) /\
  (f_contains (value_of e) (value_of e') = true <-> forall n, In n (map fst (ft_flags t)) -> member e' n = true -> member e n = true) /\
  (f_intersects (value_of e) (value_of e') = true <-> exists n, In n (map fst (ft_flags t)) /\ member e n = true /\ member e' n = true) /\
  (f_is_empty (value_of e) = true <-> forall n, In n (map fst (ft_flags t)) -> member e n = false) /\
  (f_is_all (value_of e) = true <-> forall n, In n (map fst (ft_flags t)) -> member e n = true) /\
  (value_of e = value_of e' <-> forall n, In n (map fst (ft_flags t)) -> member e n = member e' n).
Proof.
  intros t I. destruct (C84_names t I) as [D1 [D2 [AB HW]]].
  assert (G : forall i, N.testbit (ft_all t) i = true -> exists n, In (n, i) (ft_flags t) /\ In n (map fst (ft_flags t))).
  { intros i T. apply AB in T. apply in_map_iff in T as [[n b] [E J]]. cbn in E. subst b. exists n. split; [exact J|].
    apply in_map_iff. exists (n, i). auto. }
  assert (G' : forall n, In n (map fst (ft_flags t)) -> exists i, In (n, i) (ft_flags t)).
  { intros n J. apply in_map_iff in J as [[m b] [E J]]. cbn in E. subst m. eauto. }
  assert (CS : forall e e' : fexpr t, well_named e -> well_named e' ->
    (f_contains (value_of e) (value_of e') = true <-> forall n, In n (map fst (ft_flags t)) -> member e' n = true -> member e n = true)).
  { intros e e' W W'. destruct (value_bits t I e W) as [A1 A2], (value_bits t I e' W') as [B1 B2].
    unfold f_contains. rewrite N.eqb_eq. split.
    - intros E n J M. apply G' in J as [i J]. apply (f_equal (fun x => N.testbit x i)) in E.
      rewrite N.land_spec, (A1 n i J), (B1 n i J), M, andb_true_r in E. exact E.
    - intros H. apply N.bits_inj. intros i. rewrite N.land_spec.
      destruct (N.testbit (uval (bits (value_of e'))) i) eqn:T; [|apply andb_false_r]. rewrite andb_true_r.
      destruct (G i (B2 i T)) as [n [J Jn]]. rewrite (B1 n i J) in T. rewrite (A1 n i J). apply H; assumption. }
  intros e e' W W'. destruct (value_bits t I e W) as [A1 A2], (value_bits t I e' W') as [B1 B2].
  split; [|split; [apply CS; assumption|split; [|split; [|split]]]].
  - intros n J. apply Bool.eq_iff_eq_true. rewrite (CS e (Named n) W J). cbn [member]. split.
    + intros H. apply H; [exact J | apply String.eqb_refl].
    + intros H m _ E. apply String.eqb_eq in E. now subst.
  - unfold f_intersects. rewrite negb_true_iff, N.eqb_neq. split.
    + intros H. destruct (existsb (fun n => member e n && member e' n) (map fst (ft_flags t))) eqn:X.
      * apply existsb_exists in X as [n [J M]]. apply andb_true_iff in M. exists n. tauto.
      * exfalso. apply H. apply N.bits_inj. intros i. rewrite N.land_spec, N.bits_0.
        destruct (N.testbit (uval (bits (value_of e))) i) eqn:T; [|reflexivity].
        destruct (G i (A2 i T)) as [n [J Jn]]. rewrite (A1 n i J) in T. rewrite (B1 n i J). cbn [andb].
        destruct (member e' n) eqn:M; [|reflexivity]. rewrite <- X. symmetry. apply existsb_exists. exists n. rewrite T, M. auto.
    + intros [n [J [M M']]] E. apply G' in J as [i J]. apply (f_equal (fun x => N.testbit x i)) in E.
      rewrite N.land_spec, (A1 n i J), (B1 n i J), M, M', N.bits_0 in E. discriminate.
  - unfold f_is_empty. rewrite N.eqb_eq. split.
    + intros E n J. apply G' in J as [i J]. rewrite <- (A1 n i J), E. apply N.bits_0.
    + intros H. apply N.bits_inj. intros i. rewrite N.bits_0. destruct (N.testbit (uval (bits (value_of e))) i) eqn:T; [|reflexivity].
      destruct (G i (A2 i T)) as [n [J Jn]]. rewrite <- T, (A1 n i J). apply H, Jn.
  - unfold f_is_all. rewrite N.eqb_eq. split.
    + intros E n J. apply G' in J as [i J]. rewrite <- (A1 n i J), <- E, N.lor_spec.
      replace (N.testbit (ft_all t) i) with true; [reflexivity|]. symmetry. apply AB, in_map_iff. exists (n, i). auto.
    + intros H. apply N.bits_inj. intros i. rewrite N.lor_spec. destruct (N.testbit (ft_all t) i) eqn:T; [|reflexivity].
      destruct (G i T) as [n [J Jn]]. rewrite (A1 n i J). symmetry. apply H, Jn.
  - split.
    + intros E n J. apply G' in J as [i J]. now rewrite <- (A1 n i J), <- (B1 n i J), E.
    + intros H. assert (E : bits (value_of e) = bits (value_of e')).
      { apply uint_eq, N.bits_inj. intros i. destruct (N.testbit (ft_all t) i) eqn:T.
        - destruct (G i T) as [n [J Jn]]. rewrite (A1 n i J), (B1 n i J). apply H, Jn.
        - destruct (N.testbit (uval (bits (value_of e))) i) eqn:X; [rewrite (A2 i X) in T; discriminate|].
          destruct (N.testbit (uval (bits (value_of e'))) i) eqn:Y; [rewrite (B2 i Y) in T; discriminate | reflexivity]. }
      destruct (value_of e), (value_of e'). cbn in E. now subst.
Qed.

(** What is built from named flags is accepted back from its number, and survives the wire. *)
Theorem C84_from_bits : forall t, In t flag_types -> forall e : fexpr t, well_named e ->
  flags_from_bits (ft_all t) (bits (value_of e)) = Some (value_of e).
Proof.
  intros t I e W. destruct (value_bits t I e W) as [_ A2]. unfold flags_from_bits.
  replace (N.ldiff (uval (bits (value_of e))) (ft_all t)) with 0.
  - cbn. now destruct (value_of e).
  - symmetry. apply N.bits_inj. intros i. rewrite N.ldiff_spec, N.bits_0.
    destruct (N.testbit (uval (bits (value_of e))) i) eqn:T; [|reflexivity]. now rewrite (A2 i T).
Qed.
Definition frozen_type : flag_type := mk_flag_type "FrozenBehavior" 1 FrozenBehavior_declared FrozenBehavior_flags.
Definition object_type : flag_type :=
  mk_flag_type "ObjectStateAppearanceGeneral" 2 ObjectStateAppearanceGeneral_declared ObjectStateAppearanceGeneral_flags.
Definition land_type : flag_type := mk_flag_type "LandPlatformAppearance" 4 LandPlatformAppearance_declared LandPlatformAppearance_flags.
Theorem C84_wire :
  (forall (e : fexpr frozen_type) rest, well_named e ->
     exists w, c_ser FrozenBehavior_codec (value_of e) = Ok w /\ c_des FrozenBehavior_codec (w ++ rest) = Ok (value_of e, rest)) /\
  (forall (e : fexpr object_type) rest, well_named e ->
     exists w, c_ser ObjectStateAppearanceGeneral_codec (value_of e) = Ok w /\
       c_des ObjectStateAppearanceGeneral_codec (w ++ rest) = Ok (value_of e, rest)) /\
  (forall e : fexpr land_type, well_named e -> LandPlatformAppearance_from_u32 (LandPlatformAppearance_as_u32 (value_of e)) = Some (value_of e)).
Proof.
  split; [|split].
  - intros e rest W. eexists. split; [reflexivity|]. cbn [c_des FrozenBehavior_codec].
    refine (eq_trans (bind_ok _ _ _ _ _ _ _ (get_put_uint _ _ _)) _). unfold ret, FrozenBehavior_from_u8.
    assert (X := C84_from_bits frozen_type ltac:(left; reflexivity) e W). cbn [ft_all ft_bytes frozen_type] in X.
    unfold FrozenBehavior_as_u8. rewrite X. reflexivity.
  - intros e rest W. eexists. split; [reflexivity|]. cbn [c_des ObjectStateAppearanceGeneral_codec].
    refine (eq_trans (bind_ok _ _ _ _ _ _ _ (get_put_uint _ _ _)) _). unfold ret.
    assert (X := C84_from_bits object_type ltac:(right; left; reflexivity) e W). cbn [ft_all ft_bytes object_type] in X.
    unfold ObjectStateAppearanceGeneral_as_u16. rewrite X. reflexivity.
  - intros e W. exact (C84_from_bits land_type ltac:(right; right; left; reflexivity) e W).
Qed.

(** ** The standard's fields that are wider than one bit are declared as one bit. *)
Lemma field_small lo w n : field_at lo w n < 2 -> forall i, lo < i -> i < lo + w -> N.testbit n i = false.
Proof.
  intros H i Hi Hw. unfold field_at in H.
  assert (E : N.testbit (n / 2 ^ lo mod 2 ^ w) (i - lo) = N.testbit n i).
  { rewrite N.mod_pow2_bits_low by lia. rewrite N.div_pow2_bits. f_equal. lia. }
  rewrite <- E. destruct (n / 2 ^ lo mod 2 ^ w) as [|p] eqn:X; [apply N.bits_0|].
  assert (p = 1%positive) by lia. subst p. apply N.bits_above_log2. cbn. lia.
Qed.
Lemma small_field lo w n : (forall i, lo < i -> i < lo + w -> N.testbit n i = false) -> field_at lo w n < 2.
Proof.
  intros H. unfold field_at. replace (n / 2 ^ lo mod 2 ^ w) with (n / 2 ^ lo mod 2 ^ w mod 2 ^ 1); [apply N.mod_lt; discriminate|].
  apply N.bits_inj. intros i. destruct (N.ltb_spec i 1).
  - now rewrite N.mod_pow2_bits_low.
  - rewrite N.mod_pow2_bits_high by assumption. destruct (N.ltb_spec i w).
    + rewrite N.mod_pow2_bits_low, N.div_pow2_bits by assumption. symmetry. apply H; lia.
    + now rewrite N.mod_pow2_bits_high.
Qed.
Lemma field_bit lo n : field_at lo 1 n = 0 <-> N.testbit n lo = false.
Proof.
  unfold field_at. change (2 ^ 1) with 2. rewrite <- N.bit0_mod, N.div_pow2_bits, N.add_0_l.
  destruct (N.testbit n lo); cbn; split; congruence.
Qed.

(** A raw appearance of the standard is accepted exactly if damage, dust, hatch and camouflage
    are 0 or 1 (and the unused bit is 0): a destroyed vehicle (damage 3) or one with an open
    hatch (4, 5) is [None]. *)
Theorem C84_land_accepts : forall b : u32,
  (LandPlatformAppearance_from_u32 b <> None <->
   land_damage (uval b) < 2 /\ land_dust (uval b) < 2 /\ land_hatch (uval b) < 2 /\ land_camouflage (uval b) < 2 /\ land_unused_bit (uval b) = 0).
Proof.
  intros b. destruct Prop_Types.C21_from_bits as [_ [_ [L _]]].
  assert (X : LandPlatformAppearance_from_u32 b <> None <-> Prop_Types.only_declared Prop_Types.land_bits (uval b)).
  { rewrite <- L. split; [destruct (LandPlatformAppearance_from_u32 b); [eauto | congruence] | intros [f ->]; discriminate]. }
  rewrite X. clear X L. unfold land_damage, land_dust, land_hatch, land_camouflage, land_unused_bit. rewrite field_bit. split.
  - intros H. assert (F : forall i, memb i Prop_Types.land_bits = false -> N.testbit (uval b) i = false).
    { intros i M. destruct (N.testbit (uval b) i) eqn:T; [|reflexivity]. apply H, memb_In in T. congruence. }
    repeat split; [..| apply F; reflexivity]; apply small_field; intros i H1 H2; apply F.
    + assert (i = 4) by lia. now subst.
    + assert (i = 8) by lia. now subst.
    + assert (i = 10 \/ i = 11) as [->| ->] by lia; reflexivity.
    + assert (i = 18) by lia. now subst.
  - intros [H1 [H2 [H3 [H4 H5]]]] i T.
    destruct (N.ltb_spec i 32) as [Li|Li]; [|rewrite (uint_testbit_high 4 b i) in T by (cbn; lia); discriminate].
    destruct (N.eq_dec i 4) as [->|N4]; [rewrite (field_small _ _ _ H1) in T by lia; discriminate|].
    destruct (N.eq_dec i 8) as [->|N8]; [rewrite (field_small _ _ _ H2) in T by lia; discriminate|].
    destruct (N.eq_dec i 10) as [->|N10]; [rewrite (field_small _ _ _ H3) in T by lia; discriminate|].
    destruct (N.eq_dec i 11) as [->|N11]; [rewrite (field_small _ _ _ H3) in T by lia; discriminate|].
    destruct (N.eq_dec i 18) as [->|N18]; [rewrite (field_small _ _ _ H4) in T by lia; discriminate|].
    destruct (N.eq_dec i 20) as [->|N20]; [congruence|].
    apply memb_In. assert (A : forallb (fun j => memb j Prop_Types.land_bits || existsb (N.eqb j) [4; 8; 10; 11; 18; 20]) (map N.of_nat (seq 0 32)) = true)
      by (vm_compute; reflexivity).
    rewrite forallb_forall in A. specialize (A i). assert (J : In i (map N.of_nat (seq 0 32))).
    { apply in_map_iff. exists (N.to_nat i). split; [lia|]. apply in_seq. lia. }
    apply A, orb_true_iff in J as [J|J]; [exact J|]. exfalso. apply existsb_exists in J as [x [Hx E]]. apply N.eqb_eq in E. subst x.
    cbn in Hx. intuition lia.
Qed.
(** The appearance of an areal object on the wire: any percentage above 1, or damage above 1,
    makes decoding drop the whole appearance, burning and smoking included. *)
Theorem C84_object_drops : forall (b : u16) rest, exists f,
  c_des ObjectStateAppearanceGeneral_codec (put_u16 b ++ rest) = Ok (f, rest) /\
  (object_percent_complete (uval b) < 2 -> object_damage (uval b) < 2 -> field_at 9 1 (uval b) = 0 -> object_unused_bit (uval b) = 0 -> bits f = b) /\
  (2 <= object_percent_complete (uval b) \/ 2 <= object_damage (uval b) \/ object_unused_bit (uval b) <> 0 -> uval (bits f) = 0).
Proof.
  intros b rest. destruct Prop_Types.C21_field_decoding as [_ [D _]]. destruct (D b rest) as [f [E [K1 K2]]].
  exists f. split; [exact E|]. unfold object_percent_complete, object_damage, object_unused_bit. split.
  - intros H1 H2 H3 H4. apply K1. intros i T. rewrite field_bit in H4.
    destruct (N.ltb_spec i 16) as [Li|Li]; [|rewrite (uint_testbit_high 2 b i) in T by (cbn; lia); discriminate].
    assert (A : i = 0 \/ (0 < i /\ i < 8) \/ i = 8 \/ i = 9 \/ i = 15 \/ (10 <= i /\ i < 15)) by lia.
    destruct A as [->|[[A1 A2]|[->|[->|[->|[A1 A2]]]]]].
    + cbn. tauto.
    + rewrite (field_small _ _ _ H1) in T by lia. discriminate.
    + cbn. tauto.
    + rewrite (field_small _ _ _ H2) in T by lia. discriminate.
    + congruence.
    + cbn. lia.
  - intros H. apply K2. intros O.
    assert (F : forall i, memb i Prop_Types.object_bits = false -> N.testbit (uval b) i = false).
    { intros i M. destruct (N.testbit (uval b) i) eqn:T; [|reflexivity]. apply O, memb_In in T. congruence. }
    destruct H as [H|[H|H]].
    + assert (X : field_at 0 8 (uval b) < 2); [|lia]. apply small_field. intros i A1 A2. apply F.
      assert (i = 1 \/ i = 2 \/ i = 3 \/ i = 4 \/ i = 5 \/ i = 6 \/ i = 7) as [->|[->|[->|[->|[->|[->| ->]]]]]] by lia; reflexivity.
    + assert (X : field_at 8 2 (uval b) < 2); [|lia]. apply small_field. intros i A1 A2. apply F. assert (i = 9) by lia. now subst.
    + apply H, field_bit, F. reflexivity.
Qed.

(** Concrete values: a destroyed, burning vehicle; a half-finished burning object. *)
Example C84_example :
  LandPlatformAppearance_from_u32 (as_u32 (2 ^ 15 + 3 * 2 ^ 3)) = None /\ land_damage (2 ^ 15 + 3 * 2 ^ 3) = 3 /\
  match c_des ObjectStateAppearanceGeneral_codec (put_u16 (as_u16 (2 ^ 13 + 50))) with
  | Ok (f, _) => f_contains f (flag 13) = false /\ object_percent_complete (2 ^ 13 + 50) = 50
  | _ => False end /\
  let e : fexpr frozen_type := Toggle (Not (Named "TransmitUpdates")) (Union (Named "ProcessUpdates") (Named "TransmitUpdates")) in
  uval (bits (value_of e)) = 3 /\ member e "ProcessUpdates" = false /\ member e "TransmitUpdates" = true.
Proof. vm_compute. repeat split. Qed.

Definition Prop_Flags_theorems : True :=
  let _ := @C84_names in let _ := @C84_queries in let _ := @C84_from_bits in let _ := @C84_wire in
  let _ := @C84_land_accepts in let _ := @C84_object_drops in let _ := @C84_example in I.
Print Assumptions Prop_Flags_theorems.
