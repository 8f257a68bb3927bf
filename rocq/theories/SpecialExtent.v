(** * Counted record lists: how many bytes decoding reads (proofs only). *)
From Verif Require Import Base BaseFacts EnumModel Enums EnumFacts Fixed Header HeaderFacts PduMacro PduMacroFacts
  DataTypes DataTypesFacts Bitflags BitflagsFacts Pdus PduFields Spec Wire RecordFacts PdusFacts ClassFacts PduProofs
  SpecDatum DatumFacts SpecSpecial SpecialFacts.

Lemma byte_at_skipn n bs i : byte_at (skipn n bs) i = byte_at bs (n + i).
Proof.
  unfold byte_at. f_equal. revert n. induction bs as [|b bs IH]; intros [|n]; cbn [skipn Nat.add nth]; try reflexivity.
  - destruct i; reflexivity.
  - apply IH.
Qed.
Lemma be2_at_skipn n bs i : be2_at (skipn n bs) i = be2_at bs (n + i).
Proof. unfold be2_at. rewrite !byte_at_skipn, Nat.add_assoc. reflexivity. Qed.
Lemma be4_at_skipn n bs i : be4_at (skipn n bs) i = be4_at bs (n + i).
Proof. unfold be4_at. rewrite !byte_at_skipn, !Nat.add_assoc. reflexivity. Qed.
Lemma get_u16_at bs : (2 <= length bs)%nat -> exists v, get_u16 bs = Ok (v, skipn 2 bs) /\ uval v = be2_at bs 0.
Proof.
  intros L. destruct (put_get_uint 2 bs L) as [v [G [_ U]]]. exists v. split; [exact G|]. rewrite U.
  destruct bs as [|a [|b bs]]; [cbn in L; lia..|]. unfold be2_at, byte_at, be_decode. cbn [firstn nth Nat.add be_decode_acc]. lia.
Qed.
Lemma get_u32_at bs : (4 <= length bs)%nat -> exists v, get_u32 bs = Ok (v, skipn 4 bs) /\ uval v = be4_at bs 0.
Proof.
  intros L. destruct (put_get_uint 4 bs L) as [v [G [_ U]]]. exists v. split; [exact G|]. rewrite U.
  destruct bs as [|a [|b [|c [|d bs]]]]; [cbn in L; lia..|].
  unfold be4_at, byte_at, be_decode. cbn [firstn nth Nat.add be_decode_acc]. lia.
Qed.

(** One element. *)
Lemma element_read m (bs : bytes) :
  (12 <= length bs)%nat -> (m = Checked -> product_at bs 0 < 65536) -> (12 + N.to_nat (product_at bs 0 mod 65536) <= length bs)%nat ->
  exists v, RecordSpecificationElement_deserialize m bs = Ok (v, skipn (12 + N.to_nat (product_at bs 0 mod 65536)) bs).
Proof.
  intros L C E. unfold RecordSpecificationElement_deserialize.
  destruct (get_u32_at bs) as [a [Ra _]]; [lia|]. unfold bind at 1. rewrite Ra.
  destruct (get_u32_at (skipn 4 bs)) as [b [Rb _]]; [rewrite skipn_length; lia|]. unfold bind at 1. rewrite Rb, skipn_add.
  destruct (get_u16_at (skipn (4 + 4) bs)) as [c [Rc Uc]]; [rewrite skipn_length; lia|]. unfold bind at 1. rewrite Rc, skipn_add.
  destruct (get_u16_at (skipn (2 + (4 + 4)) bs)) as [d [Rd Ud]]; [rewrite skipn_length; lia|]. unfold bind at 1. rewrite Rd, skipn_add.
  rewrite be2_at_skipn in Uc, Ud. cbn [Nat.add] in Uc, Ud. unfold product_at in *. cbn [Nat.add] in C, E |- *. rewrite <- Uc, <- Ud in *.
  unfold bind at 1, rlift. unfold mul_u16.
  assert (U : uval (as_u16 (uval c * uval d)) = (uval c * uval d) mod 65536) by reflexivity.
  assert (R : exists v, (let* record_values := repeat_read (N.to_nat (uval (as_u16 (uval c * uval d)))) get_u8 in
     ret (mk_RecordSpecificationElement a b c d record_values)) (skipn (2 + (2 + (4 + 4))) bs) =
     Ok (v, skipn (12 + N.to_nat ((uval c * uval d) mod 65536)) bs)).
  { rewrite U. eexists. refine (eq_trans (bind_ok _ _ _ _ _ _ _ (repeat_get_u8_n _ _ _)) _).
    - rewrite skipn_length. lia.
    - unfold ret. do 2 f_equal. rewrite skipn_add. f_equal. lia. }
  destruct (N.ltb_spec (uval c * uval d) 65536) as [K|K]; [exact R|]. destruct m; [specialize (C eq_refl); lia | exact R].
Qed.
Lemma element_read_bad m (bs : bytes) :
  (length bs < 12)%nat \/ (m = Checked /\ 65536 <= product_at bs 0) \/ (length bs < 12 + N.to_nat (product_at bs 0 mod 65536))%nat ->
  exists e, RecordSpecificationElement_deserialize m bs = Panic e.
Proof.
  intros C. unfold RecordSpecificationElement_deserialize.
  destruct (Nat.lt_ge_cases (length bs) 4) as [L4|L4]; [exists Underflow; apply bind_panic, get_uint_short, L4|].
  destruct (get_u32_at bs) as [a [Ra _]]; [lia|]. unfold bind at 1. rewrite Ra.
  destruct (Nat.lt_ge_cases (length bs) 8) as [L8|L8]; [exists Underflow; apply bind_panic, get_uint_short; rewrite skipn_length; lia|].
  destruct (get_u32_at (skipn 4 bs)) as [b [Rb _]]; [rewrite skipn_length; lia|]. unfold bind at 1. rewrite Rb, skipn_add.
  destruct (Nat.lt_ge_cases (length bs) 10) as [L10|L10]; [exists Underflow; apply bind_panic, get_uint_short; rewrite skipn_length; lia|].
  destruct (get_u16_at (skipn (4 + 4) bs)) as [c [Rc Uc]]; [rewrite skipn_length; lia|]. unfold bind at 1. rewrite Rc, skipn_add.
  destruct (Nat.lt_ge_cases (length bs) 12) as [L12|L12]; [exists Underflow; apply bind_panic, get_uint_short; rewrite skipn_length; lia|].
  destruct (get_u16_at (skipn (2 + (4 + 4)) bs)) as [d [Rd Ud]]; [rewrite skipn_length; lia|]. unfold bind at 1. rewrite Rd, skipn_add.
  rewrite be2_at_skipn in Uc, Ud. cbn [Nat.add] in Uc, Ud. unfold product_at in *. cbn [Nat.add] in C. rewrite <- Uc, <- Ud in *.
  unfold bind at 1, rlift. unfold mul_u16.
  assert (U : uval (as_u16 (uval c * uval d)) = (uval c * uval d) mod 65536) by reflexivity.
  assert (R : (length bs < 12 + N.to_nat ((uval c * uval d) mod 65536))%nat -> exists e, (let* record_values := repeat_read (N.to_nat (uval (as_u16 (uval c * uval d)))) get_u8 in
     ret (mk_RecordSpecificationElement a b c d record_values)) (skipn (2 + (2 + (4 + 4))) bs) = Panic e).
  { intros K. rewrite U. exists Underflow. apply bind_panic, repeat_get_u8_short. rewrite skipn_length. lia. }
  destruct C as [C|[[-> C]|C]]; [lia | |].
  - apply N.ltb_ge in C. rewrite C. eauto.
  - destruct (N.ltb_spec (uval c * uval d) 65536) as [K|K]; [apply R, C|]. destruct m; [eauto | apply R, C].
Qed.
Lemma elements_end_ge k : forall bs pos, (pos <= elements_end k bs pos)%nat.
Proof. induction k as [|k IH]; intros bs pos; cbn [elements_end]; [lia|]. etransitivity; [|apply IH]. lia. Qed.
Lemma elements_read m (bs : bytes) : forall k pos, (pos <= length bs)%nat ->
  let bad := (length bs < elements_end k bs pos)%nat \/ (m = Checked /\ product_overflows k bs pos) in
  (bad -> exists e, repeat_read k (RecordSpecificationElement_deserialize m) (skipn pos bs) = Panic e) /\
  (~ bad -> exists l, repeat_read k (RecordSpecificationElement_deserialize m) (skipn pos bs) = Ok (l, skipn (elements_end k bs pos) bs)).
Proof.
  induction k as [|k IH]; intros pos L; cbn [elements_end product_overflows repeat_read].
  { cbv zeta. split; [intros [H|[_ []]]; lia | intros _; exists []; reflexivity]. }
  assert (P0 : product_at (skipn pos bs) 0 = product_at bs pos).
  { unfold product_at. rewrite !be2_at_skipn. f_equal; f_equal; lia. }
  assert (Ln : length (skipn pos bs) = (length bs - pos)%nat) by apply skipn_length.
  set (next := (pos + 12 + N.to_nat (product_at bs pos mod 65536))%nat).
  assert (G := elements_end_ge k bs next).
  match goal with |- (?b -> _) /\ _ => set (bad := b) end.
  assert (D : (length (skipn pos bs) < 12)%nat \/ (m = Checked /\ 65536 <= product_at (skipn pos bs) 0) \/ (length (skipn pos bs) < 12 + N.to_nat (product_at (skipn pos bs) 0 mod 65536))%nat
     \/ ((m = Checked -> product_at bs pos < 65536) /\ (next <= length bs)%nat)).
  { rewrite P0, Ln. unfold next. assert (Cm : m = Checked \/ m <> Checked) by (destruct m; [left | right]; congruence).
    destruct (Nat.lt_ge_cases (length bs - pos) (12 + N.to_nat (product_at bs pos mod 65536))) as [K|K]; [auto|].
    destruct (N.lt_ge_cases (product_at bs pos) 65536) as [K2|K2].
    - right. right. right. split; [intros _; exact K2|]. lia.
    - destruct Cm as [Cm|Cm]; [right; left; split; assumption|]. right. right. right. split; [congruence|]. lia. }
  assert (B1 : ((length (skipn pos bs) < 12)%nat \/ (m = Checked /\ 65536 <= product_at (skipn pos bs) 0) \/ (length (skipn pos bs) < 12 + N.to_nat (product_at (skipn pos bs) 0 mod 65536))%nat) -> bad /\ exists e, (let* x := RecordSpecificationElement_deserialize m in let* xs := repeat_read k (RecordSpecificationElement_deserialize m) in ret (x :: xs)) (skipn pos bs) = Panic e).
  { intros H. split.
    - rewrite P0, Ln in H. unfold bad. destruct H as [H|[[H1 H2]|H]]; [left; lia | right; tauto | left; lia].
    - destruct (element_read_bad m _ H) as [e E]. exists e. apply bind_panic, E. }
  destruct D as [D|[D|[D|[Cm Nx]]]].
  1: destruct (B1 (or_introl D)) as [Y1 Y2]; split; [intros _; exact Y2 | contradiction].
  1: destruct (B1 (or_intror (or_introl D))) as [Y1 Y2]; split; [intros _; exact Y2 | contradiction].
  1: destruct (B1 (or_intror (or_intror D))) as [Y1 Y2]; split; [intros _; exact Y2 | contradiction].
  destruct (element_read m (skipn pos bs)) as [v V].
  { rewrite Ln. unfold next in Nx. lia. } { rewrite P0. exact Cm. } { rewrite P0, Ln. unfold next in Nx. lia. }
  rewrite P0, skipn_add in V. replace (12 + N.to_nat (product_at bs pos mod 65536) + pos)%nat with next in V by (unfold next; lia).
  destruct (IH next Nx) as [IH1 IH2]. cbv zeta in IH1, IH2. unfold bad. split.
  - intros H. destruct IH1 as [e E].
    + destruct H as [H|[H1 [H2|H2]]]; [left; exact H | specialize (Cm H1); lia | right; split; assumption].
    + exists e. refine (eq_trans (bind_ok _ _ _ _ _ _ _ V) _). cbv beta. apply bind_panic, E.
  - intros H. destruct IH2 as [l E]; [tauto|]. exists (v :: l).
    refine (eq_trans (bind_ok _ _ _ _ _ _ _ V) _). cbv beta. refine (eq_trans (bind_ok _ _ _ _ _ _ _ E) _). reflexivity.
Qed.

(** Standard variable records. *)
Lemma variable_record_read (bs : bytes) :
  ((6 + N.to_nat (be2_at bs 4) <= length bs)%nat -> exists v, StandardVariableRecords_deserialize bs = Ok (v, skipn (6 + N.to_nat (be2_at bs 4)) bs)) /\
  ((length bs < 6 + N.to_nat (be2_at bs 4))%nat -> StandardVariableRecords_deserialize bs = Panic Underflow).
Proof.
  unfold StandardVariableRecords_deserialize. split; intros L.
  - destruct (get_u32_at bs) as [a [Ra _]]; [lia|]. unfold bind at 1. rewrite Ra.
    destruct (get_u16_at (skipn 4 bs)) as [c [Rc Uc]]; [rewrite skipn_length; lia|]. unfold bind at 1. rewrite Rc, skipn_add.
    rewrite be2_at_skipn in Uc. cbn [Nat.add] in Uc. rewrite <- Uc in *.
    eexists. refine (eq_trans (bind_ok _ _ _ _ _ _ _ (repeat_get_u8_n _ _ _)) _).
    + rewrite skipn_length. lia.
    + unfold ret. do 2 f_equal. rewrite skipn_add. f_equal. lia.
  - destruct (Nat.lt_ge_cases (length bs) 4) as [L4|L4]; [apply bind_panic, get_uint_short, L4|].
    destruct (get_u32_at bs) as [a [Ra _]]; [lia|]. unfold bind at 1. rewrite Ra.
    destruct (Nat.lt_ge_cases (length bs) 6) as [L6|L6]; [apply bind_panic, get_uint_short; rewrite skipn_length; lia|].
    destruct (get_u16_at (skipn 4 bs)) as [c [Rc Uc]]; [rewrite skipn_length; lia|]. unfold bind at 1. rewrite Rc, skipn_add.
    rewrite be2_at_skipn in Uc. cbn [Nat.add] in Uc. rewrite <- Uc in *.
    apply bind_panic, repeat_get_u8_short. rewrite skipn_length. lia.
Qed.
Lemma records_end_ge k : forall bs pos, (pos <= records_end k bs pos)%nat.
Proof. induction k as [|k IH]; intros bs pos; cbn [records_end]; [lia|]. etransitivity; [|apply IH]. lia. Qed.
Lemma records_read (bs : bytes) : forall k pos, (pos <= length bs)%nat ->
  ((length bs < records_end k bs pos)%nat -> repeat_read k StandardVariableRecords_deserialize (skipn pos bs) = Panic Underflow) /\
  ((records_end k bs pos <= length bs)%nat -> exists l, repeat_read k StandardVariableRecords_deserialize (skipn pos bs) = Ok (l, skipn (records_end k bs pos) bs)).
Proof.
  induction k as [|k IH]; intros pos L; cbn [records_end repeat_read].
  { split; [lia | intros _; exists []; reflexivity]. }
  destruct (variable_record_read (skipn pos bs)) as [V1 V2]. rewrite be2_at_skipn, skipn_add, skipn_length in V1.
  rewrite be2_at_skipn, skipn_length in V2.
  set (next := (pos + 6 + N.to_nat (be2_at bs (pos + 4)))%nat) in *. assert (G := records_end_ge k bs next).
  replace (6 + N.to_nat (be2_at bs (pos + 4)) + pos)%nat with next in V1 by (unfold next; lia).
  destruct (Nat.lt_ge_cases (length bs) next) as [K|K].
  - split; [intros _; apply bind_panic, V2; unfold next in K; lia | lia].
  - destruct V1 as [v V]; [unfold next in K; lia|]. destruct (IH next K) as [IH1 IH2]. split.
    + intros H. refine (eq_trans (bind_ok _ _ _ _ _ _ _ V) _). cbv beta. apply bind_panic, IH1, H.
    + intros H. destruct (IH2 H) as [l E]. exists (v :: l).
      refine (eq_trans (bind_ok _ _ _ _ _ _ _ V) _). cbv beta. refine (eq_trans (bind_ok _ _ _ _ _ _ _ E) _). reflexivity.
Qed.

(** Whole specifications at a position. *)
Lemma specification_read m (bs : bytes) pos :
  let k := N.to_nat (be4_at bs pos) in
  let bad := (length bs < elements_end k bs (pos + 4))%nat \/ (m = Checked /\ product_overflows k bs (pos + 4)) in
  (bad -> exists e, RecordSpecification_deserialize m (skipn pos bs) = Panic e) /\
  (~ bad -> exists v, RecordSpecification_deserialize m (skipn pos bs) = Ok (v, skipn (elements_end k bs (pos + 4)) bs)).
Proof.
  intros k bad. unfold RecordSpecification_deserialize.
  assert (G := elements_end_ge k bs (pos + 4)). assert (Ln : length (skipn pos bs) = (length bs - pos)%nat) by apply skipn_length.
  destruct (Nat.lt_ge_cases (length bs) (pos + 4)) as [K|K].
  { split; [intros _; exists Underflow; apply bind_panic, get_uint_short; rewrite Ln; lia | intros N; exfalso; apply N; left; lia]. }
  destruct (get_u32_at (skipn pos bs)) as [n [R U]]; [lia|]. rewrite be4_at_skipn, Nat.add_0_r in U. unfold bind at 1 3. rewrite R, skipn_add.
  replace (4 + pos)%nat with (pos + 4)%nat by lia. rewrite U. fold k.
  destruct (elements_read m bs k (pos + 4) K) as [E1 E2]. split; intros H.
  - destruct (E1 H) as [e E]. exists e. apply bind_panic, E.
  - destruct (E2 H) as [l E]. eexists. refine (eq_trans (bind_ok _ _ _ _ _ _ _ E) _). reflexivity.
Qed.
Lemma variable_specification_read (bs : bytes) pos :
  let k := N.to_nat (be2_at bs pos) in
  ((length bs < records_end k bs (pos + 2))%nat -> exists e, StandardVariableSpecification_deserialize_field (skipn pos bs) = Panic e) /\
  ((records_end k bs (pos + 2) <= length bs)%nat -> exists v, StandardVariableSpecification_deserialize_field (skipn pos bs) = Ok (v, skipn (records_end k bs (pos + 2)) bs)).
Proof.
  intros k. unfold StandardVariableSpecification_deserialize_field.
  assert (G := records_end_ge k bs (pos + 2)). assert (Ln : length (skipn pos bs) = (length bs - pos)%nat) by apply skipn_length.
  destruct (Nat.lt_ge_cases (length bs) (pos + 2)) as [K|K].
  { split; [intros _; exists Underflow; apply bind_panic, get_uint_short; rewrite Ln; lia | lia]. }
  destruct (get_u16_at (skipn pos bs)) as [n [R U]]; [lia|]. rewrite be2_at_skipn, Nat.add_0_r in U. unfold bind at 1 3. rewrite R, skipn_add.
  replace (2 + pos)%nat with (pos + 2)%nat by lia. rewrite U. fold k.
  destruct (records_read bs k (pos + 2) K) as [E1 E2]. cbn [c_des StandardVariableRecords_codec]. split; intros H.
  - exists Underflow. apply bind_panic, E1, H.
  - destruct (E2 H) as [l E]. eexists. refine (eq_trans (bind_ok _ _ _ _ _ _ _ E) _). reflexivity.
Qed.
