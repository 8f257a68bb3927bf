(** * Facts about the irregular record types (proofs only). *)
From Coq Require DecimalN DecimalFacts.
From Verif Require Import Base BaseFacts EnumModel Enums EnumFacts Fixed Header PduMacro PduMacroFacts
  DataTypes DataTypesFacts Spec RecordFacts Wire WireProofs SpecDatum.

(** ** Record specification elements, any profile *)
Lemma element_ser_exact m v : element_exact m v ->
  RecordSpecificationElement_serialize m v = Ok (element_bytes v).
Proof.
  intros [S E]. rewrite element_serialize_spec.
  assert (K : (match m with Checked => element_product v <? 65536 | Wrapping => true end) = true).
  { destruct m; [apply N.ltb_lt, S; reflexivity | reflexivity]. }
  rewrite K. unfold lenN. rewrite <- E, N.leb_refl.
  rewrite firstn_all2 by lia. reflexivity.
Qed.
Lemma element_rt_exact m v rest : element_exact m v ->
  RecordSpecificationElement_deserialize m (element_bytes v ++ rest) = Ok (v, rest).
Proof.
  intros [S E]. unfold RecordSpecificationElement_deserialize, element_bytes, element_header. fx_expose. rewrite <- ?app_assoc.
  do 4 fx_read1. unfold bind at 1. unfold rlift. rewrite element_mul.
  assert (K : (match m with Checked => element_product v <? 65536 | Wrapping => true end) = true).
  { destruct m; [apply N.ltb_lt, S; reflexivity | reflexivity]. }
  rewrite K.
  assert (L : N.to_nat (uval (as_u16 (element_product v))) = length (RecordSpecificationElement_record_values v)).
  { change (uval (as_u16 (element_product v))) with (element_product v mod 65536). lia. }
  rewrite L.
  refine (eq_trans (bind_ok _ _ _ _ _ _ _ (repeat_get_u8 _ _)) _).
  unfold ret. destruct v; reflexivity.
Qed.
Lemma element_des_exact m bs v rest :
  RecordSpecificationElement_deserialize m bs = Ok (v, rest) -> element_exact m v.
Proof.
  unfold RecordSpecificationElement_deserialize. intros H. read_inv H. injection H as <- _.
  apply repeat_read_length in E4. unfold rlift, mul_u16 in E3. unfold element_exact, element_product.
  cbn [RecordSpecificationElement_record_values RecordSpecificationElement_record_length RecordSpecificationElement_record_count].
  destruct (N.ltb_spec (uval x1 * uval x2) 65536) as [L|L].
  - injection E3 as <- <-. split; [intros _; exact L|]. rewrite E4. unfold as_u16. rewrite as_uint_val by exact L.
    rewrite N.mod_small by exact L. lia.
  - destruct m; [discriminate|]. injection E3 as <- <-. split; [discriminate|]. rewrite E4.
    change (uval (as_u16 (uval x1 * uval x2))) with ((uval x1 * uval x2) mod 65536). lia.
Qed.
Lemma specification_ser_exact m v : Forall (element_exact m) (RecordSpecification_record_sets v) ->
  RecordSpecification_serialize m v =
  Ok (put_u32 (RecordSpecification_number_of_record_sets v) ++ List.concat (map element_bytes (RecordSpecification_record_sets v))).
Proof.
  intros F. unfold RecordSpecification_serialize.
  assert (K : wconcat (map (RecordSpecificationElement_serialize m) (RecordSpecification_record_sets v)) =
              Ok (List.concat (map element_bytes (RecordSpecification_record_sets v)))).
  { induction F as [|x l C _ IH]; cbn [map wconcat List.concat]; [reflexivity|].
    rewrite element_ser_exact by exact C. rewrite IH. reflexivity. }
  rewrite K. reflexivity.
Qed.
Lemma specification_rt_exact m v rest : specification_exact m v ->
  RecordSpecification_deserialize m ((put_u32 (RecordSpecification_number_of_record_sets v) ++
     List.concat (map element_bytes (RecordSpecification_record_sets v))) ++ rest) = Ok (v, rest).
Proof.
  intros [C F]. unfold RecordSpecification_deserialize. fx_expose. rewrite <- app_assoc. fx_read1.
  refine (eq_trans (bind_ok _ _ _ _ _ _ _ (read_counted (element_exact m) _ _ _ _ _ (fun a r => element_rt_exact m a r) C F)) _).
  unfold ret. destruct v; reflexivity.
Qed.
Lemma specification_des_exact m bs v rest :
  RecordSpecification_deserialize m bs = Ok (v, rest) -> specification_exact m v.
Proof.
  unfold RecordSpecification_deserialize. intros H. read_inv H. injection H as <- _. split; cbn.
  - apply counts_nat. symmetry. eapply repeat_read_length; eassumption.
  - eapply repeat_read_Forall; [exact (element_des_exact m) | eassumption].
Qed.

(** ** Variable datums *)
Lemma datum_bytes_eq b : VariableDatumRecord_bytes_count b = datum_bytes (uval b).
Proof.
  unfold VariableDatumRecord_bytes_count, datum_bytes.
  destruct (N.eqb_spec (uval b mod 8) 0) as [E|E]; lia.
Qed.
Lemma zero_or_pad n : (if 0 <? n then List.concat (map put_u8 (zero_bytes (N.to_nat n))) else []) = zero_bytes (N.to_nat n).
Proof.
  rewrite concat_put_u8. destruct (N.ltb_spec 0 n); [reflexivity|]. replace n with 0 by lia. reflexivity.
Qed.
Lemma datum_ser v : VariableDatumRecord_serialize v =
  big_endian 4 (uval (VariableDatumRecord_datum_id v)) ++ big_endian 4 (uval (VariableDatumRecord_length_bits v)) ++
  VariableDatumRecord_value v ++ repeat (B 0) (N.to_nat (datum_padding (uval (VariableDatumRecord_length_bits v)))).
Proof.
  unfold VariableDatumRecord_serialize. cbv zeta. rewrite zero_or_pad, concat_put_u8, !big_endian_eq. reflexivity.
Qed.
Lemma datum_len v : lenN (VariableDatumRecord_serialize v) =
  VariableDatumRecord_field_len v + datum_padding (uval (VariableDatumRecord_length_bits v)).
Proof.
  rewrite datum_ser. unfold VariableDatumRecord_field_len. rewrite vec_u8_len. cbn [c_len u32_codec].
  unfold lenN. rewrite !app_length, repeat_length. cbn [big_endian app length]. lia.
Qed.
Lemma repeat_get_u8_n n : forall bs : bytes, (n <= length bs)%nat -> repeat_read n get_u8 bs = Ok (firstn n bs, skipn n bs).
Proof.
  induction n as [|n IH]; intros bs H; [reflexivity|]. destruct bs as [|b bs]; [cbn in H; lia|]. cbn [repeat_read firstn skipn].
  refine (eq_trans (bind_ok _ _ _ _ _ _ _ (get_u8_cons b bs)) _).
  refine (eq_trans (bind_ok _ _ _ _ _ _ _ (IH bs _)) _); [cbn in H; lia|]. reflexivity.
Qed.
(** Decoding what was encoded: reads the first [datum_bytes] of value and padding, and puts as many zeros in front. *)
Lemma datum_des v rest : let n := N.to_nat (datum_bytes (uval (VariableDatumRecord_length_bits v))) in
  let tail := VariableDatumRecord_value v ++ repeat (B 0) (N.to_nat (datum_padding (uval (VariableDatumRecord_length_bits v)))) ++ rest in
  VariableDatumRecord_deserialize (VariableDatumRecord_serialize v ++ rest) =
  if Nat.leb n (length tail) then
    Ok (mk_VariableDatumRecord (VariableDatumRecord_datum_id v) (VariableDatumRecord_length_bits v)
          (repeat (B 0) n ++ firstn n tail), skipn n tail)
  else Panic Underflow.
Proof.
  cbv zeta. set (n := N.to_nat (datum_bytes (uval (VariableDatumRecord_length_bits v)))).
  unfold VariableDatumRecord_serialize, VariableDatumRecord_deserialize. cbv zeta. rewrite zero_or_pad, concat_put_u8.
  rewrite <- !app_assoc. fx_expose.
  refine (eq_trans (bind_ok _ _ _ _ _ _ _ (get_put_uint _ _ _)) _). cbv beta.
  refine (eq_trans (bind_ok _ _ _ _ _ _ _ (get_put_uint _ _ _)) _). cbv beta.
  rewrite !datum_bytes_eq. fold n. fold (datum_padding (uval (VariableDatumRecord_length_bits v))).
  change (zero_bytes (N.to_nat (datum_padding (uval (VariableDatumRecord_length_bits v)))))
    with (repeat (B 0) (N.to_nat (datum_padding (uval (VariableDatumRecord_length_bits v))))).
  set (tail := VariableDatumRecord_value v ++ _).
  destruct (Nat.leb_spec n (length tail)) as [L|L].
  - assert (R := repeat_get_u8_n n tail L).
    exact (bind_ok _ _ _ (fun pushed => ret (mk_VariableDatumRecord _ _ (zero_bytes n ++ pushed))) _ _ _ R).
  - exact (bind_panic _ _ _ _ _ _ (repeat_get_u8_short n tail L)).
Qed.

(** ** Decimal strings *)
Lemma of_uint_acc_ascii d : forall acc,
  fold_left (fun acc b => 10 * acc + (uval b - 48)) (ascii_digits d) (N.pos acc) = N.pos (Pos.of_uint_acc d acc).
Proof.
  induction d; intros acc; cbn [ascii_digits fold_left Pos.of_uint_acc]; [reflexivity|..];
    rewrite <- IHd; f_equal;
    match goal with |- context [uval (as_u8 ?k)] => change (uval (as_u8 k)) with k end; lia.
Qed.
Lemma ascii_value_of_uint d : ascii_value (ascii_digits d) = N.of_uint d.
Proof.
  unfold ascii_value, N.of_uint. induction d; cbn [ascii_digits fold_left Pos.of_uint]; [reflexivity|..];
    match goal with |- context [uval (as_u8 ?k)] => change (uval (as_u8 k)) with k end;
    [exact IHd | apply (of_uint_acc_ascii _ _) ..].
Qed.
Lemma ascii_digits_range d b : In b (ascii_digits d) -> 48 <= uval b <= 57.
Proof.
  induction d; cbn [ascii_digits In]; [intros []|..]; (intros [<-|I]; [|apply IHd, I]);
    match goal with |- context [uval (as_u8 ?k)] => change (uval (as_u8 k)) with k end; lia.
Qed.
Lemma nzhead_not_zero d d' : Decimal.nzhead d <> Decimal.D0 d'.
Proof. induction d; cbn; try discriminate. exact IHd. Qed.
Lemma usize_to_string_decimal n : decimal_of n (usize_to_string n).
Proof.
  unfold decimal_of, usize_to_string. split; [|split; [|split]].
  - rewrite ascii_value_of_uint. apply DecimalN.Unsigned.of_to.
  - intros b. apply ascii_digits_range.
  - assert (E := DecimalN.Unsigned.to_of (N.to_uint n)). rewrite DecimalN.Unsigned.of_to in E.
    assert (U := DecimalFacts.unorm_nonnil (N.to_uint n)). rewrite <- E in U.
    destruct (N.to_uint n); [contradiction | discriminate ..].
  - assert (E := DecimalN.Unsigned.to_of (N.to_uint n)). rewrite DecimalN.Unsigned.of_to in E.
    unfold Decimal.unorm in E. assert (Z := nzhead_not_zero (N.to_uint n)).
    destruct (Decimal.nzhead (N.to_uint n)) as [|d|d|d|d|d|d|d|d|d|d]; rewrite E;
      try (cbn [ascii_digits hd_error]; intros b [= <-] K; discriminate K); try reflexivity.
    exfalso. apply (Z d). reflexivity.
Qed.
