(** * Memory requested by decoding (C68). *)
From Verif Require Import Base BaseFacts EnumModel Header PduMacro DataTypes RecordFacts Spec Memory.

(** The instrumented functions are the decoders. *)
Theorem C68_datum_same : forall bs, outcome_of (VariableDatumRecord_deserialize_run bs) = VariableDatumRecord_deserialize bs.
Proof.
  intros bs. unfold VariableDatumRecord_deserialize_run, VariableDatumRecord_deserialize, bind, ret.
  destruct (get_u32 bs) as [[x b1]|]; [|reflexivity]. destruct (get_u32 b1) as [[y b2]|]; reflexivity.
Qed.
Theorem C68_specification_same : forall bs,
  outcome_of (StandardVariableSpecification_deserialize_field_run bs) = c_des StandardVariableSpecification_codec bs.
Proof.
  intros bs. cbn [c_des StandardVariableSpecification_codec].
  unfold StandardVariableSpecification_deserialize_field_run, StandardVariableSpecification_deserialize_field, bind, ret.
  destruct (get_u16 bs) as [[x b1]|]; reflexivity.
Qed.

Lemma get_ok k bs : (k <= length bs)%nat -> get_uint k bs = Ok (as_uint k (be_decode (firstn k bs)), skipn k bs).
Proof. intros H. unfold get_uint. rewrite (proj2 (Nat.leb_le _ _) H). reflexivity. Qed.
Lemma get_fail k bs : (length bs < k)%nat -> get_uint k bs = Panic Underflow.
Proof. intros H. unfold get_uint. rewrite (proj2 (Nat.leb_gt _ _) H). reflexivity. Qed.
Lemma be4_number bs i : (i + 4 <= length bs)%nat -> uval (as_uint 4 (be_decode (firstn 4 (skipn i bs)))) = be4_at bs i.
Proof.
  intros H. unfold be4_at, byte_at.
  assert (E : forall j, nth (i + j) bs (B 0) = nth j (skipn i bs) (B 0)).
  { clear. revert bs. induction i as [|i IH]; intros [|b bs] j; cbn [Nat.add nth skipn]; try reflexivity; try (destruct j; reflexivity). apply IH. }
  replace i with (i + 0)%nat at 2 by lia. rewrite !E.
  assert (L := skipn_length i bs). destruct (skipn i bs) as [|a [|b [|c [|d r]]]]; cbn [length] in L; try lia.
  cbn [firstn nth]. unfold be_decode. cbn [be_decode_acc].
  assert (Ha := uint_lt _ a). assert (Hb := uint_lt _ b). assert (Hc := uint_lt _ c). assert (Hd := uint_lt _ d).
  change (256 ^ N.of_nat 1) with 256 in *. rewrite as_uint_val by (change (256 ^ N.of_nat 4) with 4294967296; lia). lia.
Qed.
Lemma be2_number bs : (2 <= length bs)%nat -> uval (as_uint 2 (be_decode (firstn 2 bs))) = be2_at bs 0.
Proof.
  intros H. unfold be2_at, byte_at. destruct bs as [|a [|b r]]; cbn [length] in H; try lia.
  cbn [firstn nth Nat.add]. unfold be_decode. cbn [be_decode_acc].
  assert (Ha := uint_lt _ a). assert (Hb := uint_lt _ b).
  change (256 ^ N.of_nat 1) with 256 in *. rewrite as_uint_val by (change (256 ^ N.of_nat 2) with 65536; lia). lia.
Qed.
Lemma bytes_count_val x : VariableDatumRecord_bytes_count x = (uval x + 7) / 8.
Proof. unfold VariableDatumRecord_bytes_count. destruct (N.eqb_spec (uval x mod 8) 0); lia. Qed.
Lemma repeat_read_least A (r : reader A) k : (forall bs x rest, r bs = Ok (x, rest) -> (k + length rest <= length bs)%nat) ->
  forall n bs l rest, repeat_read n r bs = Ok (l, rest) -> (n * k + length rest <= length bs)%nat.
Proof.
  intros H n. induction n as [|n IH]; intros bs l rest; cbn [repeat_read].
  - intros [= <- <-]. lia.
  - unfold bind, ret. destruct (r bs) as [[x b]|] eqn:E; [|discriminate]. destruct (repeat_read n r b) as [[xs b']|] eqn:E'; [|discriminate].
    intros [= _ <-]. apply H in E. apply IH in E'. lia.
Qed.
Lemma get_least k bs x rest : get_uint k bs = Ok (x, rest) -> (length bs = k + length rest)%nat.
Proof.
  unfold get_uint. destruct (Nat.leb_spec k (length bs)) as [H|H]; [|discriminate]. intros E. injection E as _ <-. rewrite skipn_length. lia.
Qed.
Lemma svr_least bs x rest : c_des StandardVariableRecords_codec bs = Ok (x, rest) -> (6 + length rest <= length bs)%nat.
Proof.
  cbn [c_des StandardVariableRecords_codec]. unfold StandardVariableRecords_deserialize, bind, ret, get_u32, get_u16.
  destruct (get_uint 4 bs) as [[a b1]|] eqn:E1; [|discriminate]. destruct (get_uint 2 b1) as [[n b2]|] eqn:E2; [|discriminate].
  destruct (repeat_read _ _ b2) as [[l b3]|] eqn:E3; [|discriminate]. intros [= _ <-].
  apply get_least in E1. apply get_least in E2.
  apply (repeat_read_least _ get_u8 0) in E3; [lia|]. intros z y r G. apply get_least in G. lia.
Qed.

(** A variable datum asks for the number of bytes its length field announces, at most
    512 MiB; a decoding that succeeds asked for no more than it consumed, and returns twice as
    many bytes. *)
Theorem C68_datum_request : forall bs,
  requested (VariableDatumRecord_deserialize_run bs) <= 2 ^ 29 /\
  ((8 <= length bs)%nat -> requested (VariableDatumRecord_deserialize_run bs) = (be4_at bs 4 + 7) / 8) /\
  (forall v rest, VariableDatumRecord_deserialize bs = Ok (v, rest) ->
     lenN bs = 8 + requested (VariableDatumRecord_deserialize_run bs) + lenN rest /\
     lenN (VariableDatumRecord_value v) = 2 * requested (VariableDatumRecord_deserialize_run bs)).
Proof.
  intros bs. rewrite <- C68_datum_same. unfold VariableDatumRecord_deserialize_run, get_u32.
  destruct (Nat.ltb_spec (length bs) 4) as [H|H].
  { rewrite get_fail by exact H. cbn [requested outcome_of]. split; [discriminate|]. split; [lia | discriminate]. }
  rewrite (get_ok 4 bs) by lia.
  destruct (Nat.ltb_spec (length bs) 8) as [H8|H8].
  { rewrite get_fail by (rewrite skipn_length; lia). cbn [requested outcome_of]. split; [discriminate|]. split; [lia | discriminate]. }
  rewrite (get_ok 4 (skipn 4 bs)) by (rewrite skipn_length; lia). cbv zeta. cbn [requested outcome_of].
  rewrite bytes_count_val, be4_number by lia. set (n := (be4_at bs 4 + 7) / 8).
  assert (Hn : n <= 2 ^ 29).
  { unfold n. rewrite <- be4_number by lia. assert (U := uint_lt _ (as_uint 4 (be_decode (firstn 4 (skipn 4 bs))))).
    change (256 ^ N.of_nat 4) with 4294967296 in U. change (2 ^ 29) with 536870912. lia. }
  split; [exact Hn|]. split; [reflexivity|]. intros v rest D.
  destruct (repeat_read _ _ _) as [[pushed b3]|] eqn:E; [|discriminate D]. injection D as <- <-.
  cbn [VariableDatumRecord_value]. assert (L := repeat_read_length _ _ _ _ _ _ E).
  assert (X : (N.to_nat n + length b3 = length (skipn 4 (skipn 4 bs)))%nat).
  { clear L. revert E. generalize (skipn 4 (skipn 4 bs)) as z. revert pushed. generalize (N.to_nat n) as k. clear. induction k as [|k IH]; intros pushed z; cbn [repeat_read].
    - intros [= _ <-]. reflexivity.
    - unfold bind, ret. destruct (get_u8 z) as [[x b]|] eqn:G; [|discriminate]. destruct (repeat_read k get_u8 b) as [[xs b']|] eqn:G'; [|discriminate].
      intros [= _ <-]. apply get_least in G. apply IH in G'. lia. }
  rewrite !skipn_length in X. assert (L' : @length byte pushed = N.to_nat n) by exact L.
  unfold lenN, zero_bytes. split; [lia|]. change (@length u8) with (@length byte). rewrite app_length, repeat_length.
  assert (L2 : @length u8 pushed = @length byte pushed) by reflexivity. lia.
Qed.
Lemma datum_short bs : (8 <= length bs)%nat -> lenN bs < 8 + (be4_at bs 4 + 7) / 8 -> VariableDatumRecord_deserialize bs = Panic Underflow.
Proof.
  intros H L. rewrite <- C68_datum_same. unfold VariableDatumRecord_deserialize_run, get_u32.
  rewrite (get_ok 4 bs) by lia. rewrite (get_ok 4 (skipn 4 bs)) by (rewrite skipn_length; lia). cbv zeta. cbn [outcome_of].
  rewrite bytes_count_val, be4_number by lia.
  rewrite repeat_get_u8_short; [reflexivity|]. rewrite !skipn_length. unfold lenN in L. lia.
Qed.
(** It is not so for a decoding that fails: eight bytes request 512 MiB, and then the decoder
    panics. *)
Theorem C68_bounded_by_input_refuted : exists bs, lenN bs = 8 /\
  requested (VariableDatumRecord_deserialize_run bs) = 2 ^ 29 /\ VariableDatumRecord_deserialize bs = Panic Underflow.
Proof.
  exists (map B [0; 0; 0; 1; 255; 255; 255; 255]). split; [reflexivity|].
  destruct (C68_datum_request (map B [0; 0; 0; 1; 255; 255; 255; 255])) as [_ [R _]].
  split; [rewrite R; [reflexivity | cbn; lia]|]. apply datum_short; [cbn; lia | vm_compute; reflexivity].
Qed.
(** A standard variable specification asks for as many records as announced, at most 65535;
    a decoding that succeeds read six bytes or more for each. *)
Theorem C68_specification_request : forall bs,
  requested (StandardVariableSpecification_deserialize_field_run bs) <= 65535 /\
  ((2 <= length bs)%nat -> requested (StandardVariableSpecification_deserialize_field_run bs) = be2_at bs 0) /\
  (forall v rest, c_des StandardVariableSpecification_codec bs = Ok (v, rest) ->
     lenN (StandardVariableSpecification_standard_variable_records v) = requested (StandardVariableSpecification_deserialize_field_run bs) /\
     2 + 6 * requested (StandardVariableSpecification_deserialize_field_run bs) + lenN rest <= lenN bs).
Proof.
  intros bs. rewrite <- C68_specification_same. unfold StandardVariableSpecification_deserialize_field_run, get_u16.
  destruct (Nat.ltb_spec (length bs) 2) as [H|H].
  { rewrite get_fail by exact H. cbn [requested outcome_of]. split; [discriminate|]. split; [lia | discriminate]. }
  rewrite (get_ok 2 bs) by lia. cbn [requested outcome_of]. set (n := as_uint 2 (be_decode (firstn 2 bs))).
  assert (U := uint_lt _ n). change (256 ^ N.of_nat 2) with 65536 in U.
  split; [lia|]. split; [intros _; apply be2_number, H|]. intros v rest D.
  destruct (repeat_read _ _ _) as [[l b]|] eqn:E; [|discriminate D]. injection D as <- <-.
  cbn [StandardVariableSpecification_standard_variable_records]. assert (L := repeat_read_length _ _ _ _ _ _ E).
  assert (X := repeat_read_least _ _ 6 (fun bs x rest => svr_least bs x rest) _ _ _ _ E). rewrite skipn_length in X.
  unfold lenN. lia.
Qed.

(** Both requests with concrete bytes: a datum of 20 bits that is there, and a specification
    that announces 1000 records and has none. *)
Example C68_example :
  requested (VariableDatumRecord_deserialize_run (map B [0; 0; 0; 1; 0; 0; 0; 20; 7; 8; 9])) = 3 /\
  requested (StandardVariableSpecification_deserialize_field_run (map B [3; 232])) = 1000.
Proof. split; vm_compute; reflexivity. Qed.

Definition Prop_Memory_theorems : True :=
  let _ := @C68_datum_same in
  let _ := @C68_specification_same in
  let _ := @C68_datum_request in
  let _ := @C68_bounded_by_input_refuted in
  let _ := @C68_specification_request in
  I.
Print Assumptions Prop_Memory_theorems.
