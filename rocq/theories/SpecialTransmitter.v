(** * Decoding the irregular parts of transmitters (proofs only). *)
From Verif Require Import Base BaseFacts EnumModel Enums EnumFacts Fixed Header HeaderFacts PduMacro PduMacroFacts
  DataTypes DataTypesFacts Bitflags BitflagsFacts Pdus PduFields Spec Wire RecordFacts PdusFacts ClassFacts PduProofs
  SpecDatum DatumFacts SpecSpecial SpecialFacts.

Ltac open_fields := cbn [body_deserialize]; unfold field_deserialize; cbn [plain u8_field len_field f_len_attr f_codec c_des vec_codec option_codec].

(** Transmitter: modulation_parameter_length and what follows. *)
Definition tx_tail : list field := skipn 16 (cls_fields TransmitterPdu).
Definition tx_names : list string := ["modulation_parameters"; "antenna_pattern"; "variable_transmitter_parameters"]%string.
Lemma tx_prefix : exists tl rb nm ev, prefix tx_names (cls_fields TransmitterPdu) tx_tail 88 tl rb nm ev /\
  (forall v w, tl (rb v w) = w) /\
  (forall v, tl v = snd (snd (snd (snd (snd (snd (snd (snd (snd (snd (snd (snd (snd (snd (snd (snd v)))))))))))))))) /\
  (forall v e, ev v e = e).
Proof.
  do 4 eexists. split; [unfold tx_tail, TransmitterPdu; cbn [cls_fields skipn];
    change 88%nat with (6 + (2 + (8 + (1 + (1 + (2 + (24 + (12 + (2 + (2 + (8 + (4 + (4 + (8 + (2 + (2 + 0))))))))))))))))%nat; px|].
  cbv beta. split; [|split]; reflexivity.
Qed.
Lemma mod_params_des k (bs : bytes) : 0 < k < 256 -> (N.to_nat k <= length bs)%nat ->
  option_deserialize_with_len ModulationParameters_deserialize_with_len k bs =
  Ok (Some (mk_ModulationParameters (firstn (N.to_nat k) bs)), skipn (N.to_nat k) bs).
Proof.
  intros K L. unfold option_deserialize_with_len. destruct (N.eqb_spec k 0) as [|_]; [lia|].
  unfold ModulationParameters_deserialize_with_len, try_uint. change (256 ^ N.of_nat 1) with 256.
  destruct (N.ltb_spec k 256) as [_|]; [|lia]. unfold ModulationParameters_deserialize. rewrite as_uint_val by (cbn; lia).
  destruct (N.eqb_spec k 0) as [|_]; [lia|]. unfold bind, ret. rewrite (repeat_get_u8_n _ bs L). reflexivity.
Qed.
Lemma mod_params_short k (bs : bytes) : k < 256 -> (length bs < N.to_nat k)%nat ->
  option_deserialize_with_len ModulationParameters_deserialize_with_len k bs = Panic Underflow.
Proof.
  intros K L. unfold option_deserialize_with_len. destruct (N.eqb_spec k 0) as [|_]; [lia|].
  unfold ModulationParameters_deserialize_with_len, try_uint. change (256 ^ N.of_nat 1) with 256.
  destruct (N.ltb_spec k 256) as [_|]; [|lia]. unfold ModulationParameters_deserialize. rewrite as_uint_val by (cbn; lia).
  destruct (N.eqb_spec k 0) as [|_]; [lia|]. unfold bind, ret. rewrite (repeat_get_u8_short _ bs L). reflexivity.
Qed.
Lemma tx_tail_decode env (b pad : byte) (bs : bytes) : (2 <= length bs)%nat ->
  exists pad2 : u16, uval pad2 = be_decode (firstn 2 bs) /\
  body_deserialize env tx_tail (b :: pad :: bs) =
  match option_deserialize_with_len ModulationParameters_deserialize_with_len (uval b) (skipn 2 bs) with
  | Ok (mp, r) => Ok ((b, (pad, (pad2, (mp, (None, ([], tt)))))), r)
  | Panic e => Panic e
  end.
Proof.
  intros L. destruct (put_get_uint 2 bs L) as [n [D [_ U]]]. exists n. split; [exact U|].
  unfold tx_tail. cbn [cls_fields TransmitterPdu skipn].
  refine (eq_trans (des_cons _ (u8_field "modulation_parameter_length") _ _ b (pad :: bs) (get_u8_cons b _)) _).
  refine (eq_trans (f_equal _ (des_cons _ (u8_field "padding") _ _ pad bs (get_u8_cons pad _))) _).
  refine (eq_trans (f_equal _ (f_equal _ (des_cons _ (plain "padding2" u16_codec (as_uint 2 0)) _ _ n (skipn 2 bs) D))) _).
  cbn [body_deserialize]. unfold bind at 1.
  match goal with |- context [field_deserialize ?e (len_field ?a ?c ?d ?l ?r) (skipn 2 bs)] =>
    change (field_deserialize e (len_field a c d l r) (skipn 2 bs)) with
      (option_deserialize_with_len ModulationParameters_deserialize_with_len (uval b) (skipn 2 bs)) end.
  destruct (option_deserialize_with_len _ _ _) as [[mp r]|e]; reflexivity.
Qed.
Lemma tx_tail_short env (bs : bytes) : (length bs < 4)%nat -> body_deserialize env tx_tail bs = Panic Underflow.
Proof.
  intros L. unfold tx_tail. cbn [cls_fields TransmitterPdu skipn].
  destruct bs as [|b [|pad bs]]; [reflexivity | |].
  - refine (eq_trans (des_cons _ (u8_field "modulation_parameter_length") _ _ b _ (get_u8_cons b _)) _). reflexivity.
  - refine (eq_trans (des_cons _ (u8_field "modulation_parameter_length") _ _ b (pad :: bs) (get_u8_cons b _)) _).
    refine (eq_trans (f_equal _ (des_cons _ (u8_field "padding") _ _ pad bs (get_u8_cons pad _))) _).
    refine (eq_trans (f_equal _ (f_equal _ (des_cons_panic _ (plain "padding2" u16_codec (as_uint 2 0)) _ _ _ (get_uint_short 2 bs _)))) _); [cbn in *; lia | reflexivity].
Qed.

(** The encoding of the tail, when the length byte is the one [serialize] computes. *)
Definition mod_bytes (o : option ModulationParameters) : bytes :=
  match o with Some x => ModulationParameters_record_specific_fields x | None => [] end.
Lemma tx_tail_encode (v : values tx_tail) b : body_serialize tx_tail v = Ok b ->
  exists b', b = put_u8 (fst v) ++ put_u8 (fst (snd v)) ++ put_u16 (fst (snd (snd v))) ++ mod_bytes (fst (snd (snd (snd v)))) ++ b'.
Proof.
  unfold tx_tail. cbn [cls_fields TransmitterPdu skipn]. intros H.
  change (wapp (Ok (put_u8 (fst v))) (wapp (Ok (put_u8 (fst (snd v)))) (wapp (Ok (put_u16 (fst (snd (snd v)))))
    (wapp (c_ser (option_codec ModulationParameters_codec) (fst (snd (snd (snd v)))))
    (wapp (c_ser (option_codec AntennaPattern_codec) (fst (snd (snd (snd (snd v))))))
    (wapp (c_ser (vec_codec VariableTransmitterParameters_codec) (fst (snd (snd (snd (snd (snd v))))))) (Ok [])))))) = Ok b) in H.
  apply wapp_ok in H as [l1 [r1 [E1 [H ->]]]]. apply wapp_ok in H as [l2 [r2 [E2 [H ->]]]]. apply wapp_ok in H as [l3 [r3 [E3 [H ->]]]].
  apply wapp_ok in H as [l4 [r4 [E4 [H ->]]]].
  apply (f_equal (fun o => match o with Ok x => x | Panic _ => [] end)) in E1, E2, E3, E4. cbv beta iota in E1, E2, E3. exists r4.
  rewrite <- E1, <- E2, <- E3, <- E4. do 4 f_equal.
  cbn [option_codec c_ser ModulationParameters_codec]. destruct (fst (snd (snd (snd v)))) as [x|]; [|reflexivity].
  cbn [mod_bytes]. unfold ModulationParameters_serialize. apply concat_put_u8.
Qed.
