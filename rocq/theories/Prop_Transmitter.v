(** * Transmitters (C29). Vocabulary in [Spec], [SpecSpecial]. *)
From Verif Require Import Base BaseFacts EnumModel Enums EnumFacts Fixed Header HeaderFacts PduMacro PduMacroFacts
  DataTypes DataTypesFacts Bitflags BitflagsFacts Pdus PduFields Spec Wire RecordFacts PdusFacts ClassFacts PduProofs
  SpecDatum DatumFacts SpecSpecial SpecialFacts SpecialExtent SpecialTransmitter.

(** The modulation parameter bytes of a transmitter (none if absent). *)
Definition modulation_bytes (p : pdu TransmitterPdu) : bytes :=
  match TransmitterPdu_modulation_parameters p with
  | Some x => ModulationParameters_record_specific_fields x
  | None => []
  end.

Lemma tx_prep_mpl (v : values (cls_fields TransmitterPdu)) h h' :
  TransmitterPdu_modulation_parameter_length (mk_pdu h (prep_body (cls_fields TransmitterPdu) v)) =
  len_byte (c_len (option_codec ModulationParameters_codec) (TransmitterPdu_modulation_parameters (mk_pdu h' v))).
Proof. reflexivity. Qed.
Lemma tx_prep_mp (v : values (cls_fields TransmitterPdu)) h h' :
  TransmitterPdu_modulation_parameters (mk_pdu h (prep_body (cls_fields TransmitterPdu) v)) = TransmitterPdu_modulation_parameters (mk_pdu h' v).
Proof. reflexivity. Qed.
Lemma mod_len o : c_len (option_codec ModulationParameters_codec) o = lenN (mod_bytes o).
Proof. destruct o as [x|]; [|reflexivity]. cbn [option_codec c_len ModulationParameters_codec]. apply vec_u8_len. Qed.
Lemma len_byte_val n : uval (len_byte n) = if n <? 256 then n else 0.
Proof.
  unfold len_byte, try_uint. change (256 ^ N.of_nat 1) with 256. destruct (N.ltb_spec n 256); [|reflexivity].
  apply as_uint_val. cbn. lia.
Qed.

(** [serialize] stores the number of modulation parameter bytes, or 0 if there are more than
    255; the parameters are unchanged. *)
Theorem C29_length_stored : forall p buf p' out,
  serialize TransmitterPdu p buf = Ok (ROk tt, p', buf ++ out) ->
  TransmitterPdu_modulation_parameters p' = TransmitterPdu_modulation_parameters p /\
  uval (TransmitterPdu_modulation_parameter_length p') =
    (if N.of_nat (length (modulation_bytes p)) <=? 255 then N.of_nat (length (modulation_bytes p)) else 0).
Proof.
  intros p buf p' out S. destruct (serialize_ok _ _ _ _ _ S) as [_ [_ [_ [_ [E _]]]]].
  destruct p' as [h' b'], p as [h b]. cbn [body] in E. subst b'. split; [apply tx_prep_mp|].
  rewrite (tx_prep_mpl b h' h), mod_len, len_byte_val. unfold modulation_bytes, lenN.
  set (o := TransmitterPdu_modulation_parameters _). change (mod_bytes o) with (match o with Some x => ModulationParameters_record_specific_fields x | None => [] end).
  set (k := N.of_nat _). clearbody k. destruct (N.ltb_spec k 256), (N.leb_spec k 255); lia.
Qed.

Lemma mod_params_none k bs : k = 0 -> option_deserialize_with_len ModulationParameters_deserialize_with_len k bs = Ok (None, bs).
Proof. intros ->. reflexivity. Qed.
Lemma tx_fields h (v : values (cls_fields TransmitterPdu)) (b pad : u8) (pad2 : u16) mp ap vt :
  snd (snd (snd (snd (snd (snd (snd (snd (snd (snd (snd (snd (snd (snd (snd (snd v))))))))))))))) = (b, (pad, (pad2, (mp, (ap, (vt, tt)))))) ->
  TransmitterPdu_modulation_parameter_length (mk_pdu h v) = b /\ TransmitterPdu_modulation_parameters (mk_pdu h v) = mp /\
  TransmitterPdu_antenna_pattern (mk_pdu h v) = ap /\ TransmitterPdu_variable_transmitter_parameters (mk_pdu h v) = vt.
Proof.
  intros W. split; [exact (f_equal (fun t : values tx_tail => fst t) W)|].
  split; [exact (f_equal (fun t : values tx_tail => fst (snd (snd (snd t)))) W)|].
  split; [exact (f_equal (fun t : values tx_tail => fst (snd (snd (snd (snd t))))) W)|].
  exact (f_equal (fun t : values tx_tail => fst (snd (snd (snd (snd (snd t)))))) W).
Qed.
Lemma skipn_cons (bs : bytes) n : (n < length bs)%nat -> exists b, skipn n bs = b :: skipn (S n) bs /\ uval b = byte_at bs n.
Proof.
  revert n. induction bs as [|x bs IH]; intros [|n] L; cbn in L; try lia.
  - exists x. split; reflexivity.
  - destruct (IH n) as [b [E U]]; [lia|]. exists b. split; [exact E | exact U].
Qed.
Lemma skipn_4 (a b c x : bytes) : length a = 1%nat -> length b = 1%nat -> length c = 2%nat -> skipn 4 (a ++ b ++ c ++ x) = x.
Proof. destruct a as [|? [|]]; try discriminate. destruct b as [|? [|]]; try discriminate. destruct c as [|? [|? [|]]]; try discriminate. reflexivity. Qed.
Lemma tx_reset (w : values tx_tail) mp :
  reset_fields tx_names tx_tail (fst w, (fst (snd w), (fst (snd (snd w)), (mp, (None, ([], tt)))))) = reset_fields tx_names tx_tail w.
Proof. destruct w as [a [b [c [d [e [f []]]]]]]. reflexivity. Qed.
Lemma tx_tail_at env bs : (104 <= length bs)%nat -> exists (b pad : u8) pad2, uval b = byte_at bs 100 /\
  body_deserialize env tx_tail (skipn 100 bs) =
  match option_deserialize_with_len ModulationParameters_deserialize_with_len (uval b) (skipn 104 bs) with
  | Ok (mp, r) => Ok ((b, (pad, (pad2, (mp, (None, ([], tt)))))), r)
  | Panic e => Panic e
  end.
Proof.
  intros L. destruct (skipn_cons bs 100) as [b [E U]]; [lia|]. destruct (skipn_cons bs 101) as [pad [E2 _]]; [lia|].
  destruct (tx_tail_decode env b pad (skipn 102 bs)) as [pad2 [_ D]]; [rewrite skipn_length; lia|].
  exists b, pad, pad2. split; [exact U|]. rewrite E, E2. rewrite skipn_add in D. exact D.
Qed.
Lemma tx_tail_decode_put env (b pad : u8) (pad2 : u16) (bs : bytes) :
  body_deserialize env tx_tail (b :: pad :: put_u16 pad2 ++ bs) =
  match option_deserialize_with_len ModulationParameters_deserialize_with_len (uval b) bs with
  | Ok (mp, r) => Ok ((b, (pad, (pad2, (mp, (None, ([], tt)))))), r)
  | Panic e => Panic e
  end.
Proof.
  assert (Y3 : length (put_u16 pad2) = 2%nat) by apply put_uint_length.
  destruct (tx_tail_decode env b pad (put_u16 pad2 ++ bs)) as [x [U D]]; [rewrite app_length; lia|].
  rewrite firstn_app, firstn_all2, Y3 in U by lia. cbn [Nat.sub firstn] in U. rewrite app_nil_r in U.
  assert (X : x = pad2).
  { apply uint_eq. rewrite U. destruct (put_get_uint 2 (put_u16 pad2)) as [y [G [_ V]]]; [lia|].
    rewrite firstn_all2 in V by lia. rewrite <- V. f_equal.
    assert (G' : get_uint 2 (put_u16 pad2 ++ []) = Ok (pad2, [])) by apply get_put_uint. rewrite app_nil_r in G'. congruence. }
  subst x. refine (eq_trans D _). rewrite skipn_app, skipn_all2, Y3 by lia. reflexivity.
Qed.

(** Decoding any datagram of type 25: the fixed part ends at byte 104, byte 100 says how many
    modulation parameter bytes follow; the antenna pattern and the variable parameters are
    never read. *)
Theorem C29_transmitter_decode : forall bs, wire_type bs = 25 ->
  let n := N.to_nat (byte_at bs 100) in
  ((length bs < 104 + n)%nat -> deserialize TransmitterPdu bs = Panic Underflow) /\
  ((104 + n <= length bs)%nat -> exists p, deserialize TransmitterPdu bs = Ok (ROk p, skipn (104 + n) bs) /\
     uval (TransmitterPdu_modulation_parameter_length p) = byte_at bs 100 /\
     (n = 0%nat -> TransmitterPdu_modulation_parameters p = None) /\
     (n <> 0%nat -> TransmitterPdu_modulation_parameters p = Some (mk_ModulationParameters (firstn n (skipn 104 bs)))) /\
     TransmitterPdu_antenna_pattern p = None /\ TransmitterPdu_variable_transmitter_parameters p = []).
Proof.
  intros bs T n. destruct tx_prefix as [tl [rb [nm [ev [P [Hrb [Htl Hev]]]]]]].
  destruct (Nat.lt_ge_cases (length bs) 100) as [K|K].
  { split; [intros _ | unfold n; lia]. apply (special_short _ _ _ _ _ _ _ _ P); [exact K | exact T]. }
  destruct (special_deserialize _ _ _ _ _ _ _ _ P bs K T) as [h [v [_ D]]]. change (12 + 88)%nat with 100%nat in D.
  destruct (Nat.lt_ge_cases (length bs) 104) as [K4|K4].
  { split; [intros _ | lia]. rewrite D, tx_tail_short; [reflexivity|]. rewrite skipn_length; lia. }
  destruct (tx_tail_at (ev v []) bs K4) as [b [pad [pad2 [U E]]]]. rewrite E in D. fold n in U.
  assert (B := uint_lt 1 b). change (256 ^ N.of_nat 1) with 256 in B.
  assert (Ln : length (skipn 104 bs) = (length bs - 104)%nat) by apply skipn_length. split; intros L.
  - rewrite mod_params_short in D; [exact D | exact B |]. rewrite U, Ln. fold n. lia.
  - destruct (N.eqb_spec (uval b) 0) as [Z|Z].
    + assert (N0 : n = 0%nat) by (unfold n; rewrite <- U, Z; reflexivity).
      rewrite mod_params_none in D by exact Z.
      exists (mk_pdu h (rb v (b, (pad, (pad2, (None, (None, ([], tt)))))))). rewrite N0. split; [exact D|].
      assert (W := Hrb v (b, (pad, (pad2, (None, (None, ([], tt))))))). rewrite Htl in W.
      destruct (tx_fields h _ _ _ _ _ _ _ W) as [-> [-> [-> ->]]].
      split; [exact U|]. split; [reflexivity|]. split; [congruence|]. split; reflexivity.
    + rewrite mod_params_des in D; [|lia | rewrite U, Ln; fold n; lia].
      rewrite U in D. fold n in D. rewrite skipn_add in D. replace (n + 104)%nat with (104 + n)%nat in D by lia.
      eexists. split; [exact D|].
      assert (W := Hrb v (b, (pad, (pad2, (Some (mk_ModulationParameters (firstn n (skipn 104 bs))), (None, ([], tt))))))). rewrite Htl in W.
      destruct (tx_fields h _ _ _ _ _ _ _ W) as [-> [-> [-> ->]]].
      split; [exact U|]. split; [intros N0; exfalso; apply Z; rewrite U; unfold n in N0; lia|]. split; [reflexivity|]. split; reflexivity.
Qed.

(** Decoding what was encoded: modulation parameters of 1 to 255 bytes are recovered, empty
    ones become absent, longer ones are lost, and so are the antenna pattern and the variable
    transmitter parameters. *)
Theorem C29_transmitter_roundtrip : forall p buf p' out rest,
  serialize TransmitterPdu p buf = Ok (ROk tt, p', buf ++ out) ->
  let n := length (modulation_bytes p) in
  let read := if Nat.leb n 255 then n else 0%nat in
  exists q, deserialize TransmitterPdu (out ++ rest) = Ok (ROk q, skipn (104 + read) (out ++ rest)) /\
    same_except ["modulation_parameters"; "antenna_pattern"; "variable_transmitter_parameters"]%string q p' /\
    ((1 <= n <= 255)%nat -> TransmitterPdu_modulation_parameters q = TransmitterPdu_modulation_parameters p) /\
    (~ (1 <= n <= 255)%nat -> TransmitterPdu_modulation_parameters q = None) /\
    TransmitterPdu_antenna_pattern q = None /\ TransmitterPdu_variable_transmitter_parameters q = [].
Proof.
  intros p buf p' out rest S n read. destruct tx_prefix as [tl [rb [nm [ev [P [Hrb [Htl Hev]]]]]]].
  destruct (C29_length_stored _ _ _ _ S) as [Emp Eml]. fold n in Eml.
  assert (R : uval (TransmitterPdu_modulation_parameter_length p') = N.of_nat read).
  { rewrite Eml. unfold read. destruct (Nat.leb_spec n 255), (N.leb_spec (N.of_nat n) 255); lia. }
  destruct (special_serialize _ _ _ _ _ _ _ _ _ _ _ _ P S) as [b2 [B2 [K2 [L2 [_ D]]]]]. specialize (D rest).
  change (12 + 88)%nat with 100%nat in *. rewrite Htl in B2.
  destruct (tx_tail_encode _ _ B2) as [b3 E3].
  set (b := TransmitterPdu_modulation_parameter_length p') in *.
  set (pad := TransmitterPdu_padding p'). set (pad2 := TransmitterPdu_padding2 p').
  assert (E3' : b2 = put_u8 b ++ put_u8 pad ++ put_u16 pad2 ++ modulation_bytes p' ++ b3) by exact E3. clear E3 B2.
  assert (Mp : modulation_bytes p' = modulation_bytes p) by (unfold modulation_bytes; rewrite Emp; reflexivity). rewrite Mp in E3'.
  assert (E : body_deserialize (ev (nm (body p')) []) tx_tail (b2 ++ rest) =
     match option_deserialize_with_len ModulationParameters_deserialize_with_len (uval b) (modulation_bytes p ++ b3 ++ rest) with
     | Ok (mp, r) => Ok ((b, (pad, (pad2, (mp, (None, ([], tt)))))), r)
     | Panic e => Panic e
     end).
  { rewrite E3', !put_u8_single. rewrite <- !app_assoc. cbn [app]. apply tx_tail_decode_put. }
  rewrite E in D. clear E.
  assert (X1 : (length b2 = length out - 100)%nat) by (rewrite <- K2; apply skipn_length).
  assert (X2 : (length b2 = 4 + n + length b3)%nat).
  { assert (X2 := f_equal (@length byte) E3'). rewrite !app_length in X2. rewrite X2. unfold n.
    assert (Y1 : length (put_u8 b) = 1%nat) by apply put_uint_length. assert (Y2 : length (put_u8 pad) = 1%nat) by apply put_uint_length.
    assert (Y3 : length (put_u16 pad2) = 2%nat) by apply put_uint_length. lia. }
  assert (Sk : forall k, (k <= n + length b3)%nat -> skipn (104 + k) (out ++ rest) = skipn k (modulation_bytes p ++ b3 ++ rest)).
  { intros k Hk. replace (104 + k)%nat with (k + (4 + 100))%nat by lia. rewrite <- skipn_add, <- skipn_add. f_equal.
    rewrite skipn_app, K2. replace (100 - length out)%nat with 0%nat by lia. cbn [skipn].
    rewrite E3', <- !app_assoc. apply skipn_4; apply put_uint_length. }
  assert (Fin : forall mp, reset_fields tx_names (cls_fields TransmitterPdu) (rb (nm (body p')) (b, (pad, (pad2, (mp, (None, ([], tt))))))) =
     reset_fields tx_names (cls_fields TransmitterPdu) (body p')).
  { intros mp. apply (keeps_reset_tail _ _ _ _ _ _ _ _ P). rewrite Htl.
    exact (tx_reset _ mp). }
  destruct (Nat.eq_dec read 0) as [R0|R0].
  - assert (Z : uval b = 0) by (rewrite R, R0; reflexivity). rewrite mod_params_none in D by exact Z.
    eexists. split; [rewrite R0, Sk by lia; exact D|].
    assert (W := Hrb (nm (body p')) (b, (pad, (pad2, (None, (None, ([], tt))))))). rewrite Htl in W.
    destruct (tx_fields (header p') _ _ _ _ _ _ _ W) as [_ [-> [-> ->]]].
    split; [split; [reflexivity | apply Fin]|]. split; [|auto].
    unfold read in R0. destruct (Nat.leb_spec n 255); lia.
  - assert (Rn : read = n /\ (1 <= n <= 255)%nat) by (unfold read in *; destruct (Nat.leb_spec n 255); lia). destruct Rn as [Rn Ln].
    rewrite R in D. rewrite mod_params_des in D; [| lia |].
    2:{ rewrite Nat2N.id, Rn, app_length. unfold n. lia. }
    rewrite Nat2N.id, Rn in D. unfold n in D. rewrite firstn_app, firstn_all, Nat.sub_diag, firstn_O, app_nil_r in D.
    eexists. split; [rewrite Rn, Sk by lia; exact D|].
    match type of D with _ = Ok (ROk (mk_pdu _ (rb _ ?w)), _) => assert (W := Hrb (nm (body p')) w) end. rewrite Htl in W.
    destruct (tx_fields (header p') _ _ _ _ _ _ _ W) as [_ [-> [-> ->]]].
    split; [split; [reflexivity | apply Fin]|]. split; [|split; [lia | auto]].
    intros _. unfold n, modulation_bytes in *. destruct (TransmitterPdu_modulation_parameters p) as [[x]|]; [reflexivity | cbn in Ln; lia].
Qed.
(** A datagram of type 25 announcing three modulation parameter bytes, with one byte left over. *)
Definition transmitter_bytes : bytes :=
  map B ([7; 1; 25; 4] ++ repeat 0 96 ++ [3; 0; 0; 0] ++ [1; 2; 3] ++ [9]).
Example C29_example : wire_type transmitter_bytes = 25 /\
  match deserialize TransmitterPdu transmitter_bytes with
  | Ok (ROk p, rest) => Some (map uval (modulation_bytes p), map uval rest) | _ => None end = Some ([1; 2; 3], [9]).
Proof. split; vm_compute; reflexivity. Qed.

(** What the theorems above rest on (one traversal for all of them; not part of the model). *)
Definition Prop_Transmitter_theorems : True :=
  let _ := @C29_length_stored in
  let _ := @C29_transmitter_decode in
  let _ := @C29_transmitter_roundtrip in
  I.
Print Assumptions Prop_Transmitter_theorems.
