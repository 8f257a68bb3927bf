(** * Facts about the headers (proofs only). *)
From Verif Require Import Base BaseFacts EnumModel Enums EnumFacts Fixed Header.

Lemma PduHeader_fixed : fixed_rw 12 PduHeader_serialize PduHeader_deserialize.
Proof.
  split; [ intros v; unfold PduHeader_serialize; fx_expose; rewrite ?app_length; repeat fx_len1; reflexivity | split ].
  - intros v rest. unfold PduHeader_serialize, PduHeader_deserialize, sr_to_u8, sr_from_u8. fx_expose. rewrite <- ?app_assoc.
    repeat fx_read1. unfold ret. destruct v as [? ? ? ? ? ? [?] ?]. reflexivity.
  - eapply exact_eq; [unfold PduHeader_deserialize; fx_expose; fx_exact1 | reflexivity].
Qed.

Lemma LiveEntityPduHeader_fixed : fixed_rw 12 LiveEntityPduHeader_serialize LiveEntityPduHeader_deserialize.
Proof. fixed_tac LiveEntityPduHeader_serialize LiveEntityPduHeader_deserialize. Qed.

Lemma header_ser_length h : length (PduHeader_serialize h) = 12%nat.
Proof. apply PduHeader_fixed. Qed.
Lemma header_rt h rest : PduHeader_deserialize (PduHeader_serialize h ++ rest) = Ok (h, rest).
Proof. apply PduHeader_fixed. Qed.
Lemma header_short bs : (length bs < 12)%nat -> PduHeader_deserialize bs = Panic Underflow.
Proof. apply PduHeader_fixed. Qed.

Lemma enum_eqb_eq e (a b : enum e) : enum_eqb a b = true <-> a = b.
Proof.
  unfold enum_eqb. rewrite N.eqb_eq. split; [apply enum_eq | now intros ->].
Qed.
Lemma enum_eqb_refl e (a : enum e) : enum_eqb a a = true.
Proof. now apply enum_eqb_eq. Qed.
Lemma enum_eqb_neq e (a b : enum e) : a <> b -> enum_eqb a b = false.
Proof. intros H. destruct (enum_eqb a b) eqn:E; [|reflexivity]. apply enum_eqb_eq in E. contradiction. Qed.

(** Decoding an arbitrary byte where [enum_deserialize] reads one byte. *)
Definition known_or_default (e : enum_spec) (n : N) : N := if memb n (e_codes e) then n else e_default e.

Lemma enum_deserialize_byte e b bs : e_bytes e = 1%nat ->
  exists x, enum_deserialize e (b :: bs) = Ok (x, bs) /\ code x = known_or_default e (uval b).
Proof.
  intros H. destruct (enum_deserialize_spec e (b :: bs)) as [x [Hx Hc]].
  { rewrite H. cbn. lia. }
  rewrite H in Hx, Hc. cbn [skipn firstn] in *. exists x. split; [exact Hx|].
  rewrite Hc. cbn zeta. unfold known_or_default.
  replace (be_decode [b]) with (uval b); [reflexivity|].
  unfold be_decode. cbn [be_decode_acc]. lia.
Qed.

Lemma get_u16_cons a b bs : exists x, get_u16 (a :: b :: bs) = Ok (x, bs) /\ uval x = 256 * uval a + uval b.
Proof.
  destruct (put_get_uint 2 (a :: b :: bs)) as [u [Hu [_ Hv]]]; [cbn; lia|].
  exists u. split; [exact Hu|]. rewrite Hv. unfold be_decode. cbn [firstn be_decode_acc]. lia.
Qed.
Lemma get_u32_cons a b c d bs : exists x, get_u32 (a :: b :: c :: d :: bs) = Ok (x, bs) /\
  uval x = 256 * (256 * (256 * uval a + uval b) + uval c) + uval d.
Proof.
  destruct (put_get_uint 4 (a :: b :: c :: d :: bs)) as [u [Hu [_ Hv]]]; [cbn; lia|].
  exists u. split; [exact Hu|]. rewrite Hv. unfold be_decode. cbn [firstn be_decode_acc]. lia.
Qed.

(** The exact result of decoding twelve arbitrary bytes. *)
Lemma header_decode_bytes b0 b1 b2 b3 b4 b5 b6 b7 b8 b9 b10 b11 rest :
  exists h, PduHeader_deserialize ([b0; b1; b2; b3; b4; b5; b6; b7; b8; b9; b10; b11] ++ rest) = Ok (h, rest) /\
    code (protocol_version h) = known_or_default ProtocolVersion_spec (uval b0) /\
    exercise_id h = b1 /\
    code (pdu_type h) = known_or_default PduType_spec (uval b2) /\
    code (protocol_family h) = known_or_default ProtocolFamily_spec (uval b3) /\
    uval (timestamp h) = 256 * (256 * (256 * uval b4 + uval b5) + uval b6) + uval b7 /\
    uval (header_length h) = 256 * uval b8 + uval b9 /\
    status_byte (status_record h) = b10 /\
    header_padding h = b11.
Proof.
  cbn [app].
  destruct (enum_deserialize_byte ProtocolVersion_spec b0 (b1 :: b2 :: b3 :: b4 :: b5 :: b6 :: b7 :: b8 :: b9 :: b10 :: b11 :: rest) eq_refl) as [v [Hv Cv]].
  destruct (enum_deserialize_byte PduType_spec b2 (b3 :: b4 :: b5 :: b6 :: b7 :: b8 :: b9 :: b10 :: b11 :: rest) eq_refl) as [t [Ht Ct]].
  destruct (enum_deserialize_byte ProtocolFamily_spec b3 (b4 :: b5 :: b6 :: b7 :: b8 :: b9 :: b10 :: b11 :: rest) eq_refl) as [f [Hf Cf]].
  destruct (get_u32_cons b4 b5 b6 b7 (b8 :: b9 :: b10 :: b11 :: rest)) as [ts [Hts Vts]].
  destruct (get_u16_cons b8 b9 (b10 :: b11 :: rest)) as [len [Hlen Vlen]].
  exists (mk_PduHeader v b1 t f ts len (mk_status b10) b11). split.
  - unfold PduHeader_deserialize.
    rewrite (bind_ok _ _ _ _ _ _ _ Hv), (bind_ok _ _ _ _ _ _ _ (get_u8_cons _ _)),
      (bind_ok _ _ _ _ _ _ _ Ht), (bind_ok _ _ _ _ _ _ _ Hf), (bind_ok _ _ _ _ _ _ _ Hts),
      (bind_ok _ _ _ _ _ _ _ Hlen), (bind_ok _ _ _ _ _ _ _ (get_u8_cons _ _)), (bind_ok _ _ _ _ _ _ _ (get_u8_cons _ _)).
    reflexivity.
  - cbn. auto 10.
Qed.
