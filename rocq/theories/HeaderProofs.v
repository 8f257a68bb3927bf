(** * Proofs of the header properties. *)
From Verif Require Import Base BaseFacts EnumModel Enums EnumFacts Fixed Header HeaderFacts Spec.

Lemma memb_upto n k : memb n (map N.of_nat (seq 0 (S k))) = (n <=? N.of_nat k).
Proof.
  apply eq_true_iff_eq. rewrite memb_In, N.leb_le, in_map_iff. split.
  - intros [x [<- H]]. apply in_seq in H. lia.
  - intros H. exists (N.to_nat n). split; [lia|]. apply in_seq. lia.
Qed.
Lemma known_version n : known_or_default ProtocolVersion_spec n = if n <=? 7 then n else 7.
Proof. unfold known_or_default. change (e_codes _) with (map N.of_nat (seq 0 8)). rewrite memb_upto. reflexivity. Qed.
Lemma known_type n : known_or_default PduType_spec n = if n <=? 72 then n else 0.
Proof. unfold known_or_default. change (e_codes _) with (map N.of_nat (seq 0 73)). rewrite memb_upto. reflexivity. Qed.
Lemma known_family n : known_or_default ProtocolFamily_spec n = if n <=? 13 then n else 0.
Proof. unfold known_or_default. change (e_codes _) with (map N.of_nat (seq 0 14)). rewrite memb_upto. reflexivity. Qed.

Lemma be_encode_1 n : be_encode 1 n = [B n].
Proof. unfold B. cbn [be_encode]. rewrite N.div_1_r. reflexivity. Qed.
Lemma B_mod n : B (n mod 256) = B n.
Proof. unfold B, as_u8. apply uint_eq. cbn. apply N.mod_mod. discriminate. Qed.
Lemma be_encode_2 n : be_encode 2 n = be2 n.
Proof.
  unfold be2. rewrite B_mod. cbn [be_encode]. rewrite N.div_1_r. reflexivity.
Qed.
Lemma be_encode_4 n : be_encode 4 n = be4 n.
Proof.
  unfold be4. rewrite !B_mod. cbn [be_encode]. rewrite N.div_1_r. reflexivity.
Qed.
Lemma put1 (u : uint 1) : put_uint u = [u].
Proof. apply put_u8_single. Qed.
Lemma put_code e (x : enum e) : put_uint (as_uint 1 (code x)) = [B (code x)].
Proof. apply put1. Qed.

Lemma header_layout h : PduHeader_serialize h =
  [B (code (protocol_version h)); exercise_id h; B (code (pdu_type h)); B (code (protocol_family h))] ++
  be4 (uval (timestamp h)) ++ be2 (uval (header_length h)) ++ [status_byte (status_record h); header_padding h].
Proof.
  unfold PduHeader_serialize, sr_to_u8. fx_expose. rewrite !put_code, !put1.
  rewrite <- be_encode_4, <- be_encode_2. reflexivity.
Qed.

Lemma header_decode bs : (12 <= length bs)%nat ->
  exists h, PduHeader_deserialize bs = Ok (h, skipn 12 bs) /\
    code (protocol_version h) = (if byte_at bs 0 <=? 7 then byte_at bs 0 else 7) /\
    uval (exercise_id h) = byte_at bs 1 /\
    code (pdu_type h) = (if byte_at bs 2 <=? 72 then byte_at bs 2 else 0) /\
    code (protocol_family h) = (if byte_at bs 3 <=? 13 then byte_at bs 3 else 0) /\
    uval (timestamp h) = be4_at bs 4 /\
    uval (header_length h) = be2_at bs 8 /\
    uval (status_byte (status_record h)) = byte_at bs 10 /\
    uval (header_padding h) = byte_at bs 11.
Proof.
  intros H. do 12 (destruct bs as [|? bs]; [cbn in H; lia|]). clear H.
  edestruct header_decode_bytes as [h [D [? [? [? [? [? [? [? ?]]]]]]]]].
  exists h. split; [exact D|]. unfold be4_at, be2_at, byte_at. cbn [nth Nat.add].
  rewrite <- known_version, <- known_type, <- known_family.
  repeat split; try assumption; try (now f_equal); lia.
Qed.

Lemma get_pdu_type_spec bs : (12 <= length bs)%nat ->
  exists h, PduHeader_deserialize bs = Ok (h, skipn 12 bs) /\
            PduHeader_get_pdu_type bs = Ok (Some (pdu_type h)) /\ code (pdu_type h) = wire_type bs.
Proof.
  intros H. destruct (header_decode bs H) as [h [D [_ [_ [T _]]]]].
  exists h. split; [exact D|]. split; [|exact T].
  unfold PduHeader_get_pdu_type. replace (lenN bs <? PduHeader_LENGTH) with false
    by (symmetry; apply N.ltb_ge; unfold lenN, PduHeader_LENGTH; lia).
  assert (E := fx_exact _ _ _ PduHeader_fixed). destruct E as [_ E].
  destruct (E (firstn 12 bs)) as [h' E']; [rewrite firstn_length; lia|].
  specialize (E' []) as E1. rewrite app_nil_r in E1.
  change (N.to_nat PduHeader_LENGTH) with 12%nat. rewrite E1.
  specialize (E' (skipn 12 bs)). rewrite firstn_skipn, D in E'. congruence.
Qed.
Lemma get_pdu_type_short bs : (length bs < 12)%nat -> PduHeader_get_pdu_type bs = Ok None.
Proof.
  intros H. unfold PduHeader_get_pdu_type.
  replace (lenN bs <? PduHeader_LENGTH) with true; [reflexivity|].
  symmetry; apply N.ltb_lt; unfold lenN, PduHeader_LENGTH; lia.
Qed.

(** ** Status record: exhaustive over the 256 bytes. *)
Lemma all_bytes (P : N -> bool) : forallb P (map N.of_nat (seq 0 256)) = true -> forall b : u8, P (uval b) = true.
Proof.
  intros H b. rewrite forallb_forall in H. apply H. apply in_map_iff. exists (N.to_nat (uval b)).
  split; [lia|]. apply in_seq. assert (U := uint_lt _ b). change (256 ^ N.of_nat 1) with 256 in U. lia.
Qed.
Lemma all_codes e (P : N -> bool) : forallb P (e_codes e) = true -> forall x : enum e, P (code x) = true.
Proof. intros H x. rewrite forallb_forall in H. apply H, memb_In, code_ok. Qed.

Definition enum_values (e : enum_spec) : list (enum e) :=
  flat_map (fun c => match enum_from e c with Some x => [x] | None => [] end) (e_codes e).
Lemma enum_values_all e (x : enum e) : In x (enum_values e).
Proof.
  apply in_flat_map. exists (code x). split; [apply memb_In, code_ok|]. rewrite enum_from_code. now left.
Qed.
Definition all_status : list PduStatusRecord := map (fun n => mk_status (as_u8 (N.of_nat n))) (seq 0 256).
Lemma all_status_all s : In s all_status.
Proof.
  apply in_map_iff. exists (N.to_nat (uval (status_byte s))). split.
  - rewrite N2Nat.id. destruct s. cbn. f_equal. apply as_uint_id.
  - apply in_seq. assert (U := uint_lt _ (status_byte s)). change (256 ^ N.of_nat 1) with 256 in U. lia.
Qed.
Definition mask lo w := N.shiftl (N.ones w) lo.
Lemma mask_spec lo w i : N.testbit (mask lo w) i = (lo <=? i) && (i <? lo + w).
Proof.
  unfold mask. destruct (N.leb_spec lo i) as [H|H]; cbn [andb].
  - rewrite N.shiftl_spec_high' by exact H. destruct (N.ltb_spec i (lo + w)).
    + apply N.ones_spec_low. lia.
    + apply N.ones_spec_high. lia.
  - apply N.shiftl_spec_low, H.
Qed.
Lemma only_bits_mask lo w s s' :
  N.ldiff (uval (status_byte s')) (mask lo w) = N.ldiff (uval (status_byte s)) (mask lo w) -> only_bits lo w s s'.
Proof.
  intros H i Hi. assert (E : forall x, N.testbit (N.ldiff x (mask lo w)) i = N.testbit x i).
  { intros x. rewrite N.ldiff_spec, mask_spec.
    replace ((lo <=? i) && (i <? lo + w)) with false; [apply andb_true_r|].
    destruct (N.leb_spec lo i), (N.ltb_spec i (lo + w)); cbn; try reflexivity. lia. }
  rewrite <- (E (uval (status_byte s'))), H. apply E.
Qed.
Definition setter_check e (f : enum e -> PduStatusRecord -> outcome PduStatusRecord) (g : PduStatusRecord -> outcome (enum e)) lo w : bool :=
  forallb (fun x => forallb (fun s =>
    match f x s with
    | Ok s' => (N.ldiff (uval (status_byte s')) (mask lo w) =? N.ldiff (uval (status_byte s)) (mask lo w)) &&
               (bits_of s' lo w =? code x) && match g s' with Ok y => code y =? code x | Panic _ => false end
    | Panic _ => false
    end) all_status) (enum_values e).
Lemma setter_ok e f g lo w : setter_check e f g lo w = true -> forall x s,
  exists s', f x s = Ok s' /\ only_bits lo w s s' /\ bits_of s' lo w = code x /\ g s' = Ok x.
Proof.
  intros H x s. unfold setter_check in H. rewrite forallb_forall in H. specialize (H x (enum_values_all e x)).
  rewrite forallb_forall in H. specialize (H s (all_status_all s)).
  destruct (f x s) as [s'|]; [|discriminate]. exists s'. split; [reflexivity|].
  apply andb_true_iff in H as [H G]. apply andb_true_iff in H as [H1 H2].
  split; [apply only_bits_mask, N.eqb_eq, H1|]. split; [apply N.eqb_eq, H2|].
  destruct (g s') as [y|]; [|discriminate]. f_equal. apply enum_eq, N.eqb_eq, G.
Qed.
Definition getter_check e (g : PduStatusRecord -> outcome (enum e)) lo w (k : N -> N) : bool :=
  forallb (fun s => match g s with Ok y => code y =? k (bits_of s lo w) | Panic _ => false end) all_status.
Lemma getter_ok e g lo w k : getter_check e g lo w k = true -> forall s, exists y, g s = Ok y /\ code y = k (bits_of s lo w).
Proof.
  intros H s. unfold getter_check in H. rewrite forallb_forall in H. specialize (H s (all_status_all s)).
  destruct (g s) as [y|]; [|discriminate]. exists y. split; [reflexivity | apply N.eqb_eq, H].
Qed.

(** ** Live-entity header *)
Lemma known_zero e n : e_codes e = [0] -> e_default e = 0 -> known_or_default e n = 0.
Proof.
  intros C D. unfold known_or_default. rewrite C, D. cbn. destruct n; reflexivity.
Qed.
Lemma live_decode bs : (12 <= length bs)%nat ->
  exists h, LiveEntityPduHeader_deserialize bs = Ok (h, skipn 12 bs) /\
    code (le_protocol_version h) = (if byte_at bs 0 <=? 7 then byte_at bs 0 else 7) /\
    uval (le_exercise_id h) = byte_at bs 1 /\
    code (le_pdu_type h) = (if byte_at bs 2 <=? 72 then byte_at bs 2 else 0) /\
    code (le_protocol_family h) = (if byte_at bs 3 <=? 13 then byte_at bs 3 else 0) /\
    uval (le_timestamp h) = be4_at bs 4 /\
    uval (le_length h) = be2_at bs 8 /\
    code (le_subprotocol_number h) = 0 /\
    uval (le_padding h) = byte_at bs 11.
Proof.
  intros H. do 12 (destruct bs as [|? bs]; [cbn in H; lia|]). clear H.
  destruct (enum_deserialize_byte ProtocolVersion_spec b (b0 :: b1 :: b2 :: b3 :: b4 :: b5 :: b6 :: b7 :: b8 :: b9 :: b10 :: bs) eq_refl) as [v [Hv Cv]].
  destruct (enum_deserialize_byte PduType_spec b1 (b2 :: b3 :: b4 :: b5 :: b6 :: b7 :: b8 :: b9 :: b10 :: bs) eq_refl) as [t [Ht Ct]].
  destruct (enum_deserialize_byte ProtocolFamily_spec b2 (b3 :: b4 :: b5 :: b6 :: b7 :: b8 :: b9 :: b10 :: bs) eq_refl) as [f [Hf Cf]].
  destruct (get_u32_cons b3 b4 b5 b6 (b7 :: b8 :: b9 :: b10 :: bs)) as [ts [Hts Vts]].
  destruct (get_u16_cons b7 b8 (b9 :: b10 :: bs)) as [len [Hlen Vlen]].
  destruct (enum_deserialize_byte DISLiveEntitySubprotocolNumber_spec b9 (b10 :: bs) eq_refl) as [sp [Hs Cs]].
  exists (mk_LiveEntityPduHeader v b0 t f ts len sp b10). split.
  - unfold LiveEntityPduHeader_deserialize.
    rewrite (bind_ok _ _ _ _ _ _ _ Hv), (bind_ok _ _ _ _ _ _ _ (get_u8_cons _ _)),
      (bind_ok _ _ _ _ _ _ _ Ht), (bind_ok _ _ _ _ _ _ _ Hf), (bind_ok _ _ _ _ _ _ _ Hts),
      (bind_ok _ _ _ _ _ _ _ Hlen), (bind_ok _ _ _ _ _ _ _ Hs), (bind_ok _ _ _ _ _ _ _ (get_u8_cons _ _)).
    reflexivity.
  - rewrite known_version in Cv. rewrite known_type in Ct. rewrite known_family in Cf.
    rewrite known_zero in Cs by reflexivity.
    unfold be4_at, be2_at, byte_at. cbn -[N.leb N.mul N.add]. repeat split; try assumption; lia.
Qed.
