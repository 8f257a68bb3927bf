(** * Fresh PDUs on the wire (C57) and length-delimited records (C58). *)
From Verif Require Import Base BaseFacts EnumModel Enums EnumFacts Fixed Header HeaderFacts HeaderProofs PduMacro PduMacroFacts
  DataTypes Bitflags Pdus Spec SpecTables Wire WireProofs RecordFacts SpecDatum DatumFacts PdusFacts ClassFacts PduProofs SpecFresh.

Definition fresh_ok (c : pdu_class) : Prop := forall ts buf, exists t f bits, assoc (cls_name c) pdu_table = Some (t, f, bits) /\
  serialize c (pdu_new c ts) buf = Ok (ROk tt, pdu_new c ts, buf ++ fresh_datagram (cls_name c) t f bits (uval ts)).
Lemma fresh_wire c b n t f bits : let D := body_default (cls_fields c) in
  prep_body (cls_fields c) D = D -> body_len (cls_fields c) D = n -> 12 + n < 65536 ->
  body_serialize (cls_fields c) D = Ok b -> 
  assoc (cls_name c) pdu_table = Some (t, f, bits) -> bits / 8 = 12 + n -> code (cls_type c) = t -> code (cls_family c) = f ->
  map uval b = map (fresh_byte (cls_name c)) (seq 12 (fresh_size (cls_name c) bits - 12)) -> fresh_ok c.
Proof.
  intros D H1 H2 Hn H3 HA HB HT HF HD ts buf.
  set (h := set_length (as_u16 (12 + n)) (set_protocol_family (cls_family c) (set_pdu_type (cls_type c) (PduHeader_default ts)))).
  assert (T : forall h', try_uint 2 (PduHeader_LENGTH + body_len (cls_fields c) (body (mk_pdu (c := c) h' D))) = Some (as_u16 (12 + n))).
  { intros h'. cbn [body]. rewrite H2. unfold try_uint, PduHeader_LENGTH. rewrite (proj2 (N.ltb_lt _ _)); [reflexivity | exact Hn]. }
  assert (E : pdu_new c ts = mk_pdu h D).
  { unfold pdu_new, finalize, calculate_length, pdu_default. cbn [header body]. fold D. specialize (T h). cbn [body] in T. rewrite T. reflexivity. }
  exists t, f, bits. split; [exact HA|].
  assert (S : serialize c (pdu_new c ts) buf = Ok (ROk tt, pdu_new c ts, buf ++ PduHeader_serialize h ++ b)).
  { rewrite E. unfold serialize. cbn [header body]. rewrite H1. unfold calculate_length. rewrite T, H3. reflexivity. }
  rewrite S. do 3 f_equal. unfold fresh_datagram.
  assert (Hb : b = map (fun i => B (fresh_byte (cls_name c) i)) (seq 12 (fresh_size (cls_name c) bits - 12))).
  { rewrite <- (map_map (fresh_byte (cls_name c)) B), <- HD, map_map. clear. induction b as [|x b IH]; [reflexivity|].
    cbn [map]. f_equal; [|exact IH]. apply uint_eq. symmetry. apply as_uint_val. apply uint_lt. }
  rewrite <- Hb, HB. clear Hb HD H1 H2 H3 HA HB T E S. subst t f.
  assert (H : PduHeader_serialize h = map B [7; 1; code (cls_type c); code (cls_family c)] ++ big_endian 4 (uval ts) ++ big_endian 2 (12 + n) ++ map B [0; 0]).
  { unfold PduHeader_serialize, h. cbn [set_length set_protocol_family set_pdu_type PduHeader_default protocol_version exercise_id
      pdu_type protocol_family timestamp header_length status_record header_padding]. rewrite !put_u8_single, !big_endian_eq.
    cbn [map app]. do 4 f_equal. unfold put_u32, put_u16, put_uint. rewrite as_uint_val by exact Hn. reflexivity. }
  rewrite H, <- !app_assoc. reflexivity.
Qed.

(** A freshly created PDU of any class serializes successfully, unchanged, to the stated
    bytes and nothing else. *)
Theorem C57_fresh_datagram : forall m c ts buf, In c (all_pdus m) ->
  exists t f bits, assoc (cls_name c) pdu_table = Some (t, f, bits) /\
    serialize c (pdu_new c ts) buf = Ok (ROk tt, pdu_new c ts, buf ++ fresh_datagram (cls_name c) t f bits (uval ts)).
Proof.
  intros m c ts buf I. revert ts buf. change (fresh_ok c). revert c I. by_class.
  all_classes ltac:(eapply fresh_wire;
    [vm_compute; reflexivity | vm_compute; reflexivity | vm_compute; reflexivity | vm_compute; reflexivity | vm_compute; reflexivity
    | vm_compute; reflexivity | vm_compute; reflexivity | vm_compute; reflexivity | vm_compute; reflexivity]).
Qed.
Example C57_example : map uval (fresh_datagram "ResupplyCancelPdu" 8 3 192 0x01020304) =
  [7; 1; 8; 3; 1; 2; 3; 4; 0; 24; 0; 0; 0; 1; 0; 1; 0; 0; 0; 1; 0; 1; 0; 0].
Proof. vm_compute. reflexivity. Qed.

(** ** Length-delimited records *)
Lemma takes_direct {T} k (n : uint k) limit (mk : bytes -> T) : limit = 256 ^ N.of_nat k - 1 ->
  takes (uval n) limit (fun b => Some (mk b)) None
    (if uval n =? 0 then ret None else let* l := repeat_read (N.to_nat (uval n)) get_u8 in ret (Some (mk l))).
Proof.
  intros L bs. assert (U := uint_lt _ n). split; [|split; [|split]].
  - intros ->. reflexivity.
  - intros H E. destruct (N.eqb_spec (uval n) 0) as [|_]; [lia|]. unfold bind. rewrite (repeat_get_u8_n _ bs) by lia. reflexivity.
  - intros H E. destruct (N.eqb_spec (uval n) 0) as [|_]; [lia|]. unfold bind. rewrite (repeat_get_u8_short _ bs) by lia. reflexivity.
  - lia.
Qed.
Lemma takes_with_len {T} k limit (mk : bytes -> T) (empty : T) (r : uint k -> reader (option T)) n : limit = 256 ^ N.of_nat k - 1 ->
  (forall u, takes (uval u) limit (fun b => Some (mk b)) None (r u)) ->
  takes n limit mk empty (match try_uint k n with
    | None => rfail ExpectFailed
    | Some u => let* x := r u in ret (match x with Some x => x | None => empty end)
    end).
Proof.
  intros L H bs. assert (P : 256 ^ N.of_nat k <> 0) by (apply N.pow_nonzero; discriminate). unfold try_uint.
  destruct (N.ltb_spec n (256 ^ N.of_nat k)) as [K|K].
  - destruct (H (as_uint k n) bs) as [H0 [H1 [H2 H3]]]. rewrite as_uint_val in H0, H1, H2, H3 by exact K.
    unfold bind. split; [|split; [|split]].
    + intros E. rewrite (H0 E). reflexivity.
    + intros E F. rewrite (H1 E F). reflexivity.
    + intros E F. rewrite (H2 E F). reflexivity.
    + lia.
  - split; [|split; [|split]]; try lia. reflexivity.
Qed.
Lemma takes_option {T} limit (mk : bytes -> T) (empty : T) (r : N -> reader T) n :
  (forall n, takes n limit mk empty (r n)) -> takes n limit (fun b => Some (mk b)) None (option_deserialize_with_len r n).
Proof.
  intros H bs. destruct (H n bs) as [_ [H1 [H2 H3]]]. unfold option_deserialize_with_len, bind.
  destruct (N.eqb_spec n 0) as [E|E].
  - split; [reflexivity | split; [lia | split; lia]].
  - split; [lia|]. split; [intros A B; rewrite (H1 A B); reflexivity|]. split; [intros A B; rewrite (H2 A B); reflexivity | intros A; rewrite (H3 A); reflexivity].
Qed.

(** Antenna patterns: encoded as their bytes, decoded by length (at most 65535). Without a
    length, as in the transmitter PDU, decoding reads nothing. *)
Theorem C58_antenna_pattern :
  (forall n : u16, takes (uval n) 65535 (fun b => Some (mk_AntennaPattern b)) None (AntennaPattern_deserialize n)) /\
  (forall n, takes n 65535 mk_AntennaPattern (mk_AntennaPattern []) (AntennaPattern_deserialize_with_len n)) /\
  (forall n, takes n 65535 (fun b => Some (mk_AntennaPattern b)) None (option_deserialize_with_len AntennaPattern_deserialize_with_len n)) /\
  (forall b, AntennaPattern_serialize (mk_AntennaPattern b) = b /\ AntennaPattern_field_len (mk_AntennaPattern b) = N.of_nat (length b)) /\
  (forall bs, c_des AntennaPattern_codec bs = Ok (mk_AntennaPattern [], bs)).
Proof.
  assert (D : forall n : u16, takes (uval n) 65535 (fun b => Some (mk_AntennaPattern b)) None (AntennaPattern_deserialize n))
    by (intros n; exact (takes_direct 2 n 65535 mk_AntennaPattern eq_refl)).
  assert (W : forall n, takes n 65535 mk_AntennaPattern (mk_AntennaPattern []) (AntennaPattern_deserialize_with_len n))
    by (intros n; exact (takes_with_len 2 65535 mk_AntennaPattern _ _ n eq_refl D)).
  split; [exact D|]. split; [exact W|]. split; [intros n; exact (takes_option _ _ _ _ n W)|].
  split; [|reflexivity]. intros b. split; [apply concat_put_u8 | reflexivity].
Qed.
(** Modulation parameters: the same with at most 255 bytes. *)
Theorem C58_modulation_parameters :
  (forall n : u8, takes (uval n) 255 (fun b => Some (mk_ModulationParameters b)) None (ModulationParameters_deserialize n)) /\
  (forall n, takes n 255 mk_ModulationParameters (mk_ModulationParameters []) (ModulationParameters_deserialize_with_len n)) /\
  (forall n, takes n 255 (fun b => Some (mk_ModulationParameters b)) None (option_deserialize_with_len ModulationParameters_deserialize_with_len n)) /\
  (forall b, ModulationParameters_serialize (mk_ModulationParameters b) = b /\ ModulationParameters_field_len (mk_ModulationParameters b) = N.of_nat (length b)) /\
  (forall bs, c_des ModulationParameters_codec bs = Ok (mk_ModulationParameters [], bs)).
Proof.
  assert (D : forall n : u8, takes (uval n) 255 (fun b => Some (mk_ModulationParameters b)) None (ModulationParameters_deserialize n))
    by (intros n; exact (takes_direct 1 n 255 mk_ModulationParameters eq_refl)).
  assert (W : forall n, takes n 255 mk_ModulationParameters (mk_ModulationParameters []) (ModulationParameters_deserialize_with_len n))
    by (intros n; exact (takes_with_len 1 255 mk_ModulationParameters _ _ n eq_refl D)).
  split; [exact D|]. split; [exact W|]. split; [intros n; exact (takes_option _ _ _ _ n W)|].
  split; [|reflexivity]. intros b. split; [apply concat_put_u8 | apply vec_u8_len].
Qed.
(** Decoding by the encoded length gives the record back, whatever follows. *)
Theorem C58_roundtrip : forall v rest, N.of_nat (length (AntennaPattern_serialize v)) <= 65535 ->
  AntennaPattern_deserialize_with_len (AntennaPattern_field_len v) (AntennaPattern_serialize v ++ rest) = Ok (v, rest).
Proof.
  intros [b] rest. destruct C58_antenna_pattern as [_ [W [_ [F _]]]]. destruct (F b) as [-> ->]. intros L.
  destruct (W (N.of_nat (length b)) (b ++ rest)) as [H0 [H1 _]]. destruct b as [|x b]; [exact (H0 eq_refl)|].
  refine (eq_trans (H1 _ _) _); [split; [cbn [length]; lia | exact L] | rewrite app_length; lia|].
  rewrite Nat2N.id, firstn_app, skipn_app, Nat.sub_diag, firstn_all, skipn_all, app_nil_r. reflexivity.
Qed.
Example C58_example : AntennaPattern_deserialize_with_len 2 (map B [5; 6; 7]) = Ok (mk_AntennaPattern (map B [5; 6]), map B [7]).
Proof. reflexivity. Qed.

(** What the theorems above rest on (one traversal for all of them; not part of the model). *)
Definition Prop_Fresh_theorems : True :=
  let _ := @C57_fresh_datagram in
  let _ := @C58_antenna_pattern in
  let _ := @C58_modulation_parameters in
  let _ := @C58_roundtrip in
  I.
Print Assumptions Prop_Fresh_theorems.
