(** * Classes with any header type (C75), and the live-entity header (C33).
    Vocabulary in [Spec], [SpecMacro] and [SpecOwnHeader]. *)
From Verif Require Import Base BaseFacts EnumModel Enums EnumFacts Fixed Header HeaderFacts HeaderProofs PduMacro PduMacroFacts MacroHeader
  DataTypes Pdus PduProofs Spec SpecMacro SpecOwnHeader MacroFacts Prop_Macro.

(** ** The headers of the crate *)
Theorem C75_headers : keeps_promises PduHeader_type 12 /\ keeps_promises LiveEntityPduHeader_type 12.
Proof.
  split.
  - destruct PduHeader_fixed as [W [R [S E]]].
    apply (Build_keeps_promises PduHeader_type 12 eq_refl W R E S); intros; repeat split.
  - destruct LiveEntityPduHeader_fixed as [W [R [S E]]].
    apply (Build_keeps_promises LiveEntityPduHeader_type 12 eq_refl W R E S); intros; repeat split.
Qed.

(** With [PduHeader] it is the macro as used for the 66 classes of the library. *)
Definition to_own {c} (p : pdu c) : own_pdu (mk_own_class PduHeader_type c) :=
  mk_own (c := mk_own_class PduHeader_type c) (header p) (body p).
Definition res_map {A B E} (f : A -> B) (r : result A E) : result B E := match r with ROk a => ROk (f a) | RErr e => RErr e end.
Theorem C75_with_PduHeader : forall c, let oc := mk_own_class PduHeader_type c in
  (forall p buf, own_serialize oc (to_own p) buf =
     match serialize c p buf with Ok (r, p', b) => Ok (r, to_own p', b) | Panic e => Panic e end) /\
  (forall bs, own_deserialize oc bs =
     match deserialize c bs with Ok (r, rest) => Ok (res_map to_own r, rest) | Panic e => Panic e end) /\
  (forall bs h, own_deserialize_without_header oc bs h =
     match deserialize_without_header c bs h with Ok (r, rest) => Ok (res_map to_own r, rest) | Panic e => Panic e end) /\
  (forall p, own_calculate_length oc (to_own p) = calculate_length c p) /\
  (forall ts, own_new oc ts = to_own (pdu_new c ts)) /\
  (forall ts, own_default oc ts = to_own (pdu_default c ts)).
Proof.
  intros c oc.
  assert (CL : forall p : pdu c, own_calculate_length oc (to_own p) = calculate_length c p) by reflexivity.
  split; [|split; [|split; [|split; [exact CL | split; reflexivity]]]].
  - intros p buf. unfold own_serialize, serialize. cbv zeta.
    change (own_calculate_length oc _) with
      (calculate_length c (mk_pdu (set_protocol_family (cls_family c) (set_pdu_type (cls_type c) (header p))) (prep_body (cls_fields c) (body p)))).
    destruct (calculate_length c _) as [l|e]; [|reflexivity].
    change (body_serialize (oc_fields oc) _) with (body_serialize (cls_fields c) (prep_body (cls_fields c) (body p))).
    destruct (body_serialize (cls_fields c) _); reflexivity.
  - intros bs. unfold own_deserialize, deserialize, own_deserialize_without_header.
    change (ht_deserialize (oc_header oc) bs) with (PduHeader_deserialize bs).
    destruct (PduHeader_deserialize bs) as [[h rest]|e]; [|reflexivity].
    change (enum_eqb (ht_pdu_type (oc_header oc) h) (cls_type (oc_class oc))) with (enum_eqb (pdu_type h) (cls_type c)).
    destruct (enum_eqb (pdu_type h) (cls_type c)); [|reflexivity].
    change (body_deserialize [] (oc_fields oc) rest) with (body_deserialize [] (cls_fields c) rest).
    destruct (body_deserialize [] (cls_fields c) rest) as [[b r]|]; reflexivity.
  - intros bs h. unfold deserialize_without_header, own_deserialize_without_header.
    change (body_deserialize [] (oc_fields oc) bs) with (body_deserialize [] (cls_fields c) bs).
    destruct (body_deserialize [] (cls_fields c) bs) as [[b r]|]; reflexivity.
Qed.

(** ** Serialization *)
Lemma own_len c p : own_calculate_length c p =
  let size := ht_LENGTH (oc_header c) + body_len (oc_fields c) (own_body p) in
  if size <=? 65535 then ROk (as_u16 size) else RErr (PduSizeExceeded size 8192).
Proof.
  unfold own_calculate_length. cbv zeta. set (z := ht_LENGTH _ + _). unfold try_uint.
  destruct (N.leb_spec z 65535) as [L|L]; (destruct (N.ltb_spec z (256 ^ N.of_nat 2)) as [K|K]; [|]);
    change (256 ^ N.of_nat 2) with 65536 in K; try lia; reflexivity.
Qed.
(** If the header keeps its promises and every field type writes as many bytes as it
    reports: [serialize] never panics; it appends the header and the fields, stamped with
    type, family and exactly the number of bytes appended, or returns the error and leaves
    the buffer alone. *)
Theorem C75_serialize : forall (c : own_class) n, keeps_promises (oc_header c) n -> measured_fields (oc_fields c) -> forall p buf,
  exists p' field_bytes, written (oc_fields c) (own_body p') field_bytes /\
    own_body p' = prep_body (oc_fields c) (own_body p) /\
    ht_pdu_type (oc_header c) (own_header p') = cls_type (oc_class c) /\
    ht_protocol_family (oc_header c) (own_header p') = cls_family (oc_class c) /\
    let size := N.of_nat (n + length field_bytes) in
    (size <= 65535 /\ exists header_bytes,
       length header_bytes = n /\
       own_serialize c p buf = Ok (ROk tt, p', buf ++ header_bytes ++ field_bytes) /\
       ht_deserialize (oc_header c) header_bytes = Ok (own_header p', []) /\
       uval (ht_length (oc_header c) (own_header p')) = size)
    \/
    (65535 < size /\ own_serialize c p buf = Ok (RErr (PduSizeExceeded size 8192), p', buf) /\
       ht_length (oc_header c) (own_header p') = ht_length (oc_header c) (own_header p)).
Proof.
  intros c n K M p buf.
  destruct (body_ser_total _ (measured_total _ M) (prep_body (oc_fields c) (own_body p))) as [fb W].
  assert (L := body_len_ok _ (measured_lens _ M) _ _ W). unfold lenN in L.
  destruct (hp_set_type _ _ K (cls_type (oc_class c)) (own_header p)) as [T1 [T2 T3]].
  set (ha := ht_set_pdu_type _ _ _) in *.
  destruct (hp_set_family _ _ K (cls_family (oc_class c)) ha) as [F1 [F2 F3]].
  set (hb := ht_set_protocol_family _ _ _) in *.
  assert (Sz : ht_LENGTH (oc_header c) + body_len (oc_fields c) (prep_body (oc_fields c) (own_body p)) = N.of_nat (n + length fb))
    by (rewrite (hp_LENGTH _ _ K), <- L, Nat2N.inj_add; reflexivity).
  destruct (N.leb_spec (N.of_nat (n + length fb)) 65535) as [Le|Gt].
  - destruct (hp_set_length _ _ K (as_u16 (N.of_nat (n + length fb))) hb) as [L1 [L2 L3]].
    set (hc := ht_set_length _ _ _) in *.
    exists (mk_own hc (prep_body (oc_fields c) (own_body p))), fb. cbn [own_body own_header].
    split; [apply written_iff, W|]. split; [reflexivity|]. split; [congruence|]. split; [congruence|]. cbv zeta. left. split; [exact Le|].
    exists (ht_serialize (oc_header c) hc). split; [apply K|]. split.
    + unfold own_serialize. cbv zeta. fold ha. fold hb. rewrite own_len. cbn [own_body]. rewrite Sz. cbv zeta.
      apply N.leb_le in Le. rewrite Le, W. reflexivity.
    + split; [generalize (hp_read_back _ _ K hc []); rewrite app_nil_r; exact (fun x => x)|].
      rewrite L3. apply as_uint_val. change (256 ^ N.of_nat 2) with 65536. lia.
  - exists (mk_own hb (prep_body (oc_fields c) (own_body p))), fb. cbn [own_body own_header].
    split; [apply written_iff, W|]. split; [reflexivity|]. split; [congruence|]. split; [exact F2|]. cbv zeta. right. split; [exact Gt|].
    split; [|congruence].
    unfold own_serialize. cbv zeta. fold ha. fold hb. rewrite own_len. cbn [own_body]. rewrite Sz. cbv zeta.
    apply N.leb_gt in Gt. rewrite Gt. reflexivity.
Qed.

(** ** Decoding *)
Lemma own_cases c n : keeps_promises (oc_header c) n -> forall bs, (n <= length bs)%nat ->
  exists h, ht_deserialize (oc_header c) bs = Ok (h, skipn n bs).
Proof.
  intros K bs L. destruct (hp_reads _ _ K (firstn n bs)) as [h Hh]; [rewrite firstn_length; lia|].
  exists h. rewrite <- (firstn_skipn n bs) at 1. apply Hh.
Qed.
Theorem C75_fixed_class : forall (c : own_class) n sizes, keeps_promises (oc_header c) n -> fixed_fields (oc_fields c) sizes ->
  let size := (n + total sizes)%nat in
  (* serializing *)
  (forall p buf, N.of_nat size <= 65535 -> exists p' out, own_serialize c p buf = Ok (ROk tt, p', buf ++ out)) /\
  (forall p buf, 65535 < N.of_nat size -> exists p', own_serialize c p buf = Ok (RErr (PduSizeExceeded (N.of_nat size) 8192), p', buf)) /\
  (* the round trip *)
  (forall p buf p' out, own_serialize c p buf = Ok (ROk tt, p', buf ++ out) ->
     length out = size /\ own_body p' = own_body p /\ forall rest, own_deserialize c (out ++ rest) = Ok (ROk p', rest)) /\
  (* any input *)
  (forall bs, (length bs < n)%nat -> own_deserialize c bs = Panic Underflow) /\
  (forall bs, (n <= length bs)%nat -> exists h, ht_deserialize (oc_header c) bs = Ok (h, skipn n bs) /\
     (ht_pdu_type (oc_header c) h <> cls_type (oc_class c) ->
        own_deserialize c bs = Ok (RErr (InvalidHeader (cls_type (oc_class c)) (ht_pdu_type (oc_header c) h)), skipn n bs)) /\
     (ht_pdu_type (oc_header c) h = cls_type (oc_class c) -> (length bs < size)%nat -> own_deserialize c bs = Panic Underflow) /\
     (ht_pdu_type (oc_header c) h = cls_type (oc_class c) -> (size <= length bs)%nat ->
        exists q, own_deserialize c bs = Ok (ROk q, skipn size bs) /\ own_header q = h)).
Proof.
  intros c n ns K F size.
  assert (M := fixed_fields_measured _ _ F). assert (A := fixed_no_attr _ _ F).
  assert (Lf : forall v fb, body_serialize (oc_fields c) v = Ok fb -> length fb = total ns)
    by (intros v fb W; apply (front_decode _ _ F [] v fb W)).
  assert (Ex : exact_reader (body_deserialize [] (oc_fields c)) (total ns)) by apply MacroFacts.fixed_exact, F.
  split; [|split; [|split; [|split]]].
  - intros p buf L. destruct (C75_serialize c n K M p buf) as [p' [fb [W [_ [_ [_ D]]]]]]. cbv zeta in D.
    apply written_iff, Lf in W. rewrite W in D. fold size in D. destruct D as [[_ [hb [_ [E _]]]]|[G _]]; [eauto | lia].
  - intros p buf L. destruct (C75_serialize c n K M p buf) as [p' [fb [W [_ [_ [_ D]]]]]]. cbv zeta in D.
    apply written_iff, Lf in W. rewrite W in D. fold size in D. destruct D as [[G _]|[_ [E _]]]; [lia | eauto].
  - intros p buf p' out S. destruct (C75_serialize c n K M p buf) as [p2 [fb [W [Eb [T [_ D]]]]]]. cbv zeta in D.
    assert (Wb := W). apply written_iff in Wb. assert (Lw := Lf _ _ Wb). rewrite Lw in D.
    destruct D as [[_ [hb [Lh [E [Rh _]]]]]|[_ [E _]]]; rewrite E in S; [|discriminate].
    assert (p2 = p' /\ hb ++ fb = out) as [-> <-].
    { injection S as -> Q. split; [reflexivity|]. apply app_inv_head in Q. exact Q. }
    rewrite (no_attr_prep _ A) in Eb. split; [rewrite app_length, Lh, Lw; reflexivity|]. split; [exact Eb|].
    intros rest. rewrite <- app_assoc. unfold own_deserialize.
    destruct (hp_reads _ _ K hb Lh) as [h Hh]. assert (h = own_header p') as ->.
    { specialize (Hh []). rewrite app_nil_r, Rh in Hh. now injection Hh. }
    rewrite Hh, T, enum_eqb_refl. unfold own_deserialize_without_header.
    rewrite (fixed_decode _ _ F [] _ _ rest Wb). destruct p'; reflexivity.
  - intros bs L. unfold own_deserialize. rewrite (hp_short _ _ K _ L). reflexivity.
  - intros bs L. destruct (own_cases c n K bs L) as [h Hh]. exists h. split; [exact Hh|].
    unfold own_deserialize. rewrite Hh. unfold own_deserialize_without_header. split; [|split].
    + intros T. rewrite (enum_eqb_neq _ _ _ T). reflexivity.
    + intros T Ls. rewrite T, enum_eqb_refl. rewrite (proj1 Ex); [reflexivity|]. rewrite skipn_length. unfold size in Ls. lia.
    + intros T Ls. rewrite T, enum_eqb_refl. unfold size in *.
      destruct (proj2 Ex (firstn (total ns) (skipn n bs))) as [v R]; [rewrite firstn_length, skipn_length; lia|].
      specialize (R (skipn (total ns) (skipn n bs))). rewrite firstn_skipn in R. rewrite R.
      exists (mk_own h v). split; [|reflexivity]. rewrite skipn_add, Nat.add_comm. reflexivity.
Qed.

(** ** What the [LENGTH] constant is for *)

(** The length announced differs from the number of bytes appended by exactly the error in
    the constant [LENGTH] of the header type. *)
Theorem C75_announced_length : forall (c : own_class) n,
  (forall h, length (ht_serialize (oc_header c) h) = n) ->
  (forall l h, ht_length (oc_header c) (ht_set_length (oc_header c) l h) = l) ->
  measured_fields (oc_fields c) ->
  forall p buf p' out, own_serialize c p buf = Ok (ROk tt, p', buf ++ out) ->
  uval (ht_length (oc_header c) (own_header p')) + N.of_nat n = ht_LENGTH (oc_header c) + N.of_nat (length out).
Proof.
  intros c n Hw Hl M p buf p' out S.
  destruct (body_ser_total _ (measured_total _ M) (prep_body (oc_fields c) (own_body p))) as [fb W].
  assert (L := body_len_ok _ (measured_lens _ M) _ _ W). unfold lenN in L.
  unfold own_serialize in S. cbv zeta in S. rewrite own_len, W in S. cbn [own_body] in S. cbv zeta in S.
  set (size := ht_LENGTH _ + _) in S.
  destruct (N.leb_spec size 65535) as [Le|]; [|discriminate].
  injection S as <- E. apply app_inv_head in E. subst out. cbn [own_header].
  rewrite Hl, app_length, Hw. unfold as_u16. rewrite as_uint_val by (apply N.le_lt_trans with (1 := Le); reflexivity).
  unfold size. rewrite <- L. lia.
Qed.
(** A header type whose [LENGTH] is two too small announces two bytes too few. *)
Definition ShortHeader_type : header_type := mk_header_type PduHeader PduHeader_default 10
  pdu_type set_pdu_type protocol_family set_protocol_family header_length set_length PduHeader_serialize PduHeader_deserialize.
Theorem C75_wrong_length_constant : forall fields t fam name, measured_fields fields ->
  let c := mk_own_class ShortHeader_type (class_of name t fam fields) in
  forall p buf p' out, own_serialize c p buf = Ok (ROk tt, p', buf ++ out) ->
  uval (header_length (own_header p')) + 2 = N.of_nat (length out).
Proof.
  intros fields t fam name M c p buf p' out S.
  assert (H := C75_announced_length c 12 header_ser_length (fun _ _ => eq_refl) M p buf p' out S).
  change (ht_LENGTH (oc_header c)) with 10 in H.
  change (ht_length (oc_header c) (own_header p')) with (header_length (own_header p')) in H. lia.
Qed.

(** ** Two headers on one wire *)

Lemma own_serialize_ok c n : keeps_promises (oc_header c) n -> forall p buf p' out, own_serialize c p buf = Ok (ROk tt, p', buf ++ out) ->
  exists fb, out = ht_serialize (oc_header c) (own_header p') ++ fb /\ body_serialize (oc_fields c) (own_body p') = Ok fb /\
    own_body p' = prep_body (oc_fields c) (own_body p) /\ ht_pdu_type (oc_header c) (own_header p') = cls_type (oc_class c).
Proof.
  intros K p buf p' out S. unfold own_serialize in S. cbv zeta in S.
  destruct (own_calculate_length _ _) as [l|]; [|discriminate].
  destruct (body_serialize _ _) as [fb|] eqn:W; [|discriminate]. injection S as <- E. apply app_inv_head in E. subst out.
  exists fb. cbn [own_header own_body]. split; [reflexivity|]. split; [exact W|]. split; [reflexivity|].
  rewrite (proj1 (hp_set_length _ _ K _ _)), (proj1 (hp_set_family _ _ K _ _)). apply (hp_set_type _ _ K).
Qed.
(** Type and family are at the same place in both headers of the crate, so a program that
    uses the one decodes the fields of a program that uses the other. *)
Theorem C75_headers_interoperate : forall (k : pdu_class) sizes, fixed_fields (cls_fields k) sizes ->
  let live := mk_own_class LiveEntityPduHeader_type k in
  (forall p buf p' out, own_serialize live p buf = Ok (ROk tt, p', buf ++ out) ->
     forall rest, exists q, deserialize k (out ++ rest) = Ok (ROk q, rest) /\ body q = own_body p /\
       pdu_type (header q) = le_pdu_type (own_header p') /\ protocol_family (header q) = le_protocol_family (own_header p') /\
       timestamp (header q) = le_timestamp (own_header p') /\ header_length (header q) = le_length (own_header p') /\
       exercise_id (header q) = le_exercise_id (own_header p')) /\
  (forall p buf p' out, serialize k p buf = Ok (ROk tt, p', buf ++ out) ->
     forall rest, exists q, own_deserialize live (out ++ rest) = Ok (ROk q, rest) /\ own_body q = body p /\
       le_pdu_type (own_header q) = pdu_type (header p') /\ le_protocol_family (own_header q) = protocol_family (header p') /\
       le_timestamp (own_header q) = timestamp (header p') /\ le_length (own_header q) = header_length (header p') /\
       le_exercise_id (own_header q) = exercise_id (header p')).
Proof.
  intros k ns F live. assert (M := fixed_fields_measured _ _ F). assert (A := fixed_no_attr _ _ F).
  assert (Cross1 : forall h rest, exists g, PduHeader_deserialize (LiveEntityPduHeader_serialize h ++ rest) = Ok (g, rest) /\
    pdu_type g = le_pdu_type h /\ protocol_family g = le_protocol_family h /\ timestamp g = le_timestamp h /\
    header_length g = le_length h /\ exercise_id g = le_exercise_id h).
  { intros h rest.
    exists (mk_PduHeader (le_protocol_version h) (le_exercise_id h) (le_pdu_type h) (le_protocol_family h) (le_timestamp h) (le_length h)
              (mk_status (as_u8 (code (le_subprotocol_number h)))) (le_padding h)).
    split; [|repeat split].
    exact (header_rt (mk_PduHeader (le_protocol_version h) (le_exercise_id h) (le_pdu_type h) (le_protocol_family h) (le_timestamp h) (le_length h)
              (mk_status (as_u8 (code (le_subprotocol_number h)))) (le_padding h)) rest). }
  assert (Cross2 : forall h rest, exists g, LiveEntityPduHeader_deserialize (PduHeader_serialize h ++ rest) = Ok (g, rest) /\
    le_pdu_type g = pdu_type h /\ le_protocol_family g = protocol_family h /\ le_timestamp g = timestamp h /\
    le_length g = header_length h /\ le_exercise_id g = exercise_id h).
  { intros h rest.
    exists (mk_LiveEntityPduHeader (protocol_version h) (exercise_id h) (pdu_type h) (protocol_family h) (timestamp h) (header_length h)
              (enum_default DISLiveEntitySubprotocolNumber_spec) (header_padding h)). split; [|repeat split].
    destruct h as [v ex t f ts len [st] pad].
    destruct (enum_deserialize_byte DISLiveEntitySubprotocolNumber_spec st (put_u8 pad ++ rest) eq_refl) as [x [Hx Cx]].
    assert (Zx : x = enum_default DISLiveEntitySubprotocolNumber_spec) by (apply enum_eq; rewrite Cx, known_zero by reflexivity; reflexivity).
    subst x. clear Cx.
    assert (Hx' : enum_deserialize DISLiveEntitySubprotocolNumber_spec (put_u8 st ++ put_u8 pad ++ rest) =
                  Ok (enum_default DISLiveEntitySubprotocolNumber_spec, put_u8 pad ++ rest))
      by (rewrite (put_u8_single st); exact Hx).
    clear Hx. rename Hx' into Hx.
    unfold PduHeader_serialize, LiveEntityPduHeader_deserialize, sr_to_u8. cbn [protocol_version exercise_id pdu_type protocol_family timestamp header_length status_record status_byte header_padding].
    rewrite <- ?app_assoc. revert Hx. fx_expose. intros Hx. do 6 fx_read1.
    refine (eq_trans (bind_ok _ _ _ _ _ _ _ Hx) _). cbv beta. fx_read1. reflexivity. }
  split.
  - intros p buf p' out S rest.
    destruct (own_serialize_ok live 12 (proj2 C75_headers) _ _ _ _ S) as [fb [-> [W [Eb T]]]].
    rewrite (no_attr_prep _ A) in Eb.
    destruct (Cross1 (own_header p') (fb ++ rest)) as [g [Hg G]]. rewrite <- app_assoc. unfold deserialize.
    change (ht_serialize (oc_header live)) with LiveEntityPduHeader_serialize. rewrite Hg.
    rewrite (proj1 G). change (le_pdu_type (own_header p') = cls_type k) in T. rewrite T, enum_eqb_refl.
    rewrite (fixed_decode _ _ F [] _ _ rest W). eexists. split; [reflexivity|]. split; [exact Eb|]. cbn [header]. 
    rewrite <- T. exact G.
  - intros p buf p' out S rest. destruct (user_decode _ _ _ _ _ S) as [fb [-> [Eb [W [_ _]]]]].
    rewrite (no_attr_prep _ A) in Eb.
    destruct (serialize_ok _ _ _ _ _ S) as [_ [len [_ [_ [_ [Eh _]]]]]].
    assert (T : pdu_type (header p') = cls_type k) by (rewrite Eh; reflexivity). clear Eh.
    destruct (Cross2 (header p') (fb ++ rest)) as [g [Hg G]]. rewrite <- app_assoc. unfold own_deserialize.
    change (ht_deserialize (oc_header live)) with LiveEntityPduHeader_deserialize. rewrite Hg.
    change (ht_pdu_type (oc_header live) g) with (le_pdu_type g). rewrite (proj1 G), T.
    change (cls_type (oc_class live)) with (cls_type k). rewrite enum_eqb_refl. unfold own_deserialize_without_header.
    change (body_deserialize [] (oc_fields live) (fb ++ rest)) with (body_deserialize [] (cls_fields k) (fb ++ rest)).
    rewrite (fixed_decode _ _ F [] _ _ rest W). eexists. split; [reflexivity|]. split; [exact Eb|]. cbn [own_header].
    rewrite <- T. exact G.
Qed.

(** ** A header as a field *)

(** [PduHeader] itself is a field type of twelve bytes, so a class may carry the header of
    another PDU among its fields. *)
Theorem C75_header_as_field : fixed_size 12 PduHeader_codec.
Proof.
  destruct PduHeader_fixed as [W [R [S E]]]. split.
  - intros v. exists (PduHeader_serialize v). split; [reflexivity | apply W].
  - reflexivity.
  - intros v b rest [= <-]. apply R.
  - exact E.
  - exact S.
Qed.

(** ** The live-entity header's constructors (C33) *)

(** Every live-entity header, byte by byte (the subprotocol number has a single variant). *)
Theorem C33_live_header_layout : forall h : LiveEntityPduHeader,
  LiveEntityPduHeader_serialize h =
  [B (code (le_protocol_version h)); le_exercise_id h; B (code (le_pdu_type h)); B (code (le_protocol_family h))] ++
  be4 (uval (le_timestamp h)) ++ be2 (uval (le_length h)) ++ [B 0; le_padding h].
Proof.
  intros h. assert (Z : code (le_subprotocol_number h) = 0).
  { destruct (le_subprotocol_number h) as [n Hn]. cbn [code]. apply existsb_exists in Hn as [y [[<-|[]] E]]. apply N.eqb_eq, E. }
  refine (eq_trans (header_layout (mk_PduHeader (le_protocol_version h) (le_exercise_id h) (le_pdu_type h) (le_protocol_family h)
           (le_timestamp h) (le_length h) (mk_status (as_u8 (code (le_subprotocol_number h)))) (le_padding h))) _).
  rewrite Z. reflexivity.
Qed.
(** [new] and [default], the timestamp being whatever the clock gave. *)
Theorem C33_live_header_new :
  (forall ts t f ex len, let h := LiveEntityPduHeader_new ts t f ex len in
     le_pdu_type h = t /\ le_protocol_family h = f /\ le_exercise_id h = ex /\ le_length h = len /\ le_timestamp h = ts /\
     LiveEntityPduHeader_serialize h = [B 7; ex; B (code t); B (code f)] ++ be4 (uval ts) ++ be2 (uval len) ++ [B 0; B 0]) /\
  (forall ts, LiveEntityPduHeader_serialize (LiveEntityPduHeader_default ts) = [B 7; B 1; B 0; B 0] ++ be4 (uval ts) ++ [B 0; B 0; B 0; B 0]).
Proof.
  split.
  - intros ts t f ex len h. do 5 (split; [reflexivity|]). rewrite C33_live_header_layout. reflexivity.
  - intros ts. rewrite C33_live_header_layout. reflexivity.
Qed.

(** ** Example: a class with the live-entity header *)
Definition LiveFire : own_class := mk_own_class LiveEntityPduHeader_type
  (class_of "LiveFire" PduType_LiveEntityFire ProtocolFamily_LiveEntityInformationInteraction
     [plain "round" u16_codec (as_u16 0); u8_field "flags"]%string).
Example C75_example_promises : keeps_promises (oc_header LiveFire) 12 /\ fixed_fields (oc_fields LiveFire) [2; 1]%nat.
Proof.
  destruct C62_field_types as [T1 [_ [T2 _]]]. split; [apply C75_headers|].
  do 2 (apply Forall2_cons; [split; [reflexivity | assumption]|]); apply Forall2_nil.
Qed.
Example C75_example :
  (match own_serialize LiveFire (mk_own (c := LiveFire) (LiveEntityPduHeader_default (as_u32 5)) (as_u16 258, (B 9, tt))) [B 1] with
   | Ok (ROk _, _, out) => map (@uval 1) out
   | _ => []
   end) = [1; 7; 1; 49; 11; 0; 0; 0; 5; 0; 15; 0; 0; 1; 2; 9] /\
  (match own_deserialize LiveFire (map B [7; 1; 2; 11; 0; 0; 0; 5; 0; 15; 0; 0; 1; 2; 9]) with
   | Ok (RErr (InvalidHeader want got), rest) => (code want, code got, length rest)
   | _ => (0, 0, 0%nat)
   end) = (49, 2, 3%nat) /\
  uval (le_length (own_header (own_new LiveFire (as_u32 5)))) = 15.
Proof. vm_compute. repeat split. Qed.
(** A class that carries the header of the PDU it answers. *)
Example C75_tunnel : fixed_fields [plain "answered" PduHeader_codec (PduHeader_default (as_u32 0)); u8_field "verdict"]%string [12; 1]%nat.
Proof.
  destruct C62_field_types as [T1 _].
  apply Forall2_cons; [split; [reflexivity | exact C75_header_as_field]|].
  apply Forall2_cons; [split; [reflexivity | assumption]|]. apply Forall2_nil.
Qed.

Definition Prop_OwnHeader_theorems : True :=
  let _ := @C75_headers in
  let _ := @C75_with_PduHeader in
  let _ := @C75_serialize in
  let _ := @C75_fixed_class in
  let _ := @C75_announced_length in
  let _ := @C75_wrong_length_constant in
  let _ := @C75_headers_interoperate in
  let _ := @C75_header_as_field in
  let _ := @C33_live_header_layout in
  let _ := @C33_live_header_new in
  I.
Print Assumptions Prop_OwnHeader_theorems.
