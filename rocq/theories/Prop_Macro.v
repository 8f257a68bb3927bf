(** * Classes that users define with [define_pdu!] (C62).
    Vocabulary in [Spec] and [SpecMacro]. Nothing here mentions the 66 library classes: the
    theorems hold for every class description whose field types keep the stated promises. *)
From Verif Require Import Base BaseFacts EnumModel Enums EnumFacts Fixed Header HeaderFacts HeaderProofs PduMacro PduMacroFacts
  DataTypes DataTypesFacts Pdus PduFields PdusFacts ClassFacts PduProofs Spec SpecMacro MacroFacts.

Lemma fixed_no_attr fs ns : fixed_fields fs ns -> Forall (fun f => f_len_attr f = None) fs.
Proof. induction 1 as [|f n fs ns [A _] _ IH]; constructor; assumption. Qed.
Lemma user_decode c p buf p' out : serialize c p buf = Ok (ROk tt, p', buf ++ out) ->
  exists fb, out = PduHeader_serialize (header p') ++ fb /\ body p' = prep_body (cls_fields c) (body p) /\
    body_serialize (cls_fields c) (body p') = Ok fb /\ length out = (12 + length fb)%nat /\
    forall rest, deserialize c (out ++ rest) =
      match body_deserialize [] (cls_fields c) (fb ++ rest) with
      | Ok (v, r) => Ok (ROk (mk_pdu (header p') v), r)
      | Panic e => Panic e
      end.
Proof.
  intros S. destruct (serialize_ok _ _ _ _ _ S) as [fb [len [C [W [Eb [Eh E]]]]]].
  apply app_inv_head in E. exists fb. split; [exact E|]. split; [exact Eb|]. split; [rewrite Eb; exact W|].
  split; [rewrite E, app_length, header_ser_length; reflexivity|].
  intros rest. rewrite E, <- app_assoc. rewrite deserialize_ok by (rewrite Eh; reflexivity).
  destruct (body_deserialize _ _ _) as [[v r]|]; reflexivity.
Qed.

(** ** Serialization *)

(** If every field type writes as many bytes as it reports: [serialize] never panics; it
    appends the header and the fields, in order, and stamps the header with type, family and
    exactly the number of bytes appended; or, if that number exceeds 65535, it returns the
    error and leaves the buffer alone. *)
Theorem C62_serialize : forall (c : pdu_class), measured_fields (cls_fields c) -> forall p buf,
  exists p' field_bytes, written (cls_fields c) (body p') field_bytes /\
    let size := 12 + N.of_nat (length field_bytes) in
    (size <= 65535 /\ exists header_bytes,
       length header_bytes = 12%nat /\
       serialize c p buf = Ok (ROk tt, p', buf ++ header_bytes ++ field_bytes) /\
       PduHeader_deserialize header_bytes = Ok (header p', []) /\
       stamped (cls_type c) (cls_family c) (as_u16 size) (header p) (header p'))
    \/
    (65535 < size /\ serialize c p buf = Ok (RErr (PduSizeExceeded size 8192), p', buf) /\
       stamped (cls_type c) (cls_family c) (header_length (header p)) (header p) (header p')).
Proof.
  intros c M p buf. destruct (serialize_measured c M p buf) as [fb [W [[L [h [St E]]]|[L [h [St E]]]]]];
    cbv zeta in *; exists (mk_pdu h (prep_body (cls_fields c) (body p))), fb; cbn [body header].
  - split; [exact W|]. left. split; [exact L|]. exists (PduHeader_serialize h). split; [apply header_ser_length|].
    split; [exact E|]. split.
    + generalize (header_rt h []). rewrite app_nil_r. exact (fun x => x).
    + exact St.
  - split; [exact W|]. right. split; [exact L|]. split; [exact E | exact St].
Qed.
(** Without length annotations the fields are left unchanged. *)
Theorem C62_fields_kept : forall (c : pdu_class), Forall (fun f => f_len_attr f = None) (cls_fields c) ->
  forall p buf r p' buf', serialize c p buf = Ok (r, p', buf') -> body p' = body p.
Proof.
  intros c A p buf r p' buf' S. unfold serialize in S. cbv zeta in S. rewrite (no_attr_prep _ A) in S.
  destruct (calculate_length _ _); [destruct (body_serialize _ _); [|discriminate]|]; injection S as _ <- _; reflexivity.
Qed.

(** ** Classes of fixed-size fields *)
Theorem C62_fixed_class : forall (c : pdu_class) sizes, fixed_fields (cls_fields c) sizes ->
  let size := (12 + total sizes)%nat in
  (* serializing *)
  (forall p buf, N.of_nat size <= 65535 -> exists p' out, serialize c p buf = Ok (ROk tt, p', buf ++ out)) /\
  (forall p buf, 65535 < N.of_nat size -> exists p', serialize c p buf = Ok (RErr (PduSizeExceeded (N.of_nat size) 8192), p', buf)) /\
  (* the round trip *)
  (forall p buf p' out, serialize c p buf = Ok (ROk tt, p', buf ++ out) ->
     length out = size /\ body p' = body p /\ forall rest, deserialize c (out ++ rest) = Ok (ROk p', rest)) /\
  (* any input *)
  (forall bs, wire_type bs = code (cls_type c) -> (12 <= length bs < size)%nat -> deserialize c bs = Panic Underflow) /\
  (forall bs, wire_type bs = code (cls_type c) -> (size <= length bs)%nat ->
     exists q, deserialize c bs = Ok (ROk q, skipn size bs)) /\
  (forall bs, wire_type bs <> code (cls_type c) -> (12 <= length bs)%nat ->
     exists e, deserialize c bs = Ok (RErr e, skipn 12 bs)).
Proof.
  intros c ns F size.
  assert (M := fixed_fields_measured _ _ F). assert (A := fixed_no_attr _ _ F).
  assert (Lf : forall v fb, body_serialize (cls_fields c) v = Ok fb -> length fb = total ns)
    by (intros v fb W; apply (front_decode _ _ F [] v fb W)).
  assert (Ex : exact_reader (body_deserialize [] (cls_fields c)) (total ns)) by apply fixed_exact, F.
  assert (S : forall p buf, exists h', let b' := body p in
    (N.of_nat size <= 65535 -> exists out, serialize c p buf = Ok (ROk tt, mk_pdu h' b', buf ++ out)) /\
    (65535 < N.of_nat size -> serialize c p buf = Ok (RErr (PduSizeExceeded (N.of_nat size) 8192), mk_pdu h' b', buf))).
  { intros p buf. destruct (serialize_measured c M p buf) as [fb [W D]]. cbv zeta in D, W.
    apply written_iff, Lf in W. rewrite W in D. rewrite (no_attr_prep _ A) in D. unfold size.
    destruct D as [[L [h [_ E]]]|[L [h [_ E]]]]; exists h; cbv zeta; (split; intros; [|try lia]); try lia; eauto.
    rewrite E, Nat2N.inj_add. reflexivity. }
  split; [intros p buf L; destruct (S p buf) as [h [S1 _]]; destruct (S1 L) as [out E]; eauto|].
  split; [intros p buf L; destruct (S p buf) as [h [_ S2]]; eexists; apply S2, L|].
  split.
  { intros p buf p' out E. destruct (user_decode _ _ _ _ _ E) as [fb [_ [Eb [W [Lo D]]]]].
    rewrite (no_attr_prep _ A) in Eb. split; [rewrite Lo, (Lf _ _ W); reflexivity|]. split; [exact Eb|].
    intros rest. rewrite D, (fixed_decode _ _ F [] _ _ rest W). destruct p'; reflexivity. }
  assert (Dc : forall bs, (12 <= length bs)%nat -> wire_type bs = code (cls_type c) -> exists h,
     deserialize c bs = match body_deserialize [] (cls_fields c) (skipn 12 bs) with
                        | Panic e => Panic e | Ok (b, r) => Ok (ROk (mk_pdu h b), r) end).
  { intros bs L T. destruct (deserialize_cases c bs L) as [h [_ [_ E]]]. exists h. rewrite E, T, N.eqb_refl. reflexivity. }
  split; [|split].
  - intros bs T L. destruct (Dc bs) as [h E]; [lia | exact T|]. rewrite E.
    rewrite (proj1 Ex); [reflexivity|]. rewrite skipn_length. unfold size in L. lia.
  - intros bs T L. unfold size in *. destruct (Dc bs) as [h E]; [lia | exact T|]. rewrite E.
    destruct (proj2 Ex (firstn (total ns) (skipn 12 bs))) as [v R]; [rewrite firstn_length, skipn_length; lia|].
    specialize (R (skipn (total ns) (skipn 12 bs))). rewrite firstn_skipn in R. rewrite R.
    exists (mk_pdu h v). rewrite skipn_add, Nat.add_comm. reflexivity.
  - intros bs T L. destruct (deserialize_cases c bs L) as [h [_ [_ E]]]. apply N.eqb_neq in T. rewrite T in E. eauto.
Qed.

(** ** Fixed-size fields followed by lists, options and strings *)

(** The fixed fields come back, the others come back as their defaults and their bytes are
    left unread in the buffer. *)
Theorem C62_trailing_fields : forall name t fam front back sizes,
  fixed_fields front sizes -> Forall unread back -> measured_fields back ->
  let c := class_of name t fam (front ++ back) in
  forall h v w buf p' out,
  serialize c (mk_pdu (c := c) h (both front back v w)) buf = Ok (ROk tt, p', buf ++ out) ->
  body p' = both front back v w /\
  uval (header_length (header p')) = N.of_nat (length out) /\
  exists front_bytes back_bytes, written front v front_bytes /\ written back w back_bytes /\
    length front_bytes = total sizes /\ length out = (12 + total sizes + length back_bytes)%nat /\
    forall rest, deserialize c (out ++ rest) =
      Ok (ROk (mk_pdu (c := c) (header p') (both front back v (body_default back))), back_bytes ++ rest).
Proof.
  intros name t fam front back ns F U M c h v w buf p' out S.
  assert (A : Forall (fun f => f_len_attr f = None) (front ++ back)).
  { apply Forall_app. split; [eapply fixed_no_attr, F|]. revert U. apply Forall_impl. intros f [E _]. exact E. }
  assert (Mc : measured_fields (cls_fields c)).
  { apply Forall_app. split; [eapply fixed_fields_measured, F | exact M]. }
  destruct (user_decode _ _ _ _ _ S) as [fb [Eo [Eb [W [Lo D]]]]].
  assert (Ep : prep_body (cls_fields c) (both front back v w) = both front back v w) by (apply no_attr_prep, A).
  cbn [body] in Eb. rewrite Ep in Eb. split; [exact Eb|].
  split.
  { destruct (serialize_ok _ _ _ _ _ S) as [fb' [len [C [W' [_ [Eh _]]]]]]. cbn [body] in W', C. rewrite Ep in W', C.
    apply calc_ok in C. cbn [body] in C. rewrite Eh. cbn [set_length header_length]. rewrite C.
    rewrite <- (body_len_ok _ (measured_lens _ Mc) _ _ W'). rewrite Eb, W' in W. injection W as <-.
    rewrite Lo, Nat2N.inj_add. reflexivity. }
  rewrite Eb in W. cbn [cls_fields c class_of] in W. rewrite both_serialize in W. apply wapp_ok in W as [b1 [b2 [W1 [W2 ->]]]].
  destruct (front_decode _ _ F [] _ _ W1) as [L1 R].
  exists b1, b2. split; [apply written_iff, W1|]. split; [apply written_iff, W2|]. split; [exact L1|].
  split; [rewrite Lo, app_length; lia|].
  intros rest. rewrite D. cbn [cls_fields c class_of]. rewrite <- app_assoc, R.
  rewrite (unread_decode _ U). reflexivity.
Qed.

(** ** Any order *)

(** Whatever the order of fixed-size and unread fields: decoding needs exactly the bytes of
    the fixed-size fields, consumes exactly them, and depends on nothing else. *)
Theorem C62_any_order : forall (c : pdu_class) sizes, mixed_fields (cls_fields c) sizes ->
  let size := (12 + mixed_total sizes)%nat in
  (forall bs, (length bs < 12)%nat -> deserialize c bs = Panic Underflow) /\
  (forall bs, wire_type bs = code (cls_type c) -> (length bs < size)%nat -> deserialize c bs = Panic Underflow) /\
  (forall bs, wire_type bs = code (cls_type c) -> length bs = size ->
     exists q, forall rest, deserialize c (bs ++ rest) = Ok (ROk q, rest)).
Proof.
  intros c ks F size. assert (Ex := mixed_exact _ _ F []).
  assert (Dc : forall bs, (12 <= length bs)%nat -> wire_type bs = code (cls_type c) -> exists h,
     PduHeader_deserialize bs = Ok (h, skipn 12 bs) /\
     deserialize c bs = match body_deserialize [] (cls_fields c) (skipn 12 bs) with
                        | Panic e => Panic e | Ok (b, r) => Ok (ROk (mk_pdu h b), r) end).
  { intros bs L T. destruct (deserialize_cases c bs L) as [h [Hd [_ E]]]. exists h. split; [exact Hd|]. rewrite E, T, N.eqb_refl. reflexivity. }
  split; [intros bs L; apply deserialize_short, L|]. split.
  - intros bs T L. destruct (Nat.lt_ge_cases (length bs) 12) as [K|K]; [apply deserialize_short, K|].
    destruct (Dc bs K T) as [h [_ E]]. rewrite E. rewrite (proj1 Ex); [reflexivity|]. rewrite skipn_length. unfold size in L. lia.
  - intros bs T L. unfold size in L. destruct (Dc bs) as [h [Hd _]]; [lia | exact T|].
    destruct (proj2 Ex (skipn 12 bs)) as [v R]; [rewrite skipn_length; lia|]. exists (mk_pdu h v). intros rest.
    assert (Hr : PduHeader_deserialize (bs ++ rest) = Ok (h, skipn 12 bs ++ rest)).
    { rewrite <- (firstn_skipn 12 bs) in Hd |- *. rewrite <- app_assoc.
      destruct (proj2 (proj2 (proj2 PduHeader_fixed)) (firstn 12 bs)) as [h' Hh]; [rewrite firstn_length; lia|].
      rewrite Hh in Hd |- *. injection Hd as ->. rewrite firstn_skipn. reflexivity. }
    unfold deserialize. rewrite Hr.
    assert (K : enum_eqb (pdu_type h) (cls_type c) = true).
    { destruct (deserialize_cases c bs) as [h2 [Hd2 [T2 _]]]; [lia|]. rewrite Hd in Hd2. injection Hd2 as <-.
      unfold enum_eqb. rewrite T2, T. apply N.eqb_refl. }
    rewrite K, R. reflexivity.
Qed.

(** A number that follows a list is read from the bytes of the list: with at least as many
    list bytes as the number has, the number sent plays no role. *)
Theorem C62_number_after_list : forall name t fam front lst num back sizes n,
  fixed_fields front sizes -> unread lst -> f_len_attr num = None -> fixed_size n (f_codec num) -> Forall unread back ->
  let c := class_of name t fam (front ++ lst :: num :: back) in
  forall h v l x w buf p' out list_bytes,
  serialize c (mk_pdu (c := c) h (both front (lst :: num :: back) v (l, (x, w)))) buf = Ok (ROk tt, p', buf ++ out) ->
  c_ser (f_codec lst) l = Ok list_bytes -> (n <= length list_bytes)%nat ->
  exists x', c_des (f_codec num) list_bytes = Ok (x', skipn n list_bytes) /\
    forall rest, deserialize c (out ++ rest) =
      Ok (ROk (mk_pdu (c := c) (header p') (both front (lst :: num :: back) v (f_default lst, (x', body_default back)))),
          skipn (12 + total sizes + n) out ++ rest).
Proof.
  intros name t fam front lst num back ns n F [Al Ul] An Hn U c h v l x w buf p' out lb S Hl Ln.
  assert (A : Forall (fun f => f_len_attr f = None) (front ++ lst :: num :: back)).
  { apply Forall_app. split; [eapply fixed_no_attr, F|]. constructor; [exact Al|]. constructor; [exact An|].
    revert U. apply Forall_impl. intros f [E _]. exact E. }
  destruct (user_decode _ _ _ _ _ S) as [fb [Eo [Eb [W [Lo D]]]]].
  cbn [body] in Eb. rewrite (no_attr_prep (cls_fields c) A) in Eb.
  rewrite Eb in W. cbn [cls_fields c class_of] in W. rewrite both_serialize in W. apply wapp_ok in W as [b1 [b2 [W1 [W2 ->]]]].
  cbn [body_serialize fst snd] in W2. rewrite Hl in W2. apply wapp_ok in W2 as [b3 [b4 [E3 [W4 ->]]]]. injection E3 as <-.
  destruct (front_decode _ _ F [] _ _ W1) as [L1 R].
  destruct (fixed_reads _ _ Hn (firstn n lb)) as [x' Hx]; [rewrite firstn_length; lia|].
  exists x'. split; [rewrite <- (firstn_skipn n lb) at 1; apply Hx|].
  intros rest. rewrite D. cbn [cls_fields c class_of]. rewrite <- app_assoc, R.
  cbn [body_deserialize]. unfold field_deserialize. rewrite Al, An.
  rewrite (bind_ok _ _ _ _ _ _ _ (Ul _)).
  assert (E : (lb ++ b4) ++ rest = firstn n lb ++ (skipn n lb ++ b4) ++ rest).
  { rewrite !app_assoc. now rewrite firstn_skipn. }
  rewrite E. unfold bind at 1. rewrite (bind_ok _ _ _ _ _ _ _ (Hx _)).
  rewrite (bind_ok _ _ _ _ _ _ _ (unread_decode _ U _ _)). unfold ret.
  assert (Q : skipn (12 + total ns + n) out = skipn n lb ++ b4).
  { rewrite Eo, app_assoc, skipn_app, (skipn_all2 (PduHeader_serialize _ ++ b1)) by (rewrite app_length, header_ser_length, L1; lia).
    rewrite app_length, header_ser_length, L1. replace (12 + total ns + n - (12 + total ns))%nat with n by lia.
    cbn [app]. rewrite skipn_app. replace (n - length lb)%nat with 0%nat by lia. reflexivity. }
  rewrite Q. reflexivity.
Qed.

(** ** [#[len = l]] *)

(** One annotated field of any type [T], measured, with the length-aware reader [r], after
    the fixed fields [front] that contain the [u8] field [l], followed by unread fields:
    [serialize] stores the size of the field in [l] (0 if it exceeds 255) and changes nothing
    else; decoding hands that number to the reader. *)
Theorem C62_length_annotation : forall name t fam front fname T (d : T) (ct : codec T) l r back sizes,
  fixed_fields front sizes -> Forall unread back -> measured ct -> measured_fields back ->
  In (u8_field l) front -> NoDup (map f_name front) ->
  let annotated := len_field fname ct d l r in
  let c := class_of name t fam (front ++ annotated :: back) in
  forall h v x w buf p' out b,
  serialize c (mk_pdu (c := c) h (both front (annotated :: back) v (x, w))) buf = Ok (ROk tt, p', buf ++ out) ->
  c_ser ct x = Ok b ->
  let stored := if N.of_nat (length b) <=? 255 then N.of_nat (length b) else 0 in
  exists v' back_bytes,
    body p' = both front (annotated :: back) v' (x, w) /\
    byte_field l front v' = Some stored /\ reset_fields [l] front v' = reset_fields [l] front v /\
    written back w back_bytes /\ length out = (12 + total sizes + length b + length back_bytes)%nat /\
    uval (header_length (header p')) = N.of_nat (length out) /\
    forall rest, deserialize c (out ++ rest) =
      match r stored (b ++ back_bytes ++ rest) with
      | Ok (y, unread_bytes) =>
          Ok (ROk (mk_pdu (c := c) (header p') (both front (annotated :: back) v' (y, body_default back))), unread_bytes)
      | Panic e => Panic e
      end.
Proof.
  intros name t fam front fname T d ct l r back ns F U Mt M I ND annotated c h v x w buf p' out b S Hb stored.
  assert (Af := fixed_no_attr _ _ F).
  assert (Ul : forall f, In f front -> f_name f = l -> f = u8_field l).
  { clear - I ND. induction front as [|g fs IH]; [destruct I|]. cbn [map] in ND. inversion ND as [|? ? N1 N2]; subst.
    intros f Hf E. destruct I as [->|I], Hf as [->|Hf].
    - reflexivity.
    - exfalso. apply N1. cbn [f_name u8_field]. rewrite <- E. apply in_map, Hf.
    - exfalso. apply N1. rewrite E. change l with (f_name (u8_field l)). apply in_map, I.
    - apply IH; assumption. }
  assert (Il : In l (map f_name front)) by (change l with (f_name (u8_field l)); apply in_map, I).
  assert (Mc : measured_fields (cls_fields c)).
  { apply Forall_app. split; [eapply fixed_fields_measured, F|]. constructor; [exact Mt | exact M]. }
  assert (Lb : c_len ct x = N.of_nat (length b)).
  { destruct (Mt x) as [b' [Hb' E]]. rewrite Hb in Hb'. injection Hb' as <-. exact E. }
  assert (Es : uval (len_byte (c_len ct x)) = stored).
  { unfold stored. rewrite Lb. unfold len_byte, try_uint. change (256 ^ N.of_nat 1) with 256.
    generalize (N.of_nat (length b)). intros k. destruct (N.leb_spec k 255), (N.ltb_spec k 256); try lia; [|reflexivity].
    unfold as_u8. rewrite as_uint_val; [reflexivity | cbn; lia]. }
  assert (Nb : len_updates back w = []).
  { apply no_len_updates. clear - U. induction U as [|f fs [E _] _ IH]; [reflexivity|]. cbn [no_len_attr forallb]. now rewrite E. }
  set (v' := assign_u8 l (len_byte (c_len ct x)) front v).
  assert (Ep : prep_body (cls_fields c) (both front (annotated :: back) v (x, w)) = both front (annotated :: back) v' (x, w)).
  { unfold prep_body. cbn [cls_fields c class_of]. rewrite both_len_updates by exact Af.
    cbn [len_updates annotated len_field f_len_attr f_codec fst snd]. rewrite Nb. cbn [assign_all]. apply both_assign; assumption. }
  destruct (user_decode _ _ _ _ _ S) as [fb [Eo [Eb [W [Lo D]]]]]. cbn [body] in Eb.
  change (body p' = prep_body (cls_fields c) (both front (annotated :: back) v (x, w))) in Eb. rewrite Ep in Eb.
  assert (Wc := W). assert (Wh := body_len_ok _ (measured_lens _ Mc) _ _ W).
  rewrite Eb in W. cbn [cls_fields c class_of] in W. rewrite both_serialize in W. apply wapp_ok in W as [b1 [b2 [W1 [W2 ->]]]].
  change (wapp (c_ser ct x) (body_serialize back w) = Ok b2) in W2. rewrite Hb in W2. apply wapp_ok in W2 as [b3 [b4 [E3 [W4 ->]]]]. injection E3 as <-.
  destruct (front_decode _ _ F [] _ _ W1) as [L1 R].
  exists v', b4. split; [exact Eb|].
  assert (Bf : byte_field l front v' = Some stored) by (unfold v'; rewrite assign_byte, Es by assumption; reflexivity).
  split; [exact Bf|]. split; [apply assign_reset|]. split; [apply written_iff, W4|].
  split; [rewrite Lo, !app_length; lia|]. split.
  { destruct (serialize_ok _ _ _ _ _ S) as [fb' [len [C [_ [Eb' [Eh _]]]]]].
    apply calc_ok in C. rewrite Eh. cbn [set_length header_length]. rewrite C.
    change (PduHeader_LENGTH + body_len (cls_fields c) (prep_body (cls_fields c) (both front (annotated :: back) v (x, w))) = N.of_nat (length out)).
    rewrite Ep, <- Eb, <- Wh. unfold lenN. rewrite Lo, Nat2N.inj_add. reflexivity. }
  intros rest. rewrite D. cbn [cls_fields c class_of]. rewrite <- app_assoc, R.
  cbn [body_deserialize].
  assert (Fd : forall env, field_deserialize env annotated = match lookup l env with Some n => r n | None => rfail NotImplemented end) by reflexivity.
  rewrite Fd, (env_byte l front Il ND Ul), Bf. unfold bind at 1. rewrite <- app_assoc.
  destruct (r stored (b ++ b4 ++ rest)) as [[y u]|e]; [|reflexivity].
  rewrite (bind_ok _ _ _ _ _ _ _ (unread_decode _ U _ _)). reflexivity.
Qed.

(** An optional field: recovered when its value is written as 1 to 255 bytes, absent
    otherwise; the bytes of a longer value stay unread. [r] must read back what was written
    when given its size, for sizes from 1 to 255. *)
Theorem C62_optional_field : forall name t fam front fname T (ct : codec T) l r back sizes,
  fixed_fields front sizes -> Forall unread back -> measured ct -> measured_fields back ->
  In (u8_field l) front -> NoDup (map f_name front) ->
  (forall x b rest, c_ser ct x = Ok b -> 1 <= N.of_nat (length b) <= 255 -> r (N.of_nat (length b)) (b ++ rest) = Ok (x, rest)) ->
  let annotated := len_field fname (option_codec ct) None l (option_deserialize_with_len r) in
  let c := class_of name t fam (front ++ annotated :: back) in
  forall h v o w buf p' out,
  serialize c (mk_pdu (c := c) h (both front (annotated :: back) v (o, w))) buf = Ok (ROk tt, p', buf ++ out) ->
  exists v' size back_bytes,
    match o with Some x => exists b, c_ser ct x = Ok b /\ size = length b | None => size = 0%nat end /\
    body p' = both front (annotated :: back) v' (o, w) /\ reset_fields [l] front v' = reset_fields [l] front v /\
    written back w back_bytes /\
    forall rest,
    (N.of_nat size <= 255 -> byte_field l front v' = Some (N.of_nat size) /\
       deserialize c (out ++ rest) =
         Ok (ROk (mk_pdu (c := c) (header p') (both front (annotated :: back) v'
                   (if Nat.eqb size 0 then None else o, body_default back))), back_bytes ++ rest)) /\
    (255 < N.of_nat size -> byte_field l front v' = Some 0 /\
       deserialize c (out ++ rest) =
         Ok (ROk (mk_pdu (c := c) (header p') (both front (annotated :: back) v' (None, body_default back))),
             skipn (12 + total sizes) out ++ rest)).
Proof.
  intros name t fam front fname T ct l r back ns F U Mt M I ND Hr annotated c h v o w buf p' out S.
  assert (Mo : measured (option_codec ct)).
  { apply measured_of. apply measured_of in Mt as [M1 M2]. split; [apply option_ser_total, M1 | apply option_len_ok, M2]. }
  destruct (Mo o) as [b [Hb Lb]].
  destruct (C62_length_annotation name t fam front fname (option T) None (option_codec ct) l (option_deserialize_with_len r) back ns
              F U Mo M I ND h v o w buf p' out b S Hb) as [v' [bb [Eb [Bf [Rf [Wb [Lo [_ D]]]]]]]].
  destruct (user_decode _ _ _ _ _ S) as [fb [Eo [_ [W [Lf _]]]]].
  exists v', (length b), bb.
  split; [destruct o as [x|]; cbn [option_codec c_ser] in Hb; [eauto | injection Hb as <-; reflexivity]|].
  split; [exact Eb|]. split; [exact Rf|]. split; [exact Wb|].
  intros rest. specialize (D rest). destruct (N.leb_spec (N.of_nat (length b)) 255) as [K|K]; split; intros K'; try lia;
    (split; [exact Bf|]).
  - refine (eq_trans D _). unfold option_deserialize_with_len.
    destruct (N.eqb_spec (N.of_nat (length b)) 0) as [Z|Z].
    + destruct b; [|discriminate]. reflexivity.
    + destruct o as [x|]; cbn [option_codec c_ser] in Hb; [|injection Hb as <-; cbn in Z; lia].
      assert (K1 : 1 <= N.of_nat (length b) <= 255) by lia. rewrite (bind_ok _ _ _ _ _ _ _ (Hr _ _ _ Hb K1)). destruct b; [cbn in Z; lia | reflexivity].
  - refine (eq_trans D _). unfold option_deserialize_with_len. cbn [N.eqb ret]. unfold ret.
    assert (Q : skipn (12 + total ns) out = b ++ bb).
    { assert (W0 : body_serialize (front ++ annotated :: back) (both front (annotated :: back) v' (o, w)) = Ok fb).
      { refine (eq_trans _ W). f_equal. symmetry. exact Eb. }
      clear W. rename W0 into W. rewrite both_serialize in W. apply wapp_ok in W as [b1 [b2 [W1 [W2 ->]]]].
      change (wapp (c_ser (option_codec ct) o) (body_serialize back w) = Ok b2) in W2. rewrite Hb in W2.
      apply wapp_ok in W2 as [b3 [b4 [E3 [W4 ->]]]]. injection E3 as <-. apply written_iff in Wb. rewrite Wb in W4. injection W4 as <-.
      destruct (front_decode _ _ F [] _ _ W1) as [L1 _].
      rewrite Eo, app_assoc, skipn_app, (skipn_all2 (PduHeader_serialize _ ++ b1)) by (rewrite app_length, header_ser_length, L1; lia).
      rewrite app_length, header_ser_length, L1, Nat.sub_diag. reflexivity. }
    rewrite Q, <- app_assoc. reflexivity.
Qed.

(** ** Which field types keep the promises *)

(** Numbers; lists, options and strings. *)
Theorem C62_field_types :
  fixed_size 1 u8_codec /\ fixed_size 1 i8_codec /\ fixed_size 2 u16_codec /\ fixed_size 2 i16_codec /\
  fixed_size 4 u32_codec /\ fixed_size 4 i32_codec /\ fixed_size 8 u64_codec /\ fixed_size 8 i64_codec /\
  fixed_size 4 f32_codec /\ fixed_size 8 f64_codec /\
  (forall T (c : codec T) n, fixed_size n c -> measured c) /\
  (forall T (c : codec T), measured c -> measured (vec_codec c) /\ measured (option_codec c)) /\ measured string_codec /\
  (forall T (c : codec T) name, unread (plain name (vec_codec c) []) /\ unread (plain name (option_codec c) None)) /\
  (forall name, unread (plain name string_codec [])).
Proof.
  do 10 (split; [apply fixed_size_codec; auto with cd nocore|]).
  split; [intros T c n; apply fixed_measured|].
  split; [intros T c H; apply measured_of in H as [M1 M2]; split; apply measured_of; split;
          auto using vec_ser_total, vec_len_ok, option_ser_total, option_len_ok|].
  split; [intros v; exists v; split; reflexivity|].
  split; [intros; split; split; reflexivity | intros; split; reflexivity].
Qed.
(** Every field of an ordinary library class is of a fixed size or unread, and every field of
    a library class with exact lengths is measured: users can combine them at will. *)
Theorem C62_library_fields : forall m c f, In c (all_pdus m) -> In f (cls_fields c) ->
  (ordinary c -> (exists n, f_len_attr f = None /\ fixed_size n (f_codec f)) \/ unread f) /\
  (exact_length c -> measured (f_codec f)).
Proof.
  intros m c f Ic If. split.
  - intros O. revert f If. apply (proj1 (Forall_forall (fun f => (exists n, f_len_attr f = None /\ fixed_size n (f_codec f)) \/ unread f) (cls_fields c))).
    revert O. revert c Ic. by_class. all_classes ltac:(intros E; vm_compute in E; first [discriminate E |
      clear E; repeat (apply Forall_cons; [first
        [ left; eexists; split; [reflexivity | apply fixed_size_codec; cdx]
        | right; split; [reflexivity | apply sk_des; cdx] ]|]); apply Forall_nil]).
  - intros X. apply measured_of.
    assert (R : mem_string (cls_name c) record_specification_pdus = false).
    { unfold exact_length, mem_string, inexact_length_pdus in X. unfold mem_string, record_specification_pdus.
      cbn [existsb] in *. repeat (apply orb_false_elim in X; destruct X as [? X]).
      rewrite ?orb_false_r. apply orb_false_intro; assumption. }
    split.
    + exact (proj1 (Forall_forall _ _) (all_ser_total m c Ic R) f If).
    + exact (proj1 (Forall_forall _ _) (all_len_ok m c Ic X) f If).
Qed.

(** ** Examples: a beacon class of a user, with an optional payload and two trailing lists. *)
Definition beacon_front : list field := [plain "station" u16_codec (as_u16 0); u8_field "payload_length"; plain "power" f32_codec (as_u32 0)]%string.
Definition beacon_back : list field := [plain "readings" (vec_codec u16_codec) []; plain "remark" string_codec []]%string.
Definition beacon_payload : field :=
  len_field "payload" (option_codec ModulationParameters_codec) None "payload_length" (option_deserialize_with_len ModulationParameters_deserialize_with_len).
Definition BeaconPdu : pdu_class :=
  class_of "BeaconPdu" PduType_Fire ProtocolFamily_Warfare (beacon_front ++ beacon_payload :: beacon_back).

(** The hypotheses of [C62_optional_field] and [C62_length_annotation] hold for it. *)
Example C62_beacon_promises :
  fixed_fields beacon_front [2; 1; 4]%nat /\ Forall unread beacon_back /\ measured ModulationParameters_codec /\
  measured_fields beacon_back /\ In (u8_field "payload_length") beacon_front /\ NoDup (map f_name beacon_front) /\
  (forall x b rest, c_ser ModulationParameters_codec x = Ok b -> 1 <= N.of_nat (length b) <= 255 ->
     ModulationParameters_deserialize_with_len (N.of_nat (length b)) (b ++ rest) = Ok (x, rest)).
Proof.
  destruct C62_field_types as [T1 [_ [T2 [_ [_ [_ [_ [_ [T4 [_ [Fm [Vm [Sm [Uv Us]]]]]]]]]]]]]].
  split; [do 3 (apply Forall2_cons; [split; [reflexivity | assumption]|]); apply Forall2_nil|].
  split; [constructor; [apply Uv | constructor; [apply Us | constructor]]|].
  split; [apply measured_of; split; [eauto with cd nocore | apply ModulationParameters_lo]|].
  split; [constructor; [apply Vm, (Fm _ _ _ T2) | constructor; [apply Sm | constructor]]|].
  split; [right; left; reflexivity|].
  split; [repeat (apply NoDup_cons; [cbn; intuition discriminate|]); apply NoDup_nil|].
  intros [l] b rest [= Eb] K. assert (Es : ModulationParameters_serialize (mk_ModulationParameters l) = l) by apply concat_put_u8.
  assert (b = l) as -> by (rewrite <- Eb; exact Es). clear Eb Es. unfold ModulationParameters_deserialize_with_len, try_uint. change (256 ^ N.of_nat 1) with 256.
  change (@length u8 l) with (@length byte l) in *. set (k := N.of_nat (@length byte l)) in *.
  destruct (N.ltb_spec k 256) as [L|L]; [|lia].
  unfold ModulationParameters_deserialize. rewrite as_uint_val by (cbn; lia).
  destruct (N.eqb_spec k 0) as [Z|Z]; [lia|]. unfold k. rewrite Nat2N.id.
  unfold bind. rewrite repeat_get_u8. reflexivity.
Qed.
(** A beacon with a two-byte payload, two readings and a remark, as sent and as received. *)
Definition beacon : pdu BeaconPdu :=
  mk_pdu (c := BeaconPdu) (PduHeader_default (as_u32 5))
    (both beacon_front (beacon_payload :: beacon_back) (as_u16 258, (B 0, (as_u32 1065353216, tt)))
       (Some (mk_ModulationParameters [B 7; B 8]), ([as_u16 9; as_u16 10], ([B 72; B 105], tt)))).
Definition beacon_bytes : list N :=
  [7; 1; 2; 2; 0; 0; 0; 5; 0; 27; 0; 0;  1; 2;  2;  63; 128; 0; 0;  7; 8;  0; 9; 0; 10;  72; 105].
Example C62_beacon_sent :
  match serialize BeaconPdu beacon [] with
  | Ok (ROk _, _, out) => map (@uval 1) out = beacon_bytes
  | _ => False
  end.
Proof. vm_compute. reflexivity. Qed.
Example C62_beacon_received :
  match deserialize BeaconPdu (map B beacon_bytes) with
  | Ok (ROk q, rest) =>
      match (body q : values (beacon_front ++ beacon_payload :: beacon_back)) with
      | (station, (len, (power, (Some payload, (readings, (remark, _)))))) =>
          uval station = 258 /\ uval len = 2 /\ uval power = 1065353216 /\
          map (@uval 1) (ModulationParameters_record_specific_fields payload) = [7; 8] /\ readings = [] /\ remark = []
      | _ => False
      end /\ map (@uval 1) rest = [0; 9; 0; 10; 72; 105]
  | _ => False
  end.
Proof. vm_compute. repeat split. Qed.
(** A class with a number after a list: the count 5 arrives as 9, the list's first number. *)
Definition TrapPdu : pdu_class :=
  class_of "TrapPdu" PduType_Fire ProtocolFamily_Warfare [plain "items" (vec_codec u16_codec) []; plain "count" u16_codec (as_u16 0)]%string.
Example C62_trap :
  match serialize TrapPdu (mk_pdu (c := TrapPdu) (PduHeader_default (as_u32 0)) ([as_u16 9; as_u16 10], (as_u16 5, tt))) [] with
  | Ok (ROk _, _, out) =>
      match deserialize TrapPdu out with
      | Ok (ROk q, rest) => fst (body q) = [] /\ uval (fst (snd (body q))) = 9 /\ map (@uval 1) rest = [0; 10; 0; 5]
      | _ => False
      end
  | _ => False
  end.
Proof. vm_compute. repeat split. Qed.

(** What the theorems above rest on (one traversal for all of them; not part of the model). *)
Definition Prop_Macro_theorems : True :=
  let _ := @C62_serialize in
  let _ := @C62_fields_kept in
  let _ := @C62_fixed_class in
  let _ := @C62_trailing_fields in
  let _ := @C62_any_order in
  let _ := @C62_number_after_list in
  let _ := @C62_length_annotation in
  let _ := @C62_optional_field in
  let _ := @C62_field_types in
  let _ := @C62_library_fields in
  I.
Print Assumptions Prop_Macro_theorems.
