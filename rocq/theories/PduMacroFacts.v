(** * Facts about the generated PDU functions, for any class description (proofs only). *)
From Verif Require Import Base BaseFacts EnumModel Enums EnumFacts Fixed Header HeaderFacts PduMacro.

(** ** Codecs *)

(** Always [n] bytes, [field_len] says so, decoding gives [norm v]. *)
Record fixed_codec {T} (n : nat) (norm : T -> T) (c : codec T) : Prop := {
  fc_ser : forall v, exists b, c_ser c v = Ok b /\ length b = n /\ forall rest, c_des c (b ++ rest) = Ok (norm v, rest);
  fc_len : forall v, c_len c v = N.of_nat n;
  fc_exact : exact_reader (c_des c) n }.

(** Decoding ignores the buffer. *)
Record skip_codec {T} (d : T) (c : codec T) : Prop := {
  sk_des : forall bs, c_des c bs = Ok (d, bs);
  sk_ser : forall v, exists b, c_ser c v = Ok b }.

Definition len_ok {T} (c : codec T) : Prop := forall v b, c_ser c v = Ok b -> lenN b = c_len c v.
Definition ser_total {T} (c : codec T) : Prop := forall v, exists b, c_ser c v = Ok b.

Definition idn {T} (v : T) := v.

Lemma fixed_codec_of_rw {T} n (w : T -> bytes) r (l : T -> N) :
  fixed_rw n w r -> (forall v, l v = N.of_nat n) -> fixed_codec n idn (mk_codec (fun v => Ok (w v)) r l).
Proof.
  intros [L [R E]] Hl. split; cbn; [|exact Hl|exact E].
  intros v. exists (w v). split; [reflexivity|]. split; [apply L|]. intros; apply R.
Qed.

Lemma fixed_len_ok {T} n nf (c : codec T) : fixed_codec n nf c -> len_ok c.
Proof.
  intros H v b Hb. destruct (fc_ser _ _ _ H v) as [b' [Hs [L _]]].
  rewrite Hs in Hb. injection Hb as <-. rewrite (fc_len _ _ _ H). unfold lenN. now rewrite L.
Qed.
Lemma fixed_ser_total {T} n nf (c : codec T) : fixed_codec n nf c -> ser_total c.
Proof. intros H v. destruct (fc_ser _ _ _ H v) as [b [Hb _]]. eauto. Qed.

Lemma wconcat_ok {T} (w : T -> writer) l : (forall v, exists b, w v = Ok b) -> exists b, wconcat (map w l) = Ok b.
Proof.
  intros H. induction l as [|x l [b IH]]; cbn; [eauto|].
  destruct (H x) as [y Hy]. rewrite Hy, IH. cbn. eauto.
Qed.

Lemma vec_skip {T} (c : codec T) : ser_total c -> skip_codec [] (vec_codec c).
Proof. intros H; split; cbn; [reflexivity|]. intros v. apply wconcat_ok, H. Qed.
Lemma vec_len_ok {T} (c : codec T) : len_ok c -> len_ok (vec_codec c).
Proof.
  intros H v; cbn. induction v as [|x v IH]; intros b; cbn.
  - intros [= <-]. reflexivity.
  - intros E. apply wapp_ok in E. destruct E as [y [z [Hy [Hz ->]]]].
    rewrite lenN_app, (H _ _ Hy), (IH _ Hz). reflexivity.
Qed.
Lemma vec_ser_total {T} (c : codec T) : ser_total c -> ser_total (vec_codec c).
Proof. intros H v; apply wconcat_ok, H. Qed.
Lemma option_skip {T} (c : codec T) : ser_total c -> skip_codec None (option_codec c).
Proof. intros H; split; cbn; [reflexivity|]. intros [v|]; [apply H | eauto]. Qed.
Lemma option_len_ok {T} (c : codec T) : len_ok c -> len_ok (option_codec c).
Proof. intros H [v|] b; cbn; [apply H | intros [= <-]; reflexivity]. Qed.
Lemma option_ser_total {T} (c : codec T) : ser_total c -> ser_total (option_codec c).
Proof. intros H [v|]; cbn; [apply H | eauto]. Qed.

(** ** Length annotations *)

Definition no_len_attr (fs : list field) : bool :=
  forallb (fun f => match f_len_attr f with None => true | Some _ => false end) fs.

Lemma no_len_updates fs v : no_len_attr fs = true -> len_updates fs v = [].
Proof.
  induction fs as [|f fs IH]; cbn; [reflexivity|]. intros H. apply andb_true_iff in H. destruct H as [H1 H2].
  destruct (f_len_attr f); [discriminate|]. apply IH, H2.
Qed.
Lemma no_len_prep fs v : no_len_attr fs = true -> prep_body fs v = v.
Proof. intros H. unfold prep_body. rewrite no_len_updates by exact H. reflexivity. Qed.

(** ** Bodies *)

Lemma body_ser_total fs : Forall (fun f => ser_total (f_codec f)) fs -> forall v, exists b, body_serialize fs v = Ok b.
Proof.
  induction 1 as [|f fs Hf _ IH]; intros v; cbn; [eauto|].
  destruct (Hf (fst v)) as [x Hx], (IH (snd v)) as [y Hy]. rewrite Hx, Hy. cbn. eauto.
Qed.

Lemma body_len_ok fs : Forall (fun f => len_ok (f_codec f)) fs ->
  forall v b, body_serialize fs v = Ok b -> lenN b = body_len fs v.
Proof.
  induction 1 as [|f fs Hf _ IH]; intros v b; cbn.
  - intros [= <-]. reflexivity.
  - intros E. apply wapp_ok in E. destruct E as [x [y [Hx [Hy ->]]]].
    rewrite lenN_app, (Hf _ _ Hx), (IH _ _ Hy). reflexivity.
Qed.

(** The generic shape of a class: fixed fields, then skipped fields. [nrm] is what
    decoding makes of the body, [n] the size of the fixed part. *)
Inductive skips : forall fs : list field, (values fs -> values fs) -> Prop :=
| sp_nil : skips [] (fun v => v)
| sp_cons f fs nrm :
    f_len_attr f = None -> skip_codec (f_default f) (f_codec f) -> skips fs nrm ->
    skips (f :: fs) (fun v => (f_default f, nrm (snd v))).
Inductive layout : forall fs : list field, nat -> (values fs -> values fs) -> Prop :=
| ly_skips fs nrm : skips fs nrm -> layout fs 0 nrm
| ly_fixed f fs n m nf nrm :
    f_len_attr f = None -> fixed_codec n nf (f_codec f) -> layout fs m nrm ->
    layout (f :: fs) (n + m) (fun v => (nf (fst v), nrm (snd v))).

Lemma skips_total fs nrm : skips fs nrm -> forall v, exists b, body_serialize fs v = Ok b.
Proof.
  induction 1 as [|f fs nrm Ha Hs _ IH]; intros v; cbn; [eauto|].
  destruct (sk_ser _ _ Hs (fst v)) as [x Hx], (IH (snd v)) as [y Hy]. rewrite Hx, Hy. cbn. eauto.
Qed.
Lemma skips_decode fs nrm : skips fs nrm -> forall env v bs, body_deserialize env fs bs = Ok (nrm v, bs).
Proof.
  induction 1 as [|f fs nrm Ha Hs _ IH]; intros env v bs; cbn; [destruct v; reflexivity|].
  unfold field_deserialize. rewrite Ha. unfold bind at 1. rewrite (sk_des _ _ Hs).
  erewrite bind_ok by apply (IH _ (snd v)). reflexivity.
Qed.

Lemma layout_total fs n nrm : layout fs n nrm -> forall v, exists b, body_serialize fs v = Ok b.
Proof.
  induction 1 as [fs nrm Hs|f fs n m nf nrm Ha Hf _ IH]; intros v; [eapply skips_total, Hs|].
  cbn. destruct (fc_ser _ _ _ Hf (fst v)) as [x [Hx _]], (IH (snd v)) as [y Hy]. rewrite Hx, Hy. cbn. eauto.
Qed.

(** Decoding what was encoded: the fixed part is read, the rest is left unread. *)
Lemma layout_roundtrip fs n nrm : layout fs n nrm -> forall env v b,
  body_serialize fs v = Ok b ->
  (n <= length b)%nat /\ forall rest, body_deserialize env fs (b ++ rest) = Ok (nrm v, skipn n b ++ rest).
Proof.
  induction 1 as [fs nrm Hs|f fs n m nf nrm Ha Hf _ IH]; intros env v b Hb.
  - split; [lia|]. intros rest. cbn [skipn]. eapply skips_decode, Hs.
  - cbn in Hb. destruct (fc_ser _ _ _ Hf (fst v)) as [x [Hx [Lx Rx]]].
    apply wapp_ok in Hb. destruct Hb as [x' [y [Hx' [Hy ->]]]].
    rewrite Hx in Hx'. injection Hx' as <-.
    destruct (IH (extend_env f (nf (fst v)) env) (snd v) y Hy) as [Lm R].
    split; [rewrite app_length; lia|].
    intros rest. cbn [body_deserialize]. unfold field_deserialize. rewrite Ha.
    rewrite <- app_assoc. rewrite (bind_ok _ _ _ _ _ _ _ (Rx _)).
    rewrite (bind_ok _ _ _ _ _ _ _ (R rest)). unfold ret. do 2 f_equal.
    rewrite skipn_app, Lx. rewrite (skipn_all2 x) by (rewrite Lx; lia). cbn [app]. f_equal. f_equal. lia.
Qed.

(** Decoding arbitrary bytes. *)
Lemma layout_exact fs n nrm : layout fs n nrm -> forall env, exact_reader (body_deserialize env fs) n.
Proof.
  induction 1 as [fs nrm Hs|f fs n m nf nrm Ha Hf _ IH]; intros env.
  - split; [intros; lia|]. intros pre Hp. destruct pre; [|discriminate]. 
    exists (nrm (body_default fs)). intros rest. eapply skips_decode, Hs.
  - cbn [body_deserialize]. apply exact_bind.
    + unfold field_deserialize. rewrite Ha. apply Hf.
    + intros a. eapply exact_eq; [apply exact_bind; [apply IH | intros; apply exact_ret] | apply Nat.add_0_r].
Qed.

Lemma layout_no_len_attr fs n nrm : layout fs n nrm -> no_len_attr fs = true.
Proof.
  induction 1 as [fs nrm Hs|f fs n m nf nrm Ha Hf _ IH].
  - induction Hs as [|f fs nrm Ha Hs _ IH]; cbn; [reflexivity|]. rewrite Ha. exact IH.
  - cbn. rewrite Ha. exact IH.
Qed.

(** ** Whole PDUs *)

Lemma calc_ok c p l : calculate_length c p = ROk l -> uval l = PduHeader_LENGTH + body_len (cls_fields c) (body p).
Proof.
  unfold calculate_length, try_uint. cbv zeta.
  destruct (_ <? _) eqn:E; [|discriminate]. intros [= <-]. apply as_uint_val, N.ltb_lt, E.
Qed.
Lemma calc_err c p e : calculate_length c p = RErr e ->
  e = PduSizeExceeded (PduHeader_LENGTH + body_len (cls_fields c) (body p)) MAX_PDU_SIZE_OCTETS /\
  65535 < PduHeader_LENGTH + body_len (cls_fields c) (body p).
Proof.
  unfold calculate_length, try_uint. cbv zeta.
  destruct (_ <? _) eqn:E; [discriminate|]. intros [= <-]. split; [reflexivity|].
  apply N.ltb_ge in E. change (256 ^ N.of_nat 2) with 65536 in E. lia.
Qed.
Lemma calc_cases c p : let s := PduHeader_LENGTH + body_len (cls_fields c) (body p) in
  (s <= 65535 /\ calculate_length c p = ROk (as_u16 s)) \/
  (65535 < s /\ calculate_length c p = RErr (PduSizeExceeded s MAX_PDU_SIZE_OCTETS)).
Proof.
  unfold calculate_length, try_uint. cbv zeta. set (s := _ + _). change (256 ^ N.of_nat 2) with 65536.
  destruct (N.ltb_spec s 65536); [left | right]; (split; [lia | reflexivity]).
Qed.

(** Unfolding a successful serialization. *)
Lemma serialize_ok c p buf p' buf' :
  serialize c p buf = Ok (ROk tt, p', buf') ->
  exists out len,
    calculate_length c (mk_pdu (header p) (prep_body (cls_fields c) (body p))) = ROk len /\
    body_serialize (cls_fields c) (prep_body (cls_fields c) (body p)) = Ok out /\
    body p' = prep_body (cls_fields c) (body p) /\
    header p' = set_length len (set_protocol_family (cls_family c) (set_pdu_type (cls_type c) (header p))) /\
    buf' = buf ++ PduHeader_serialize (header p') ++ out.
Proof.
  unfold serialize. cbv zeta.
  change (calculate_length c {| header := set_protocol_family _ _; body := prep_body (cls_fields c) (body p) |})
    with (calculate_length c (mk_pdu (header p) (prep_body (cls_fields c) (body p)))).
  destruct (calculate_length c _) as [len|e] eqn:E; [|discriminate].
  destruct (body_serialize _ _) as [out|q] eqn:F; [|discriminate].
  intros [= <- <-]. exists out, len. cbn. repeat split; auto.
Qed.

(** Type dispatch of [deserialize]. *)
Lemma deserialize_ok c h b rest :
  pdu_type h = cls_type c ->
  deserialize c (PduHeader_serialize h ++ b ++ rest) =
  match body_deserialize [] (cls_fields c) (b ++ rest) with
  | Panic e => Panic e
  | Ok (v, rest') => Ok (ROk (mk_pdu h v), rest')
  end.
Proof.
  intros H. unfold deserialize. rewrite header_rt, H, enum_eqb_refl. reflexivity.
Qed.

Lemma serialize_deserialize_layout c n nrm :
  layout (cls_fields c) n nrm ->
  forall p buf p' buf', serialize c p buf = Ok (ROk tt, p', buf') ->
  exists out, buf' = buf ++ out /\ (12 + n <= length out)%nat /\
    forall rest, deserialize c (out ++ rest) = Ok (ROk (mk_pdu (header p') (nrm (body p'))), skipn (12 + n) out ++ rest).
Proof.
  intros L p buf p' buf' S. apply serialize_ok in S.
  destruct S as [b [len [C [B [Eb [Eh ->]]]]]].
  exists (PduHeader_serialize (header p') ++ b). split; [reflexivity|].
  destruct (layout_roundtrip _ _ _ L [] _ _ B) as [Ln R].
  split; [rewrite app_length, header_ser_length; lia|].
  intros rest. rewrite <- app_assoc, deserialize_ok by (rewrite Eh; reflexivity).
  rewrite R, Eb.
  assert (K : skipn (12 + n) (PduHeader_serialize (header p') ++ b) = skipn n b).
  { rewrite skipn_app, header_ser_length.
    rewrite (skipn_all2 (PduHeader_serialize _)) by (rewrite header_ser_length; lia). cbn [app]. f_equal. lia. }
  rewrite K. reflexivity.
Qed.
