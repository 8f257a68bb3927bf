(** * Classes with irregular fields: decoding field by field (proofs only). *)
From Verif Require Import Base BaseFacts EnumModel Enums EnumFacts Fixed Header HeaderFacts PduMacro PduMacroFacts
  DataTypes DataTypesFacts Bitflags BitflagsFacts Pdus PduFields Spec RecordFacts PdusFacts ClassFacts PduProofs.

(** [fs] is a sequence of fixed-size fields ([n] bytes in all) followed by [gs]: [tl] is the
    part for [gs], [rb] replaces that part, [nm] is what encoding and decoding make of the
    fixed fields, which is nothing except for those in [names], [ev] the local variables
    after reading them. *)
Inductive prefix (names : list string) : forall fs gs : list field, nat -> (values fs -> values gs) -> (values fs -> values gs -> values fs) ->
    (values fs -> values fs) -> (values fs -> list (string * N) -> list (string * N)) -> Prop :=
| px_nil gs : prefix names gs gs 0 (fun v => v) (fun _ w => w) (fun v => v) (fun _ e => e)
| px_cons f fs gs n m nf tl rb nm ev : f_len_attr f = None -> fixed_codec n nf (f_codec f) ->
    mem_string (f_name f) names = true \/ (forall x, nf x = x) -> prefix names fs gs m tl rb nm ev ->
    prefix names (f :: fs) gs (n + m) (fun v => tl (snd v)) (fun v w => (fst v, rb (snd v) w)) (fun v => (nf (fst v), nm (snd v)))
      (fun v e => ev (snd v) (extend_env f (fst v) e)).

(** Continue a reading with a function of the value. *)
Definition omap {A B} (f : A -> B) (o : outcome (A * bytes)) : outcome (B * bytes) :=
  match o with Ok (a, r) => Ok (f a, r) | Panic e => Panic e end.

(** Reading one field after the other. *)
Lemma des_cons env f fs bs x r : field_deserialize env f bs = Ok (x, r) ->
  body_deserialize env (f :: fs) bs = omap (fun v => (x, v)) (body_deserialize (extend_env f x env) fs r).
Proof.
  intros E. cbn [body_deserialize]. refine (eq_trans (bind_ok _ _ _ _ _ _ _ E) _). cbv beta. unfold bind, ret, omap.
  destruct (body_deserialize _ fs r) as [[w q]|e]; reflexivity.
Qed.
Lemma des_cons_panic env f fs bs e : field_deserialize env f bs = Panic e -> body_deserialize env (f :: fs) bs = Panic e.
Proof. intros E. cbn [body_deserialize]. apply bind_panic, E. Qed.
Lemma prefix_encode names fs gs n tl rb nm ev : prefix names fs gs n tl rb nm ev -> forall v,
  exists b1, length b1 = n /\
    body_serialize fs v = (match body_serialize gs (tl v) with Ok b2 => Ok (b1 ++ b2) | Panic e => Panic e end) /\
    forall env bs, body_deserialize env fs (b1 ++ bs) = omap (rb (nm v)) (body_deserialize (ev (nm v) env) gs bs).
Proof.
  induction 1 as [gs|f fs gs n m nf tl rb nm ev Ha Hf _ _ IH]; intros v.
  - exists []. split; [reflexivity|]. split; [cbn; destruct (body_serialize gs v); reflexivity|].
    intros env bs. cbn. destruct (body_deserialize env gs bs) as [[w r]|e]; reflexivity.
  - destruct (fc_ser _ _ _ Hf (fst v)) as [x [Hx [Lx Rx]]]. destruct (IH (snd v)) as [b1 [L1 [S1 D1]]].
    exists (x ++ b1). split; [rewrite app_length; lia|]. split.
    + cbn [body_serialize]. rewrite Hx, S1. destruct (body_serialize gs (tl (snd v))); cbn; [rewrite app_assoc|]; reflexivity.
    + intros env bs. cbn [body_deserialize]. unfold field_deserialize. rewrite Ha, <- app_assoc.
      refine (eq_trans (bind_ok _ _ _ _ _ _ _ (Rx _)) _). cbv beta. unfold bind. rewrite D1. cbn [fst snd].
      destruct (body_deserialize _ gs bs) as [[w r]|e]; reflexivity.
Qed.
Lemma prefix_len names fs gs n tl rb nm ev : prefix names fs gs n tl rb nm ev -> forall v,
  body_len fs v = N.of_nat n + body_len gs (tl v).
Proof.
  induction 1 as [gs|f fs gs n m nf tl rb nm ev Ha Hf _ _ IH]; intros v; [cbn; lia|].
  cbn [body_len]. rewrite IH, (fc_len _ _ _ Hf). lia.
Qed.
Lemma prefix_short names fs gs n tl rb nm ev : prefix names fs gs n tl rb nm ev -> forall env bs, (length bs < n)%nat ->
  body_deserialize env fs bs = Panic Underflow.
Proof.
  induction 1 as [gs|f fs gs n m nf tl rb nm ev Ha Hf _ _ IH]; intros env bs L; [lia|].
  cbn [body_deserialize]. unfold field_deserialize. rewrite Ha. destruct (fc_exact _ _ _ Hf) as [ES EO].
  destruct (Nat.lt_ge_cases (length bs) n) as [K|K].
  - apply bind_panic, ES, K.
  - rewrite <- (firstn_skipn n bs). destruct (EO (firstn n bs)) as [a Ea]; [apply firstn_length_le, K|].
    refine (eq_trans (bind_ok _ _ _ _ _ _ _ (Ea _)) _). cbv beta. apply bind_panic, IH. rewrite skipn_length. lia.
Qed.
Lemma prefix_decode names fs gs n tl rb nm ev : prefix names fs gs n tl rb nm ev -> forall env pre, length pre = n ->
  exists v, forall bs, body_deserialize env fs (pre ++ bs) = omap (rb v) (body_deserialize (ev v env) gs bs).
Proof.
  induction 1 as [gs|f fs gs n m nf tl rb nm ev Ha Hf _ _ IH]; intros env pre L.
  - destruct pre; [|discriminate]. exists (body_default gs). intros bs. cbn. destruct (body_deserialize env gs bs) as [[w r]|e]; reflexivity.
  - destruct (fc_exact _ _ _ Hf) as [ES EO].
    destruct (EO (firstn n pre)) as [a Ea]; [apply firstn_length_le; lia|].
    destruct (IH (extend_env f a env) (skipn n pre)) as [v D]; [rewrite skipn_length; lia|].
    exists (a, v). intros bs. cbn [body_deserialize fst snd]. unfold field_deserialize. rewrite Ha.
    rewrite <- (firstn_skipn n pre) at 1. rewrite <- app_assoc.
    refine (eq_trans (bind_ok _ _ _ _ _ _ _ (Ea _)) _). cbv beta. unfold bind. rewrite D.
    destruct (body_deserialize _ gs bs) as [[w r]|e]; reflexivity.
Qed.

(** ** Whole PDUs *)
(** What [serialize] and [deserialize] do for a class of the shape above. *)
Lemma special_serialize names c gs n tl rb nm ev (p : pdu c) buf p' out : prefix names (cls_fields c) gs n tl rb nm ev ->
  serialize c p buf = Ok (ROk tt, p', buf ++ out) ->
  exists b2, body_serialize gs (tl (body p')) = Ok b2 /\ skipn (12 + n)%nat out = b2 /\ (12 + n <= length out)%nat /\ uval (header_length (header p')) = 12 + N.of_nat n + body_len gs (tl (body p')) /\ forall rest, deserialize c (out ++ rest) =
      match body_deserialize (ev (nm (body p')) []) gs (b2 ++ rest) with
      | Ok (w, r) => Ok (ROk (mk_pdu (header p') (rb (nm (body p')) w)), r)
      | Panic e => Panic e
      end.
Proof.
  intros P S. apply serialize_ok in S. destruct S as [bo [len [C [F [B1 [H1 O]]]]]].
  apply app_inv_head in O. subst out. rewrite <- B1 in F.
  destruct (prefix_encode _ _ _ _ _ _ _ _ P (body p')) as [b1 [L1 [S1 D1]]].
  rewrite S1 in F. destruct (body_serialize gs (tl (body p'))) as [b2|e]; [|discriminate]. injection F as <-.
  assert (HL : length (PduHeader_serialize (header p')) = 12%nat) by apply header_ser_length.
  exists b2. split; [reflexivity|]. split; [|split; [|split]].
  - rewrite !skipn_app, skipn_all2 by (rewrite HL; lia). rewrite HL. replace (12 + n - 12)%nat with n by lia.
    rewrite skipn_all2 by lia. rewrite L1, Nat.sub_diag. reflexivity.
  - rewrite !app_length, HL, L1. lia.
  - rewrite H1. cbn [header_length set_length]. apply calc_ok in C. cbn [body] in C. rewrite C, <- B1.
    rewrite (prefix_len _ _ _ _ _ _ _ _ P). change PduHeader_LENGTH with 12. lia.
  - intros rest. rewrite <- app_assoc. rewrite deserialize_ok by (rewrite H1; reflexivity).
    rewrite <- app_assoc, D1. unfold omap. destruct (body_deserialize _ gs (b2 ++ rest)) as [[w r]|e]; reflexivity.
Qed.

(** Decoding arbitrary bytes. *)
Lemma special_deserialize names c gs n tl rb nm ev : prefix names (cls_fields c) gs n tl rb nm ev ->
  forall bs, (12 + n <= length bs)%nat -> wire_type bs = code (cls_type c) ->
  exists h v, PduHeader_deserialize bs = Ok (h, skipn 12 bs) /\
    deserialize c bs = match body_deserialize (ev v []) gs (skipn (12 + n) bs) with
                       | Ok (w, r) => Ok (ROk (mk_pdu h (rb v w)), r)
                       | Panic e => Panic e
                       end.
Proof.
  intros P bs L T. destruct (prefix_decode _ _ _ _ _ _ _ _ P [] (firstn n (skipn 12 bs))) as [v D].
  { rewrite firstn_length_le; [reflexivity|]. rewrite skipn_length. lia. }
  destruct (deserialize_cases c bs) as [h [H1 [H2 H3]]]; [lia|]. exists h, v. split; [exact H1|].
  rewrite H3, T, N.eqb_refl. unfold deserialize_without_header.
  replace (skipn 12 bs) with (firstn n (skipn 12 bs) ++ skipn (12 + n) bs).
  - rewrite D. unfold omap. destruct (body_deserialize _ gs _) as [[w r]|e]; reflexivity.
  - replace (skipn (12 + n) bs) with (skipn n (skipn 12 bs)); [apply firstn_skipn|].
    rewrite skipn_add. f_equal. lia.
Qed.
Lemma special_short names c gs n tl rb nm ev : prefix names (cls_fields c) gs n tl rb nm ev ->
  forall bs, (length bs < 12 + n)%nat -> wire_type bs = code (cls_type c) -> deserialize c bs = Panic Underflow.
Proof.
  intros P bs L T. destruct (Nat.lt_ge_cases (length bs) 12) as [K|K]; [apply deserialize_short, K|].
  destruct (deserialize_cases c bs K) as [h [H1 [H2 H3]]]. rewrite H3, T, N.eqb_refl. unfold deserialize_without_header.
  rewrite (prefix_short _ _ _ _ _ _ _ _ P); [reflexivity|]. rewrite skipn_length. lia.
Qed.

(** Which fields a decoded PDU shares with the encoded one: all but those in [names]. *)
Lemma reset_all names gs : forallb (fun f => mem_string (f_name f) names) gs = true -> forall v w, reset_fields names gs v = reset_fields names gs w.
Proof.
  induction gs as [|f gs IH]; cbn [forallb reset_fields]; intros H v w; [destruct v, w; reflexivity|].
  apply andb_true_iff in H as [H1 H2]. rewrite H1. f_equal. apply IH, H2.
Qed.
Lemma keeps_reset names fs gs n tl rb nm ev : prefix names fs gs n tl rb nm ev ->
  forallb (fun f => mem_string (f_name f) names) gs = true ->
  forall v w, reset_fields names fs (rb (nm v) w) = reset_fields names fs v.
Proof.
  induction 1 as [gs|f fs gs n m nf tl rb nm ev Ha Hf Hn _ IH]; intros G v w.
  - apply reset_all, G.
  - cbn [reset_fields fst snd]. rewrite IH by exact G. destruct Hn as [->|E]; [reflexivity|]. rewrite E. reflexivity.
Qed.
Lemma keeps_reset_tail names fs gs n tl rb nm ev : prefix names fs gs n tl rb nm ev ->
  forall v w, reset_fields names gs w = reset_fields names gs (tl v) ->
  reset_fields names fs (rb (nm v) w) = reset_fields names fs v.
Proof.
  induction 1 as [gs|f fs gs n m nf tl rb nm ev Ha Hf Hn _ IH]; intros v w G.
  - exact G.
  - cbn [reset_fields fst snd]. rewrite IH by exact G. destruct Hn as [->|E]; [reflexivity|]. rewrite E. reflexivity.
Qed.
(** Finding the prefix of a concrete class: [px]; fields after it are given. *)
#[export] Hint Resolve SimulationIdentifier_fc DeadReckoningParameters_fc : cd.
Ltac px := first [ apply px_nil | eapply px_cons; [reflexivity | cdx | first [left; reflexivity | right; intros; reflexivity] | px] ].
