(** * Facts for [Prop_Macro] (proofs only). *)
From Verif Require Import Base BaseFacts EnumModel Enums EnumFacts Fixed Header HeaderFacts PduMacro PduMacroFacts Spec SpecMacro HeaderProofs PduProofs.

Lemma fixed_size_codec {T} n (c : codec T) : fixed_size n c <-> fixed_codec n idn c.
Proof.
  split.
  - intros [W L R E S]. split; [|exact L|split; assumption].
    intros v. destruct (W v) as [b [Hb Hl]]. exists b. split; [exact Hb|]. split; [exact Hl|]. intros; apply R, Hb.
  - intros H. assert (H' := H). destruct H as [W L [S E]]. split.
    + intros v. destruct (W v) as [b [Hb [Hl _]]]. eauto.
    + exact L.
    + intros v b rest Hb. destruct (W v) as [b' [Hb' [_ R]]]. rewrite Hb in Hb'. injection Hb' as <-. apply R.
    + exact E.
    + exact S.
Qed.
Lemma measured_of {T} (c : codec T) : measured c <-> ser_total c /\ len_ok c.
Proof.
  split.
  - intros M. split.
    + intros v. destruct (M v) as [b [H _]]. eauto.
    + intros v b Hb. destruct (M v) as [b' [Hb' L]]. rewrite Hb in Hb'. injection Hb' as <-. symmetry. exact L.
  - intros [S L] v. destruct (S v) as [b Hb]. exists b. split; [exact Hb|]. symmetry. apply L, Hb.
Qed.
Lemma fixed_measured {T} n (c : codec T) : fixed_size n c -> measured c.
Proof. intros H. apply fixed_size_codec in H. apply measured_of. split; [eapply fixed_ser_total, H | eapply fixed_len_ok, H]. Qed.
Lemma fixed_fields_measured fs ns : fixed_fields fs ns -> measured_fields fs.
Proof. induction 1 as [|f n fs ns [_ H] _ IH]; constructor; [eapply fixed_measured, H | exact IH]. Qed.
Lemma measured_total fs : measured_fields fs -> Forall (fun f => ser_total (f_codec f)) fs.
Proof. apply Forall_impl. intros f H. apply measured_of, H. Qed.
Lemma measured_lens fs : measured_fields fs -> Forall (fun f => len_ok (f_codec f)) fs.
Proof. apply Forall_impl. intros f H. apply (proj1 (measured_of _) H). Qed.

(** Layout of [front ++ back]. *)
Lemma unread_skips names back : Forall unread back -> measured_fields back ->
  (forall f, In f back -> In (f_name f) names) ->
  exists nrm, skips back nrm /\ forall v, nrm v = reset_fields names back v.
Proof.
  induction 1 as [|f fs [A U] _ IH]; intros M I.
  - exists (fun v => v). split; [constructor | reflexivity].
  - inversion M as [|? ? M1 M2]; subst. destruct IH as [nrm [S E]]; [exact M2 | intros; apply I; now right |].
    eexists. split; [constructor; [exact A| |exact S]|].
    + split; [exact U|]. intros v. destruct (M1 v) as [b [Hb _]]. eauto.
    + intros v. cbn [reset_fields]. rewrite E.
      assert (K : mem_string (f_name f) names = true).
      { unfold mem_string. apply existsb_exists. exists (f_name f). split; [apply I; now left | apply String.eqb_refl]. }
      now rewrite K.
Qed.
Lemma front_layout names front ns back : fixed_fields front ns -> Forall unread back -> measured_fields back ->
  (forall f, In f back -> In (f_name f) names) -> (forall f, In f front -> ~ In (f_name f) names) ->
  exists nrm, layout (front ++ back) (total ns) nrm /\ forall v, nrm v = reset_fields names (front ++ back) v.
Proof.
  intros F U M I. induction F as [|f n fs ns [A H] _ IH]; intros NI; cbn [app total fold_right].
  - destruct (unread_skips names back U M I) as [nrm [S E]]. exists nrm. split; [constructor; exact S | exact E].
  - destruct IH as [nrm [L E]]; [intros; apply NI; now right |].
    eexists. split; [apply ly_fixed; [exact A | apply fixed_size_codec, H | exact L]|].
    intros v. cbn [reset_fields]. rewrite E.
    assert (K : mem_string (f_name f) names = false).
    { unfold mem_string. destruct (existsb _ names) eqn:X; [|reflexivity]. apply existsb_exists in X.
      destruct X as [y [Y1 Y2]]. apply String.eqb_eq in Y2. subst y. exfalso. apply (NI f); [now left | exact Y1]. }
    rewrite K. reflexivity.
Qed.


(** ** Serialization *)
Lemma no_attr_prep fs : Forall (fun f => f_len_attr f = None) fs -> forall v, prep_body fs v = v.
Proof.
  intros H v. apply no_len_prep. clear v. induction H as [|f fs E _ IH]; [reflexivity|].
  cbn [no_len_attr forallb]. rewrite E. exact IH. 
Qed.
Lemma serialize_measured c : measured_fields (cls_fields c) -> forall p buf, exists fb,
  let b' := prep_body (cls_fields c) (body p) in
  let size := 12 + N.of_nat (length fb) in
  written (cls_fields c) b' fb /\
  ((size <= 65535 /\ exists h', stamped (cls_type c) (cls_family c) (as_u16 size) (header p) h' /\
      serialize c p buf = Ok (ROk tt, mk_pdu h' b', buf ++ PduHeader_serialize h' ++ fb)) \/
   (65535 < size /\ exists h', stamped (cls_type c) (cls_family c) (header_length (header p)) (header p) h' /\
      serialize c p buf = Ok (RErr (PduSizeExceeded size 8192), mk_pdu h' b', buf))).
Proof.
  intros M p buf. destruct (body_ser_total _ (measured_total _ M) (prep_body (cls_fields c) (body p))) as [fb W].
  exists fb. cbv zeta. split; [apply written_iff, W|].
  assert (L := body_len_ok _ (measured_lens _ M) _ _ W). unfold lenN in L. rewrite L.
  unfold serialize. cbv zeta.
  destruct (calc_cases c (mk_pdu (set_protocol_family (cls_family c) (set_pdu_type (cls_type c) (header p)))
                         (prep_body (cls_fields c) (body p)))) as [[K E]|[K E]]; cbn [body] in K, E; rewrite E;
    change PduHeader_LENGTH with 12 in *.
  - left. split; [exact K|]. rewrite W. eexists. split; [|reflexivity]. repeat split.
  - right. split; [exact K|]. eexists. split; [|reflexivity]. repeat split.
Qed.

(** ** Mixed fields *)
Lemma mixed_exact fs ks : mixed_fields fs ks -> forall env, exact_reader (body_deserialize env fs) (mixed_total ks).
Proof.
  induction 1 as [|f k fs ks H _ IH]; intros env; cbn [mixed_total body_deserialize]; [apply exact_ret|].
  destruct k as [n|].
  - destruct H as [A H]. apply fixed_size_codec in H. apply exact_bind.
    + unfold field_deserialize. rewrite A. apply H.
    + intros a. eapply exact_eq; [apply exact_bind; [apply IH | intros; apply exact_ret] | apply Nat.add_0_r].
  - destruct H as [A U]. change (mixed_total ks) with (0 + mixed_total ks)%nat. apply exact_bind.
    + unfold field_deserialize. rewrite A. split; [intros; lia|]. intros pre Hp. destruct pre; [|discriminate].
      exists (f_default f). intros rest. apply U.
    + intros a. eapply exact_eq; [apply exact_bind; [apply IH | intros; apply exact_ret] | apply Nat.add_0_r].
Qed.

(** ** Length annotations *)
Lemma both_serialize fs gs v w : body_serialize (fs ++ gs) (both fs gs v w) = wapp (body_serialize fs v) (body_serialize gs w).
Proof.
  induction fs as [|f fs IH]; cbn [app both body_serialize].
  - destruct (body_serialize gs w); reflexivity.
  - cbn [fst snd]. rewrite IH. destruct (c_ser (f_codec f) (fst v)); [|reflexivity].
    destruct (body_serialize fs (snd v)); [|reflexivity]. destruct (body_serialize gs w); cbn; [|reflexivity].
    now rewrite app_assoc.
Qed.
Lemma both_len_updates fs gs v w : Forall (fun f => f_len_attr f = None) fs ->
  len_updates (fs ++ gs) (both fs gs v w) = len_updates gs w.
Proof.
  induction 1 as [|f fs A _ IH]; cbn [app both len_updates]; [reflexivity|].
  cbn [snd]. rewrite A. apply IH.
Qed.
(** Assigning the [u8] field [l] of [front]. *)
Lemma both_assign l x fs gs v w : In l (map f_name fs) -> (forall f, In f fs -> f_name f = l -> f = u8_field l) ->
  assign_u8 l x (fs ++ gs) (both fs gs v w) = both fs gs (assign_u8 l x fs v) w.
Proof.
  induction fs as [|f fs IH]; cbn [map In]; intros I U; [destruct I|].
  cbn [app both assign_u8]. destruct (f_u8 f) as [[to of]|] eqn:E.
  - destruct (String.eqb_spec (f_name f) l) as [N|N]; [reflexivity|]. cbn [fst snd]. f_equal.
    apply IH; [destruct I; [contradiction | assumption] | intros; apply U; [now right | assumption]].
  - cbn [fst snd]. f_equal. destruct (String.eqb_spec (f_name f) l) as [N|N].
    + rewrite (U f (or_introl eq_refl) N) in E. discriminate.
    + apply IH; [destruct I; [contradiction | assumption] | intros; apply U; [now right | assumption]].
Qed.
Lemma assign_byte l x fs v : In l (map f_name fs) -> (forall f, In f fs -> f_name f = l -> f = u8_field l) ->
  byte_field l fs (assign_u8 l x fs v) = Some (uval x).
Proof.
  induction fs as [|f fs IH]; cbn [map In]; intros I U; [destruct I|].
  cbn [assign_u8 byte_field]. destruct (String.eqb_spec (f_name f) l) as [N|N].
  - assert (E := U f (or_introl eq_refl) N). subst f. cbn. reflexivity.
  - destruct (f_u8 f) as [[to of]|]; cbn [fst snd];
      (apply IH; [destruct I; [contradiction | assumption] | intros; apply U; [now right | assumption]]).
Qed.
Lemma assign_reset l x fs v : reset_fields [l] fs (assign_u8 l x fs v) = reset_fields [l] fs v.
Proof.
  induction fs as [|f fs IH]; cbn [assign_u8 reset_fields]; [reflexivity|].
  cbn [mem_string existsb]. 
  destruct (f_u8 f) as [[to of]|]; [destruct (String.eqb_spec (f_name f) l) as [N|N]|]; cbn [fst snd]; rewrite ?IH; try reflexivity.
Qed.

Fixpoint env_of (env : list (string * N)) (fs : list field) : values fs -> list (string * N) :=
  match fs return values fs -> list (string * N) with
  | [] => fun _ => env
  | f :: fs' => fun v => env_of (extend_env f (fst v) env) fs' (snd v)
  end.
Lemma env_other l fs : ~ In l (map f_name fs) -> forall env v, lookup l (env_of env fs v) = lookup l env.
Proof.
  induction fs as [|f fs IH]; intros NI env v; cbn [env_of]; [reflexivity|]. cbn [map In] in NI.
  rewrite IH by tauto. unfold extend_env. destruct (f_u8 f) as [[to of]|]; [|reflexivity].
  cbn [lookup]. destruct (String.eqb_spec (f_name f) l); [tauto | reflexivity].
Qed.
Lemma env_byte l fs : In l (map f_name fs) -> NoDup (map f_name fs) -> (forall f, In f fs -> f_name f = l -> f = u8_field l) ->
  forall env v, lookup l (env_of env fs v) = byte_field l fs v.
Proof.
  induction fs as [|f fs IH]; cbn [map In]; intros I ND U env v; [destruct I|].
  inversion ND as [|? ? N1 N2]; subst. cbn [env_of byte_field]. destruct (String.eqb_spec (f_name f) l) as [N|N].
  - assert (E := U f (or_introl eq_refl) N). subst f. rewrite env_other by exact N1.
    cbn [u8_field f_u8 extend_env lookup f_name]. rewrite String.eqb_refl. reflexivity.
  - apply IH; [destruct I; [contradiction | assumption] | exact N2 | intros; apply U; [now right | assumption]].
Qed.
Lemma front_decode fs ns : fixed_fields fs ns -> forall env v b, body_serialize fs v = Ok b ->
  length b = total ns /\
  forall gs bs, body_deserialize env (fs ++ gs) (b ++ bs) =
    match body_deserialize (env_of env fs v) gs bs with
    | Ok (w, r) => Ok (both fs gs v w, r)
    | Panic e => Panic e
    end.
Proof.
  induction 1 as [|f n fs ns [A H] _ IH]; intros env v b Hb; cbn [body_serialize] in Hb.
  - injection Hb as <-. split; [reflexivity|]. intros gs bs. cbn [app env_of both].
    destruct (body_deserialize env gs bs) as [[w r]|]; reflexivity.
  - apply wapp_ok in Hb as [x [y [Hx [Hy ->]]]]. destruct (IH (extend_env f (fst v) env) (snd v) y Hy) as [L D].
    split.
    + rewrite app_length. cbn [total fold_right]. fold (total ns). rewrite L.
      destruct (fixed_written _ _ H (fst v)) as [x' [Hx' Lx]]. rewrite Hx in Hx'. injection Hx' as <-. lia.
    + intros gs bs. cbn [app body_deserialize]. unfold field_deserialize at 1. rewrite A, <- app_assoc.
      rewrite (bind_ok _ _ _ _ _ _ _ (fixed_read_back _ _ H _ _ (y ++ bs) Hx)).
      unfold bind at 1. rewrite D. cbn [env_of].
      destruct (body_deserialize (env_of (extend_env f (fst v) env) fs (snd v)) gs bs) as [[w r]|]; reflexivity.
Qed.
Lemma unread_decode fs : Forall unread fs -> forall env bs, body_deserialize env fs bs = Ok (body_default fs, bs).
Proof.
  induction 1 as [|f fs [A U] _ IH]; intros env bs; cbn [body_deserialize body_default]; [reflexivity|].
  unfold field_deserialize. rewrite A. rewrite (bind_ok _ _ _ _ _ _ _ (U bs)).
  rewrite (bind_ok _ _ _ _ _ _ _ (IH _ bs)). reflexivity.
Qed.

Lemma fixed_decode fs ns : fixed_fields fs ns -> forall env v b rest, body_serialize fs v = Ok b ->
  body_deserialize env fs (b ++ rest) = Ok (v, rest).
Proof.
  induction 1 as [|f n fs ns [A H] _ IH]; intros env v b rest Hb; cbn [body_serialize] in Hb.
  - injection Hb as <-. destruct v. reflexivity.
  - apply wapp_ok in Hb as [x [y [Hx [Hy ->]]]]. cbn [body_deserialize]. unfold field_deserialize. rewrite A, <- app_assoc.
    rewrite (bind_ok _ _ _ _ _ _ _ (fixed_read_back _ _ H _ _ (y ++ rest) Hx)).
    rewrite (bind_ok _ _ _ _ _ _ _ (IH _ _ _ rest Hy)). destruct v; reflexivity.
Qed.
Lemma fixed_mixed fs ns : fixed_fields fs ns -> mixed_fields fs (map Some ns).
Proof. induction 1 as [|f n fs ns H _ IH]; constructor; assumption. Qed.
Lemma mixed_total_some ns : mixed_total (map Some ns) = total ns.
Proof. induction ns as [|n ns IH]; cbn; [reflexivity | now rewrite IH]. Qed.
Lemma fixed_exact fs ns env : fixed_fields fs ns -> exact_reader (body_deserialize env fs) (total ns).
Proof. intros F. rewrite <- mixed_total_some. apply mixed_exact, fixed_mixed, F. Qed.
