(** * Proofs of the PDU properties. *)
From Verif Require Import Base BaseFacts EnumModel Enums EnumFacts Fixed Header HeaderFacts HeaderProofs PduMacro PduMacroFacts
  DataTypes Pdus PdusFacts ClassFacts Spec.

(** ** Decoding: the type check *)
Lemma wire_type_neq c h bs : code (pdu_type h) = wire_type bs ->
  enum_eqb (pdu_type h) (cls_type c) = (wire_type bs =? code (cls_type c)).
Proof. intros E. unfold enum_eqb. rewrite E. reflexivity. Qed.

Lemma deserialize_cases c bs : (12 <= length bs)%nat ->
  exists h, PduHeader_deserialize bs = Ok (h, skipn 12 bs) /\ code (pdu_type h) = wire_type bs /\
    deserialize c bs =
      (if wire_type bs =? code (cls_type c) then deserialize_without_header c (skipn 12 bs) h
       else Ok (RErr (InvalidHeader (cls_type c) (pdu_type h)), skipn 12 bs)).
Proof.
  intros H. destruct (header_decode bs H) as [h [D [_ [_ [T _]]]]]. fold (wire_type bs) in T.
  exists h. split; [exact D|]. split; [exact T|].
  unfold deserialize. rewrite D, (wire_type_neq c h bs T). reflexivity.
Qed.
Lemma without_header_no_err c bs h e rest : deserialize_without_header c bs h <> Ok (RErr e, rest).
Proof. unfold deserialize_without_header. destruct (body_deserialize _ _ _) as [[? ?]|]; discriminate. Qed.
Lemma without_header_header c bs h p rest : deserialize_without_header c bs h = Ok (ROk p, rest) -> header p = h.
Proof. unfold deserialize_without_header. destruct (body_deserialize _ _ _) as [[? ?]|]; intros [= <- _]; reflexivity. Qed.
Lemma deserialize_short c bs : (length bs < 12)%nat -> deserialize c bs = Panic Underflow.
Proof. intros H. unfold deserialize. rewrite header_short by exact H. reflexivity. Qed.

(** ** Serialization *)
Lemma written_iff fs : forall v b, body_serialize fs v = Ok b <-> written fs v b.
Proof.
  induction fs as [|f fs IH]; intros v b; cbn [body_serialize].
  - split; [intros [= <-]; destruct v; constructor|]. intros W. inversion W. reflexivity.
  - split.
    + intros E. apply wapp_ok in E as [x [y [Hx [Hy ->]]]]. destruct v as [a v]. constructor; [exact Hx | apply IH, Hy].
    + intros W.
      assert (K : forall fs' v' b', written fs' v' b' -> match fs' return values fs' -> Prop with
                | [] => fun _ => True
                | f :: fs => fun v => exists x y, c_ser (f_codec f) (fst v) = Ok x /\ written fs (snd v) y /\ b' = x ++ y end v').
      { intros fs' v' b' []; [exact I|]. eauto. }
      specialize (K _ _ _ W). cbn in K. destruct K as [x [y [Hx [Hy ->]]]].
      rewrite Hx. apply IH in Hy. rewrite Hy. reflexivity.
Qed.

Lemma serialize_cases c p buf : prep_ok c ->
  let s := declared_size p in
  (65535 < s /\ exists p', serialize c p buf = Ok (RErr (PduSizeExceeded s 8192), p', buf) /\
       stamped (cls_type c) (cls_family c) (header_length (header p)) (header p) (header p') /\
       body p' = prep_body (cls_fields c) (body p))
  \/ (s <= 65535 /\ exists h', stamped (cls_type c) (cls_family c) (as_u16 s) (header p) h' /\
       serialize c p buf =
         match body_serialize (cls_fields c) (prep_body (cls_fields c) (body p)) with
         | Ok out => Ok (ROk tt, mk_pdu h' (prep_body (cls_fields c) (body p)), buf ++ PduHeader_serialize h' ++ out)
         | Panic e => Panic e
         end).
Proof.
  intros P. cbv zeta. unfold serialize. cbv zeta.
  destruct (calc_cases c (mk_pdu (set_protocol_family (cls_family c) (set_pdu_type (cls_type c) (header p)))
                         (prep_body (cls_fields c) (body p)))) as [[L E]|[L E]]; cbn [body] in L, E;
    rewrite (prep_len _ P) in L, E; rewrite E; change (PduHeader_LENGTH + body_len _ _) with (declared_size p) in *.
  - right. split; [exact L|]. eexists. split; [|reflexivity]. repeat split.
  - left. split; [exact L|]. eexists. split; [reflexivity|]. repeat split.
Qed.

Lemma stamped_unique t f l h h1 h2 : stamped t f l h h1 -> stamped t f l h h2 -> h1 = h2.
Proof.
  destruct h1, h2. unfold stamped. cbn.
  intros [-> [-> [-> [-> [-> [-> [-> ->]]]]]]] [-> [-> [-> [-> [-> [-> [-> ->]]]]]]]. reflexivity.
Qed.
Lemma stamped_again t f l h h1 h2 : stamped t f l h h1 -> stamped t f l h1 h2 -> h1 = h2.
Proof.
  destruct h1, h2. unfold stamped. cbn.
  intros [-> [-> [-> [-> [-> [-> [-> ->]]]]]]] [-> [-> [-> [-> [-> [-> [-> ->]]]]]]]. reflexivity.
Qed.

Lemma serialize_spec m c : In c (all_pdus m) -> forall p buf p' buf',
  serialize c p buf = Ok (ROk tt, p', buf') ->
  exists fields, buf' = buf ++ PduHeader_serialize (header p') ++ fields /\
    stamped (cls_type c) (cls_family c) (as_u16 (declared_size p)) (header p) (header p') /\
    declared_size p <= 65535 /\ declared_size p' = declared_size p /\
    body p' = prep_body (cls_fields c) (body p) /\
    body_serialize (cls_fields c) (body p') = Ok fields.
Proof.
  intros I p buf p' buf' S. assert (P := all_prep_ok m c I).
  destruct (serialize_cases c p buf P) as [[L [q [E _]]]|[L [h' [St E]]]]; rewrite E in S; [discriminate|].
  destruct (body_serialize _ _) as [out|] eqn:W; [|discriminate]. injection S as <- <-.
  exists out. cbn [header body]. repeat split; try reflexivity; try assumption; try apply St.
  unfold declared_size. cbn [body]. now rewrite (prep_len _ P).
Qed.

Lemma calculate_length_spec c p :
  calculate_length c p = (if declared_size p <=? 65535 then ROk (as_u16 (declared_size p)) else RErr (PduSizeExceeded (declared_size p) 8192)).
Proof.
  destruct (calc_cases c p) as [[L E]|[L E]]; rewrite E; change (PduHeader_LENGTH + _) with (declared_size p) in *.
  - apply N.leb_le in L. now rewrite L.
  - replace (declared_size p <=? 65535) with false; [reflexivity|]. symmetry. apply N.leb_gt, L.
Qed.

Lemma serialize_idem m c : In c (all_pdus m) -> forall p buf p' out buf2,
  serialize c p buf = Ok (ROk tt, p', buf ++ out) -> serialize c p' buf2 = Ok (ROk tt, p', buf2 ++ out).
Proof.
  intros I p buf p' out buf2 S. assert (P := all_prep_ok m c I).
  destruct (serialize_spec m c I _ _ _ _ S) as [fl [E [St [L [D [Eb W]]]]]].
  apply app_inv_head in E. subst out.
  assert (Ep : prep_body (cls_fields c) (body p') = body p') by (rewrite Eb; apply (prep_idem _ P)).
  destruct (serialize_cases c p' buf2 P) as [[L' _]|[_ [h' [St' E]]]]; [rewrite D in L'; lia|].
  rewrite E, Ep, W. rewrite D in St'. assert (H := stamped_again _ _ _ _ _ _ St St'). subst h'.
  destruct p'; reflexivity.
Qed.

(** ** Ordinary classes *)
Lemma default_size_ge m c : In c (all_pdus m) -> 12 <= default_size c.
Proof.
  revert c. by_class.
  all_classes ltac:(vm_compute; discriminate).
Qed.
Lemma default_size_nat m c : In c (all_pdus m) -> (12 + (N.to_nat (default_size c) - 12))%nat = N.to_nat (default_size c).
Proof. intros I. assert (H := default_size_ge m c I). lia. Qed.

Lemma no_auto_prep m c : In c (all_pdus m) -> ordinary c -> forall v, prep_body (cls_fields c) v = v.
Proof.
  intros I O. apply (prep_default _ (all_prep_ok m c I)). unfold auto_len_fields.
  destruct (String.eqb_spec (cls_name c) "TransmitterPdu") as [E|E]; [|reflexivity].
  unfold ordinary in O. rewrite E in O. discriminate.
Qed.

Lemma ordinary_ser_total m c : In c (all_pdus m) -> ordinary c -> forall v, exists b, body_serialize (cls_fields c) v = Ok b.
Proof. intros I O. destruct (all_regular m c I O) as [nrm [L _]]. apply (layout_total _ _ _ L). Qed.

Lemma ordinary_roundtrip m c : In c (all_pdus m) -> ordinary c -> forall p buf p' buf',
  serialize c p buf = Ok (ROk tt, p', buf') ->
  body p' = body p /\
  exists out, buf' = buf ++ out /\ (N.to_nat (default_size c) <= length out)%nat /\
    forall rest, deserialize c (out ++ rest) = Ok (ROk (clear_lists p'), skipn (N.to_nat (default_size c)) out ++ rest).
Proof.
  intros I O p buf p' buf' S. split.
  { destruct (serialize_spec m c I _ _ _ _ S) as [fl [_ [_ [_ [_ [Eb _]]]]]]. rewrite Eb. apply (no_auto_prep m c I O). }
  destruct (all_regular m c I O) as [nrm [L En]].
  destruct (serialize_deserialize_layout _ _ _ L _ _ _ _ S) as [out [E [Ln R]]].
  rewrite (default_size_nat m c I) in Ln, R. exists out. split; [exact E|]. split; [exact Ln|].
  intros rest. rewrite R, En. reflexivity.
Qed.

Lemma ordinary_exact m c : In c (all_pdus m) -> ordinary c ->
  exact_reader (body_deserialize [] (cls_fields c)) (N.to_nat (default_size c) - 12)%nat.
Proof. intros I O. destruct (all_regular m c I O) as [nrm [L En]]. apply (layout_exact _ _ _ L). Qed.

Lemma reset_nil fs : forall v, reset_fields [] fs v = v.
Proof. induction fs as [|f fs IH]; intros v; cbn [reset_fields mem_string existsb]; [reflexivity|]. rewrite IH. destruct v; reflexivity. Qed.
Lemma clear_lists_id c (p : pdu c) : list_fields c = [] -> clear_lists p = p.
Proof. intros E. unfold clear_lists. rewrite E, reset_nil. destruct p; reflexivity. Qed.

Lemma ordinary_panic m c : In c (all_pdus m) -> ordinary c -> forall bs,
  (exists e, deserialize c bs = Panic e) <->
  ((length bs < 12)%nat \/ (wire_type bs = code (cls_type c) /\ lenN bs < default_size c)).
Proof.
  intros I O bs. destruct (Nat.ltb_spec (length bs) 12) as [H|H].
  { split; [now left|]. intros _. exists Underflow. now apply deserialize_short. }
  destruct (deserialize_cases c bs H) as [h [_ [_ E]]]. rewrite E.
  assert (G := default_size_ge m c I). unfold lenN.
  destruct (ordinary_exact m c I O) as [Sh Ex].
  destruct (N.eqb_spec (wire_type bs) (code (cls_type c))) as [T|T].
  - unfold deserialize_without_header.
    destruct (Nat.ltb_spec (length (skipn 12 bs)) (N.to_nat (default_size c) - 12)) as [K|K].
    + rewrite (Sh _ K). rewrite skipn_length in K. split; [|eauto]. intros _. right. split; [exact T | lia].
    + destruct (Ex (firstn (N.to_nat (default_size c) - 12) (skipn 12 bs))) as [v Hv]; [rewrite firstn_length; lia|].
      specialize (Hv (skipn (N.to_nat (default_size c) - 12) (skipn 12 bs))). rewrite firstn_skipn in Hv. rewrite Hv.
      rewrite skipn_length in K. split; [intros [e [=]] | intros [K'|[_ K']]; lia].
  - split; [intros [e [=]] | intros [K|[K _]]; [lia | contradiction]].
Qed.

Lemma ordinary_local m c : In c (all_pdus m) -> ordinary c -> forall pre,
  lenN pre = default_size c -> wire_type pre = code (cls_type c) ->
  exists p, forall rest, deserialize c (pre ++ rest) = Ok (ROk p, rest).
Proof.
  intros I O pre L T. assert (G := default_size_ge m c I). unfold lenN in L.
  destruct (ordinary_exact m c I O) as [_ Ex].
  destruct (Ex (skipn 12 pre)) as [v Hv]; [rewrite skipn_length; lia|].
  destruct (fx_exact _ _ _ PduHeader_fixed) as [_ EH].
  destruct (EH (firstn 12 pre)) as [h Hh]; [rewrite firstn_length; lia|].
  assert (D : forall rest, PduHeader_deserialize (pre ++ rest) = Ok (h, skipn 12 pre ++ rest)).
  { intros rest. specialize (Hh (skipn 12 pre ++ rest)). now rewrite app_assoc, firstn_skipn in Hh. }
  exists (mk_pdu h v). intros rest. unfold deserialize. rewrite D.
  destruct (header_decode pre ltac:(lia)) as [h' [D' [_ [_ [T' _]]]]]. fold (wire_type pre) in T'.
  specialize (D []) as D0. rewrite !app_nil_r in D0. rewrite D0 in D'. injection D' as <-.
  rewrite (wire_type_neq c h pre T'), T, N.eqb_refl, Hv. reflexivity.
Qed.

(** ** Fixed-layout classes *)
Lemma written_len_fixed m c : In c (all_pdus m) -> fixed_layout c -> forall (p : pdu c), declared_size p = default_size c.
Proof.
  revert c. by_class.
  all_classes ltac:(intros [O F]; vm_compute in O; first [discriminate O | vm_compute in F; first [discriminate F | intros p; reflexivity]]).
Qed.
Lemma default_size_small m c : In c (all_pdus m) -> default_size c <= 200.
Proof. revert c. by_class. all_classes ltac:(vm_compute; discriminate). Qed.

Lemma exact_emitted m c : In c (all_pdus m) -> exact_length c -> forall p buf p' buf',
  serialize c p buf = Ok (ROk tt, p', buf') ->
  exists out, buf' = buf ++ out /\ lenN out = declared_size p /\ uval (header_length (header p')) = lenN out.
Proof.
  intros I X p buf p' buf' S. destruct (serialize_spec m c I _ _ _ _ S) as [fl [E [St [L [D [Eb W]]]]]].
  exists (PduHeader_serialize (header p') ++ fl). split; [exact E|].
  assert (K : lenN (PduHeader_serialize (header p') ++ fl) = declared_size p).
  { rewrite lenN_app, (body_len_ok _ (all_len_ok m c I X) _ _ W). rewrite <- D. unfold declared_size.
    unfold lenN. rewrite header_ser_length. reflexivity. }
  split; [exact K|]. rewrite K. destruct St as [_ [_ [_ [_ [_ [_ [_ ->]]]]]]]. apply as_uint_val.
  change (256 ^ N.of_nat 2) with 65536. lia.
Qed.

Lemma fixed_exact m c : In c (all_pdus m) -> fixed_layout c -> exact_length c.
Proof.
  revert c. by_class.
  all_classes ltac:(intros [O F]; vm_compute in O; first [discriminate O | vm_compute in F; first [discriminate F | reflexivity]]).
Qed.

Lemma fixed_serialize m c : In c (all_pdus m) -> fixed_layout c -> forall p buf,
  exists p' out, serialize c p buf = Ok (ROk tt, p', buf ++ out) /\
    body p' = body p /\ stamped (cls_type c) (cls_family c) (as_u16 (default_size c)) (header p) (header p') /\
    lenN out = default_size c /\ forall rest, deserialize c (out ++ rest) = Ok (ROk p', rest).
Proof.
  intros I F p buf. assert (O := proj1 F). assert (P := all_prep_ok m c I).
  assert (Ds := written_len_fixed m c I F p).
  destruct (serialize_cases c p buf P) as [[L _]|[L [h' [St E]]]].
  { assert (K := default_size_small m c I). lia. }
  destruct (ordinary_ser_total m c I O (prep_body (cls_fields c) (body p))) as [fl W]. rewrite W in E.
  rewrite <- Ds.
  destruct (exact_emitted m c I (fixed_exact m c I F) _ _ _ _ E) as [out [Eo [Lo _]]].
  destruct (ordinary_roundtrip m c I O _ _ _ _ E) as [Eb [out' [Eo' [_ R]]]].
  assert (out' = out) by (rewrite Eo in Eo'; now apply app_inv_head in Eo'). subst out'.
  rewrite Eo in E. eexists _, out. split; [exact E|]. split; [exact Eb|]. split; [exact St|].
  split; [exact Lo|]. intros rest. rewrite R, (clear_lists_id _ _ (proj2 F)), skipn_all2; [reflexivity|].
  unfold lenN in Lo. lia.
Qed.

(** ** Streams *)
Definition fixed_any m (p : any_pdu) : Prop := In (class_of p) (all_pdus m) /\ fixed_layout (class_of p).
Lemma stream_roundtrip m : forall ps, Forall (fun p => In (class_of p) (all_pdus m) /\ fixed_layout (class_of p)) ps ->
  forall buf, exists qs out, serialize_all ps buf = Some (qs, buf ++ out) /\ Forall2 sent_as ps qs /\
    forall rest, deserialize_all (map class_of ps) (out ++ rest) = Some (qs, rest).
Proof.
  induction 1 as [|[c p] ps [I F] _ IH]; intros buf.
  - exists [], []. rewrite app_nil_r. split; [reflexivity|]. split; [constructor | reflexivity].
  - cbn [class_of projT1] in I, F.
    destruct (fixed_serialize m c I F p buf) as [p' [o1 [E1 [Eb [St [_ R1]]]]]].
    destruct (IH (buf ++ o1)) as [qs [o2 [E2 [S2 R2]]]].
    exists (existT _ c p' :: qs), (o1 ++ o2). split.
    + cbn [serialize_all]. rewrite E1, E2, app_assoc. reflexivity.
    + split; [constructor; [exists c, p, p'; auto | exact S2]|].
      intros rest. cbn [map class_of projT1 deserialize_all]. rewrite <- app_assoc, R1, R2. reflexivity.
Qed.

(** ** Checks on lists of names and numbers *)
Lemma mem_string_In s l : mem_string s l = true <-> In s l.
Proof.
  unfold mem_string. rewrite existsb_exists. split.
  - intros [x [I E]]. apply String.eqb_eq in E. now subst.
  - intros I. exists s. split; [exact I | apply String.eqb_refl].
Qed.
Lemma incl_check l l' : forallb (fun s => mem_string s l') l = true -> incl l l'.
Proof. intros H s I. rewrite forallb_forall in H. apply mem_string_In, H, I. Qed.
Fixpoint nodup_by {A} (eqb : A -> A -> bool) (l : list A) : bool :=
  match l with [] => true | x :: l' => negb (existsb (eqb x) l') && nodup_by eqb l' end.
Lemma nodup_check {A} (eqb : A -> A -> bool) : (forall x, eqb x x = true) ->
  forall l, nodup_by eqb l = true -> NoDup l.
Proof.
  intros R. induction l as [|x l IH]; cbn; intros H; [constructor|].
  apply andb_true_iff in H as [H1 H2]. constructor; [|apply IH, H2].
  intros I. apply negb_true_iff in H1. assert (E : existsb (eqb x) l = true).
  { apply existsb_exists. exists x. split; [exact I | apply R]. }
  congruence.
Qed.

Lemma serialize_no_panic m c : In c (all_pdus m) -> mem_string (cls_name c) record_specification_pdus = false ->
  forall p buf e, serialize c p buf <> Panic e.
Proof.
  intros I R p buf e. destruct (body_ser_total _ (all_ser_total m c I R) (prep_body (cls_fields c) (body p))) as [out W].
  destruct (serialize_cases c p buf (all_prep_ok m c I)) as [[_ [p' [E _]]]|[_ [h' [_ E]]]]; rewrite E; [discriminate|].
  rewrite W. discriminate.
Qed.

Lemma skipn_add {A} n m (l : list A) : skipn n (skipn m l) = skipn (n + m) l.
Proof.
  revert l. induction m as [|m IH]; intros l; [now rewrite Nat.add_0_r|].
  destruct l as [|x l]; [now rewrite !skipn_nil|]. rewrite Nat.add_succ_r. cbn [skipn]. apply IH.
Qed.

Lemma ordinary_consumes m c : In c (all_pdus m) -> ordinary c -> forall bs p rest,
  deserialize c bs = Ok (ROk p, rest) -> exists pre, bs = pre ++ rest /\ lenN pre = default_size c.
Proof.
  intros I O bs p rest D. assert (G := default_size_ge m c I).
  destruct (Nat.ltb_spec (length bs) 12) as [H|H]; [rewrite deserialize_short in D by exact H; discriminate|].
  destruct (deserialize_cases c bs H) as [h [_ [T W]]]. rewrite W in D.
  destruct (N.eqb_spec (wire_type bs) (code (cls_type c))) as [K|]; [|discriminate].
  unfold deserialize_without_header in D. destruct (body_deserialize _ _ _) as [[b r]|] eqn:E; [|discriminate].
  injection D as _ <-. destruct (ordinary_exact m c I O) as [Sh Ex].
  destruct (Nat.ltb_spec (length (skipn 12 bs)) (N.to_nat (default_size c) - 12)) as [K'|K']; [rewrite (Sh _ K') in E; discriminate|].
  destruct (Ex (firstn (N.to_nat (default_size c) - 12) (skipn 12 bs))) as [v Hv]; [rewrite firstn_length; lia|].
  specialize (Hv (skipn (N.to_nat (default_size c) - 12) (skipn 12 bs))). rewrite firstn_skipn, E in Hv. injection Hv as _ ->.
  exists (firstn (N.to_nat (default_size c)) bs). rewrite skipn_length in K'. split.
  - change (bs = firstn (N.to_nat (default_size c)) bs ++ skipn (N.to_nat (default_size c) - 12) (skipn 12 bs)).
    rewrite skipn_add. replace (_ - 12 + 12)%nat with (N.to_nat (default_size c)) by lia. now rewrite firstn_skipn.
  - unfold lenN. rewrite firstn_length. lia.
Qed.
Lemma fixed_consumes m c : In c (all_pdus m) -> fixed_layout c -> forall bs p rest,
  deserialize c bs = Ok (ROk p, rest) -> exists pre, bs = pre ++ rest /\ lenN pre = default_size c.
Proof. intros I [O _]. apply (ordinary_consumes m c I O). Qed.
