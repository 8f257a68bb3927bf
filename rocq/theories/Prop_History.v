(** * Histories of calls and framing of the output (C48). Vocabulary in [Spec], [SpecHistory]. *)
From Verif Require Import Base BaseFacts EnumModel Enums EnumFacts Header HeaderFacts HeaderProofs PduMacro PduMacroFacts
  DataTypes Pdus PduFields Spec ClassFacts PduProofs SpecHistory Prop_Pdu.

Lemma be2_at_app a b i : (i + 1 < length a)%nat -> be2_at (a ++ b) i = be2_at a i.
Proof. intros H. unfold be2_at, byte_at. rewrite !app_nth1 by lia. reflexivity. Qed.

(** ** A stream can be cut in at most one way. *)
Lemma frame_prefix a b x y : one_frame a -> one_frame b -> a ++ x = b ++ y -> a = b /\ x = y.
Proof.
  intros [La Ha] [Lb Hb] E.
  assert (K : lenN a = lenN b) by (rewrite <- Ha, <- Hb, <- (be2_at_app a x) , <- (be2_at_app b y), E by lia; reflexivity).
  assert (L : length a = length b) by (unfold lenN in K; lia).
  apply (f_equal (firstn (length a))) in E as E1. rewrite firstn_app, firstn_all, Nat.sub_diag, L, firstn_app, firstn_all, Nat.sub_diag in E1.
  cbn [firstn] in E1. rewrite !app_nil_r in E1. subst b. split; [reflexivity|]. apply app_inv_head in E. exact E.
Qed.
Theorem C48_framing_unique : forall bs f g, framed bs f -> framed bs g -> f = g.
Proof.
  intros bs f g [-> F] [E G]. revert g E G. induction F as [|a f Ha F IH]; intros g E G.
  - destruct G as [|b g Hb G]; [reflexivity|]. destruct Hb as [L _]. cbn [List.concat] in E.
    apply (f_equal (@length _)) in E. rewrite app_length in E. cbn in E. lia.
  - destruct G as [|b g Hb G].
    + destruct Ha as [L _]. cbn [List.concat] in E. apply (f_equal (@length _)) in E. rewrite app_length in E. cbn in E. lia.
    + cbn [List.concat] in E. destruct (frame_prefix _ _ _ _ Ha Hb E) as [-> E']. f_equal. apply IH; assumption.
Qed.

(** ** One call *)
Lemma serialize_frame m c : In c (all_pdus m) -> exact_length c -> forall p buf p' buf',
  serialize c p buf = Ok (ROk tt, p', buf') ->
  exists fr, buf' = buf ++ fr /\ event_frame (ROk tt, existT _ c p') fr.
Proof.
  intros I X p buf p' buf' E.
  destruct (exact_emitted m c I X _ _ _ _ E) as [out [E1 [L Hl]]].
  destruct (serialize_spec m c I _ _ _ _ E) as [fl [E2 [St [_ [_ [_ W]]]]]].
  rewrite E1 in E2. apply app_inv_head in E2. exists out. split; [exact E1|].
  cbn [event_frame]. assert (Lo : (12 <= length out)%nat) by (rewrite E2, app_length, header_ser_length; lia).
  destruct St as [_ [_ [_ [_ [_ [St1 [St2 _]]]]]]].
  assert (Hb : byte_at out 2 = code (cls_type c) /\ byte_at out 3 = code (cls_family c) /\ be2_at out 8 = uval (header_length (header p'))).
  { rewrite E2, header_layout, <- app_assoc, St1, St2. unfold be2_at, byte_at, be2, be4. cbn [app nth Nat.add].
    assert (Ht := all_codes PduType_spec (fun n => n <? 256) eq_refl (cls_type c)).
    assert (Hf := all_codes ProtocolFamily_spec (fun n => n <? 256) eq_refl (cls_family c)).
    apply N.ltb_lt in Ht, Hf. unfold B, as_u8. rewrite !as_uint_val; change (256 ^ N.of_nat 1) with 256; try assumption.
    - repeat split. assert (U := N.div_mod (uval (header_length (header p'))) 256). lia.
    - apply N.mod_lt. discriminate.
    - assert (U := uint_lt _ (header_length (header p'))). change (256 ^ N.of_nat 2) with 65536 in U. apply N.div_lt_upper_bound; lia. }
  destruct Hb as [H2 [H3 H8]]. split; [split; [exact Lo | rewrite H8; exact Hl]|]. split; [exact H2|]. split; [exact H3|].
  split; [exists fl; split; [exact E2 | apply written_iff, W]|].
  rewrite E1 in E. exact (serialize_idem m c I _ _ _ _ [] E).
Qed.

Definition good m (p : any_pdu) : Prop := In (class_of p) (all_pdus m) /\ exact_length (class_of p).

Lemma exact_no_panic m c : In c (all_pdus m) -> exact_length c -> forall p buf e, serialize c p buf <> Panic e.
Proof.
  intros I X. apply (serialize_no_panic m c I). unfold exact_length in X.
  destruct (mem_string (cls_name c) record_specification_pdus) eqn:E; [|reflexivity].
  apply mem_string_In in E. cbn in E. destruct E as [E|[E|[]]]; rewrite <- E in X; discriminate X.
Qed.

Lemma Forall_replace {A} (P : A -> Prop) x : P x -> forall l i, Forall P l -> Forall P (replace i x l).
Proof. intros H. induction l as [|y l IH]; intros [|i] F; cbn; try assumption; inversion F; subst; constructor; auto. Qed.
Lemma Forall_nth {A} (P : A -> Prop) l i x : Forall P l -> nth_error l i = Some x -> P x.
Proof. intros F E. rewrite Forall_forall in F. apply F, (nth_error_In _ _ E). Qed.

Lemma step_frames m o ps buf : Forall (good m) ps -> Forall (good m) (assigned [o]) ->
  exists ps' es frs, step o (ps, buf) = Some (ps', buf ++ List.concat frs, es) /\ Forall2 event_frame es frs /\
    Forall (good m) ps' /\ Forall (good m) (map snd es).
Proof.
  intros G A. destruct o as [i p|i|i]; cbn [step].
  - exists (replace i p ps), [], []. cbn [List.concat]. rewrite app_nil_r. split; [reflexivity|]. split; [constructor|]. split; [|constructor].
    apply Forall_replace; [|exact G]. cbn in A. now inversion A.
  - destruct (nth_error ps i) as [[c p]|] eqn:E.
    + exists (replace i (existT _ c (finalize c p)) ps), [], []. cbn [List.concat]. rewrite app_nil_r. split; [reflexivity|]. split; [constructor|]. split; [|constructor].
      apply Forall_replace; [|exact G]. exact (Forall_nth _ _ _ _ G E).
    + exists ps, [], []. cbn [List.concat]. rewrite app_nil_r. repeat split; [constructor | exact G | constructor].
  - destruct (nth_error ps i) as [[c p]|] eqn:E.
    + assert (Gp := Forall_nth _ _ _ _ G E). destruct Gp as [I X]. cbn [class_of projT1] in I, X.
      destruct (serialize c p buf) as [[[[[]|e] p'] buf']|e] eqn:S; [| |exfalso; exact (exact_no_panic m c I X _ _ _ S)].
      * destruct (serialize_frame m c I X _ _ _ _ S) as [fr [-> F]].
        exists (replace i (existT _ c p') ps), [(ROk tt, existT _ c p')], [fr]. cbn [List.concat]. rewrite app_nil_r.
        split; [reflexivity|]. split; [constructor; [exact F | constructor]|]. split; [apply Forall_replace; [|exact G]; split; assumption|].
        cbn. constructor; [split; assumption | constructor].
      * assert (Hb : buf' = buf).
        { destruct (serialize_cases c p buf (all_prep_ok m c I)) as [[_ [q [Eq _]]]|[_ [h' [_ Eq]]]]; rewrite Eq in S; [congruence|].
          destruct (body_serialize _ _); discriminate. }
        subst buf'. exists (replace i (existT _ c p') ps), [(RErr e, existT _ c p')], [[]]. cbn [List.concat app]. rewrite app_nil_r.
        split; [reflexivity|]. split; [constructor; [reflexivity | constructor]|]. split; [apply Forall_replace; [|exact G]; split; assumption|].
        cbn. constructor; [split; assumption | constructor].
    + exists ps, [], []. cbn [List.concat]. rewrite app_nil_r. repeat split; [constructor | exact G | constructor].
Qed.
Lemma run_frames m os : forall ps buf, Forall (good m) ps -> Forall (good m) (assigned os) ->
  exists ps' es frs, run os (ps, buf) = Some (ps', buf ++ List.concat frs, es) /\ Forall2 event_frame es frs /\
    Forall (good m) (map snd es).
Proof.
  induction os as [|o os IH]; intros ps buf G A.
  - exists ps, [], []. cbn. rewrite app_nil_r. repeat split; constructor.
  - change (o :: os) with ([o] ++ os) in A. unfold assigned in A. rewrite flat_map_app in A. apply Forall_app in A as [A1 A2].
    destruct (step_frames m o ps buf G A1) as [ps1 [es1 [f1 [E1 [F1 [G1 K1]]]]]].
    destruct (IH ps1 (buf ++ List.concat f1) G1 A2) as [ps2 [es2 [f2 [E2 [F2 K2]]]]].
    exists ps2, (es1 ++ es2), (f1 ++ f2). cbn [run]. rewrite E1. cbv iota beta.
    split; [|split; [apply Forall2_app; assumption | rewrite map_app; apply Forall_app; split; assumption]].
    refine (eq_trans (f_equal (fun x => match x with Some (st2, es') => Some (st2, es1 ++ es') | None => None end) E2) _).
    rewrite concat_app, app_assoc. reflexivity.
Qed.

(** ** Any history of calls: nothing panics, earlier output is never disturbed, and what
    was appended is exactly the frames of the successful calls, in order. *)
Theorem C48_history_framed : forall m os ps buf,
  Forall (fun p => In (class_of p) (all_pdus m) /\ exact_length (class_of p)) (ps ++ assigned os) ->
  exists ps' es frs,
    run os (ps, buf) = Some (ps', buf ++ List.concat frs, es) /\ Forall2 event_frame es frs.
Proof.
  intros m os ps buf G. apply Forall_app in G as [G A].
  destruct (run_frames m os ps buf G A) as [ps' [es [frs [E [F _]]]]]. eauto.
Qed.

(** ** The receiver's side. Whatever way the output of a history is cut along its length
    fields, the pieces are the successfully serialized PDUs in order, and each decodes to
    the PDU it came from, lists emptied (ordinary classes; for a class without lists
    [clear_lists p] is [p]). *)
Definition sent (es : list event) : list any_pdu :=
  flat_map (fun e => match e with (ROk _, p) => [p] | (RErr _, _) => [] end) es.
Definition decodes_from (p : any_pdu) (fr : bytes) : Prop :=
  match p with existT _ c q => ordinary c -> forall rest,
    exists left, deserialize c (fr ++ rest) = Ok (ROk (clear_lists q), left ++ rest) end.

Lemma event_frames_framed es frs : Forall2 event_frame es frs ->
  exists frs', List.concat frs = List.concat frs' /\ Forall one_frame frs' /\
    Forall2 (fun p fr => event_frame (ROk tt, p) fr) (sent es) frs'.
Proof.
  induction 1 as [|[r p] fr es frs He _ [frs' [E [F G]]]]; [exists []; repeat split; constructor|].
  destruct r as [[]|e]; cbn [sent flat_map app List.concat].
  - exists (fr :: frs'). cbn [List.concat]. rewrite E. split; [reflexivity|]. split; constructor; try assumption.
    destruct p as [c p]. exact (proj1 He).
  - cbn in He. subst fr. exists frs'. split; [exact E|]. split; assumption.
Qed.


Lemma sent_good m es : Forall (good m) (map snd es) -> Forall (good m) (sent es).
Proof.
  induction es as [|[[[]|e] p] es IH]; cbn; intros F; [constructor | |]; inversion F; subst; [constructor; auto | auto].
Qed.
Theorem C48_receiver : forall m os ps,
  Forall (fun p => In (class_of p) (all_pdus m) /\ exact_length (class_of p)) (ps ++ assigned os) ->
  exists ps' out es, run os (ps, []) = Some (ps', out, es) /\ (exists frs, framed out frs) /\
    forall frs, framed out frs -> Forall2 decodes_from (sent es) frs.
Proof.
  intros m os ps G. apply Forall_app in G as [G A].
  destruct (run_frames m os ps [] G A) as [ps' [es [frs [E [F K]]]]]. cbn [app] in E.
  exists ps', (List.concat frs), es. split; [exact E|].
  destruct (event_frames_framed es frs F) as [frs' [Ec [Ff Fs]]]. rewrite Ec.
  assert (Fr : framed (List.concat frs') frs') by (split; [reflexivity | exact Ff]).
  split; [eauto|]. intros frs2 F2. rewrite (C48_framing_unique _ _ _ F2 Fr). apply sent_good in K. clear - Fs K. revert Fs K. generalize (sent es). intros l Fs K.
  induction Fs as [|[c p] fr l frs H Fs IH]; [constructor|]. inversion K as [|? ? [I X] K']; subst. constructor; [|apply IH, K'].
  cbn [class_of projT1] in I, X. intros O rest. destruct H as [_ [_ [_ [_ H]]]].
  destruct (ordinary_roundtrip m c I O _ _ _ _ H) as [_ [out [E [_ R]]]]. cbn [app] in E. subst out. eauto.
Qed.

(** Three PDUs, one of them too large to be sent, a mutation between two calls. *)
Definition history_example : list op :=
  [Serialize 0; Serialize 1; Serialize 2; Assign 1 (existT _ FirePdu (pdu_default FirePdu (as_u32 9))); Finalize 0; Serialize 1; Serialize 7].
Definition history_pdus : list any_pdu :=
  [existT _ AcknowledgePdu (pdu_default AcknowledgePdu (as_u32 1)); existT _ SignalPdu (big_signal (N.to_nat 65504)); existT _ SignalPdu (big_signal 3)].
Example C48_example_hypothesis :
  Forall (fun p => In (class_of p) (all_pdus Checked) /\ exact_length (class_of p)) (history_pdus ++ assigned history_example).
Proof.
  repeat (apply Forall_cons; [split; [cbn; tauto | reflexivity]|]). apply Forall_nil.
Qed.
Example C48_example_run :
  match run history_example (history_pdus, []) with
  | Some (_, out, es) => (lenN out, map (fun e => match fst e with ROk _ => true | RErr _ => false end) es)
  | None => (0, [])
  end = (32 + 35 + 96, [true; false; true; true]).
Proof. vm_compute. reflexivity. Qed.

(** False for a class whose declared length is not the emitted one: two EntityState PDUs in
    a row cannot be cut at all. *)
Theorem C48_framing_refuted : exists ps' out es,
  run [Serialize 0; Serialize 0] ([existT _ EntityStatePdu (pdu_default EntityStatePdu (as_u32 0))], []) = Some (ps', out, es) /\
  map fst es = [ROk tt; ROk tt] /\ forall frs, ~ framed out frs.
Proof.
  assert (C : match run [Serialize 0; Serialize 0] ([existT _ EntityStatePdu (pdu_default EntityStatePdu (as_u32 0))], []) with
    | Some (_, out, es) => (map fst es, lenN out, be2_at out 8, be2_at out 152) | None => ([], 0, 0, 0) end
    = ([ROk tt; ROk tt], 266, 144, 0)) by (vm_compute; reflexivity).
  destruct (run _ _) as [[[ps' out] es]|]; [|discriminate C].
  injection C as C1 C2 C3 C4. exists ps', out, es. split; [reflexivity|]. split; [exact C1|].
  intros frs [E F].
  destruct F as [|a frs [La Ha] F]; [subst out; discriminate C2|]. cbn [List.concat] in E.
  assert (Ka : length a = 144%nat).
  { rewrite <- (be2_at_app a (List.concat frs) 8 ltac:(lia)), <- E in Ha. unfold lenN in Ha. lia. }
  destruct F as [|b frs [Lb Hb] F].
  { apply (f_equal (@length _)) in E. rewrite app_length, Ka in E. unfold lenN in C2. cbn in E. lia. }
  cbn [List.concat] in E. assert (K : be2_at out 152 = be2_at b 8).
  { rewrite <- (be2_at_app b (List.concat frs) 8 ltac:(lia)), E. unfold be2_at, byte_at. rewrite !(app_nth2 a) by lia. rewrite Ka. reflexivity. }
  unfold lenN in Hb. lia.
Qed.

(** What the theorems above rest on (one traversal for all of them; not part of the model). *)
Definition Prop_History_theorems : True :=
  let _ := @C48_framing_unique in
  let _ := @C48_history_framed in
  let _ := @C48_receiver in
  let _ := @C48_framing_refuted in
  I.
Print Assumptions Prop_History_theorems.
