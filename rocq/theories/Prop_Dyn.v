(** * C83: PDUs behind a trait object. *)
From Verif Require Import Base BaseFacts EnumModel Enums EnumFacts Header HeaderProofs PduMacro PduMacroFacts Pdus Spec ClassFacts PduProofs
  Wire WireProofs DynPdu SpecDyn.
From Verif Require Prop_Pdu Prop_Dispatch.

(** ** What an object is *)
Lemma names_differ m : NoDup (map (fun c => cls_name c) (all_pdus m)).
Proof. apply (nodup_check String.eqb String.eqb_refl). destruct m; vm_compute; reflexivity. Qed.
Lemma name_at m i : (i < length (all_pdus m))%nat -> nth i (map (fun c => cls_name c) (all_pdus m)) ""%string = cls_name (class_at m i).
Proof.
  intros H. rewrite (nth_indep _ ""%string (cls_name AcknowledgePdu)) by (rewrite map_length; exact H).
  apply (map_nth (fun c => cls_name c)).
Qed.
Lemma class_in m i : (i < length (all_pdus m))%nat -> In (class_at m i) (all_pdus m).
Proof. intros H. apply nth_In, H. Qed.

(** An object is of exactly one class, and casting to that class gives the value put in. *)
Theorem C83_downcast : forall m (i j : nat) (p : pdu (class_at m i)),
  (i < length (all_pdus m))%nat -> (j < length (all_pdus m))%nat ->
  downcast_ref i (mk_dyn i p) = Some p /\
  (downcast_ref j (mk_dyn i p) <> None <-> cls_name (class_at m j) = cls_name (class_at m i)).
Proof.
  intros m i j p Hi Hj. split.
  - unfold downcast_ref. cbn [dyn_type dyn_value]. destruct (Nat.eq_dec i i) as [E|N]; [|congruence].
    rewrite (Eqdep_dec.UIP_refl_nat i E). reflexivity.
  - unfold downcast_ref. cbn [dyn_type dyn_value]. destruct (Nat.eq_dec i j) as [E|N].
    + subst j. split; [intros _; reflexivity | discriminate].
    + split; [congruence|]. intros E. exfalso. apply N.
      assert (D := names_differ m). rewrite (NoDup_nth _ ""%string) in D. apply D; [rewrite map_length; assumption..|].
      rewrite !name_at by assumption. symmetry. exact E.
Qed.

Lemma mk_dyn_inj m i (p q : pdu (class_at m i)) : mk_dyn i p = mk_dyn i q -> p = q.
Proof.
  intros E. apply (f_equal (downcast_ref i)) in E. unfold downcast_ref in E. cbn [dyn_type dyn_value] in E.
  destruct (Nat.eq_dec i i) as [R|N]; [|congruence]. rewrite (Eqdep_dec.UIP_refl_nat i R) in E. cbn in E. now injection E.
Qed.

(** ** Histories *)
Definition kept {c} (p q : pdu c) : Prop :=
  body q = body p \/ body q = prep_body (cls_fields c) (body p).

(** [serialize] sees of the header only the user's fields, and of the body only what
    the length updates leave. *)
Lemma serialize_sees c (p q : pdu c) buf buf' : prep_ok c -> user_fields (header p) = user_fields (header q) -> kept p q ->
  match serialize c p buf, serialize c q buf' with
  | Ok (r, p', b), Ok (r', q', b') => r = r' /\ (exists out, b = buf ++ out /\ b' = buf' ++ out) /\
      user_fields (header p') = user_fields (header p) /\ user_fields (header q') = user_fields (header p) /\
      body p' = prep_body (cls_fields c) (body p) /\ body q' = body p'
  | Panic e, Panic e' => e = e'
  | _, _ => False
  end.
Proof.
  intros P U K. assert (Eb : prep_body (cls_fields c) (body q) = prep_body (cls_fields c) (body p)).
  { destruct K as [->| ->]; [reflexivity | apply (prep_idem _ P)]. }
  unfold serialize. cbv zeta. rewrite Eb. injection U as U1 U2 U3 U4 U5. unfold calculate_length. cbn [body].
  destruct (try_uint 2 _) as [len|].
  - destruct (body_serialize (cls_fields c) (prep_body (cls_fields c) (body p))) as [out|e]; [|reflexivity].
    cbn [header body]. unfold PduHeader_serialize. cbn [set_length set_protocol_family set_pdu_type protocol_version exercise_id pdu_type
      protocol_family timestamp header_length status_record header_padding]. rewrite <- U1, <- U2, <- U3, <- U4, <- U5.
    split; [reflexivity|]. split; [eexists; split; reflexivity|]. unfold user_fields. cbn. rewrite <- U1, <- U2, <- U3, <- U4, <- U5.
    repeat split; reflexivity.
  - split; [reflexivity|]. split; [exists []; rewrite !app_nil_r; split; reflexivity|].
    unfold user_fields. cbn. rewrite <- U1, <- U2, <- U3, <- U4, <- U5. repeat split; reflexivity.
Qed.
Lemma kept_trans c (p q r : pdu c) : prep_ok c -> kept p q -> kept q r -> kept p r.
Proof.
  intros P [A|A] [B|B]; unfold kept; rewrite B, A; auto. right. apply (prep_idem _ P).
Qed.

(** One call, compared with the original fields [p] under the header [h] last assigned. *)
Definition shape (m : profile) (i : nat) (p : pdu (class_at m i)) (h : PduHeader) (o : dyn_pdu m) : Prop :=
  exists q, o = mk_dyn i q /\ user_fields (header q) = user_fields h /\ kept p q.

Lemma run_shape m i p : (i < length (all_pdus m))%nat -> forall ks h o buf, shape m i p h o ->
  match dyn_run ks o buf with
  | Ok (_, o', buf') => shape m i p (last_header ks h) o' /\ buf' = buf ++ List.concat (must_emit (class_at m i) (body p) ks h) /\
      (~ In CSerialize ks -> exists q q', o = mk_dyn i q /\ o' = mk_dyn i q' /\ body q' = body q) /\
      (In CSerialize ks -> forall e, serialize (class_at m i) p [] <> Panic e)
  | Panic e => In CSerialize ks /\ exists e', serialize (class_at m i) p [] = Panic e'
  end.
Proof.
  intros Hi. assert (P := all_prep_ok m _ (class_in m i Hi)).
  assert (PP : forall h, match serialize (class_at m i) p [], serialize (class_at m i) (mk_pdu h (body p)) [] with
    | Ok _, Ok _ | Panic _, Panic _ => True | _, _ => False end).
  { intros h. unfold serialize. cbv zeta. unfold calculate_length. cbn [body]. destruct (try_uint 2 _); [|exact I].
    destruct (body_serialize _ _); exact I. }
  induction ks as [|k ks IH]; intros h o buf S.
  - cbn. destruct S as [q [E [U K]]]. split; [exists q; auto|]. split; [now rewrite app_nil_r|].
    split; [intros _; exists q, q; auto | intros []].
  - cbn [dyn_run]. destruct S as [q [-> [U K]]].
    assert (Hk : forall h' o' buf1 pre, shape m i p h' o' -> buf1 = buf ++ pre ->
      last_header (k :: ks) h = last_header ks h' ->
      must_emit (class_at m i) (body p) (k :: ks) h = (match pre with [] => [] | _ => [pre] end) ++ must_emit (class_at m i) (body p) ks h' ->
      (k = CSerialize \/ exists q', o' = mk_dyn i q' /\ body q' = body q) ->
      (k = CSerialize -> forall e, serialize (class_at m i) p [] <> Panic e) ->
      match match dyn_run ks o' buf1 with Panic e => Panic e | Ok (l, o'', buf'') => Ok (AUnit :: l, o'', buf'') end with
      | Ok (_, o'', buf') => shape m i p (last_header (k :: ks) h) o'' /\
         buf' = buf ++ List.concat (must_emit (class_at m i) (body p) (k :: ks) h) /\
         (~ In CSerialize (k :: ks) -> exists q0 q', mk_dyn i q = mk_dyn i q0 /\ o'' = mk_dyn i q' /\ body q' = body q0) /\
         (In CSerialize (k :: ks) -> forall e, serialize (class_at m i) p [] <> Panic e)
      | Panic e => In CSerialize (k :: ks) /\ exists e', serialize (class_at m i) p [] = Panic e'
      end).
    { intros h' o' buf1 pre S' -> EL EM B NP. specialize (IH h' o' (buf ++ pre) S').
      destruct (dyn_run ks o' (buf ++ pre)) as [[[l o''] b'']|e].
      - destruct IH as [A [C [D F]]]. rewrite EL, EM. split; [exact A|]. split.
        + rewrite C, concat_app. destruct pre; cbn; rewrite ?app_nil_r, <- ?app_assoc; reflexivity.
        + split.
          * intros N. destruct B as [B|[q1 [B1 B2]]]; [exfalso; apply N; left; exact B|].
            destruct D as [q2 [q3 [D1 [D2 D3]]]]; [intros J; apply N; right; exact J|].
            exists q, q3. split; [reflexivity|]. split; [exact D2|]. rewrite D3, <- B2. subst o'.
            apply mk_dyn_inj in D1. now subst q2.
          * intros [J|J]; [apply NP, J | apply F, J].
      - destruct IH as [J X]. split; [right; exact J | exact X]. }
    destruct k; unfold dyn_call; cbn [dyn_type dyn_value].
    + assert (H := Hk h (mk_dyn i q) buf []). rewrite app_nil_r in H.
      destruct (dyn_run ks _ buf) as [[[? ?] ?]|]; apply H; try reflexivity; try discriminate; eauto; exists q; auto.
    + assert (H := Hk h (mk_dyn i q) buf []). rewrite app_nil_r in H.
      destruct (dyn_run ks _ buf) as [[[? ?] ?]|]; apply H; try reflexivity; try discriminate; eauto; exists q; auto.
    + assert (H := Hk h0 (mk_dyn i (mk_pdu h0 (body q))) buf []). rewrite app_nil_r in H.
      assert (S1 : shape m i p h0 (mk_dyn i (mk_pdu h0 (body q)))) by (eexists; split; [reflexivity|]; split; [reflexivity | exact K]).
      destruct (dyn_run ks _ buf) as [[[? ?] ?]|]; apply H; try reflexivity; try discriminate; eauto; right; eexists; split; reflexivity.
    + assert (H := Hk h (mk_dyn i (finalize (class_at m i) q)) buf []). rewrite app_nil_r in H.
      assert (S1 : shape m i p h (mk_dyn i (finalize (class_at m i) q))) by (eexists; split; [reflexivity|]; split; [exact U | exact K]).
      destruct (dyn_run ks _ buf) as [[[? ?] ?]|]; apply H; try reflexivity; try discriminate; eauto; right; eexists; split; reflexivity.
    + assert (X := serialize_sees _ (mk_pdu h (body p)) q [] buf P (eq_sym U) K).
      assert (Y := PP h). cbn [header body] in X.
      destruct (serialize (class_at m i) (mk_pdu h (body p)) []) as [[[r p'] b]|e] eqn:Es;
        destruct (serialize (class_at m i) q buf) as [[[r' q'] b']|e'] eqn:Eq; try contradiction.
      * destruct X as [<- [[out [-> ->]] [U1 [U2 [B1 B2]]]]]. cbn [app] in Es.
        assert (EO : (match r with ROk _ => [out] | RErr _ => [] end) = (match out with [] => [] | _ => [out] end)).
        { unfold serialize in Es. cbv zeta in Es. destruct (calculate_length _ _) as [n|er]; [|injection Es as <- _ <-; reflexivity].
          destruct (body_serialize _ _) as [w|]; [|discriminate]. injection Es as <- _ <-. reflexivity. }
        assert (H := Hk h (mk_dyn i q') (buf ++ out) out).
        assert (S1 : shape m i p h (mk_dyn i q')).
        { exists q'. split; [reflexivity|]. split; [exact U2|]. right. congruence. }
        assert (NP : forall e, serialize (class_at m i) p [] <> Panic e).
        { intros e E. rewrite E in Y. exact Y. }
        assert (EM : must_emit (class_at m i) (body p) (CSerialize :: ks) h =
          (match out with [] => [] | _ => [out] end) ++ must_emit (class_at m i) (body p) ks h).
        { cbn [must_emit]. rewrite Es, <- EO. destruct r; reflexivity. }
        destruct (dyn_run ks _ (buf ++ out)) as [[[? ?] ?]|]; apply H; auto.
      * split; [left; reflexivity|]. destruct (serialize (class_at m i) p []) as [|e2]; [contradiction | eauto].
Qed.

Lemma shape_refl m i p : shape m i p (header p) (mk_dyn i p).
Proof. exists p. split; [reflexivity|]. split; [reflexivity | left; reflexivity]. Qed.

(** Whatever a program does with the object through the trait: it stays of its class; the user's header fields are those of the header last assigned; the fields are
    unchanged, up to the length fields the library computes itself, and only [serialize]
    touches these. *)
Theorem C83_history : forall m i (p : pdu (class_at m i)) ks buf answers o buf', (i < length (all_pdus m))%nat ->
  dyn_run ks (mk_dyn i p) buf = Ok (answers, o, buf') ->
  exists q, downcast_ref i o = Some q /\ dyn_type o = i /\
    user_fields (header q) = user_fields (last_header ks (header p)) /\
    reset_fields (auto_len_fields (class_at m i)) (cls_fields (class_at m i)) (body q) =
      reset_fields (auto_len_fields (class_at m i)) (cls_fields (class_at m i)) (body p) /\
    (auto_len_fields (class_at m i) = [] \/ ~ In CSerialize ks -> body q = body p).
Proof.
  intros m i p ks buf answers o buf' Hi R. assert (P := all_prep_ok m _ (class_in m i Hi)).
  assert (H := run_shape m i p Hi ks (header p) (mk_dyn i p) buf (shape_refl m i p)). rewrite R in H.
  destruct H as [[q [-> [U K]]] [_ [D _]]]. exists q. split; [apply (C83_downcast m i i q Hi Hi)|]. split; [reflexivity|].
  split; [exact U|]. split.
  - destruct K as [->| ->]; [reflexivity | apply (prep_reset _ P)].
  - intros [A|N].
    + destruct K as [->| ->]; [reflexivity|]. apply (prep_default _ P), A.
    + destruct (D N) as [q1 [q2 [E1 [E2 E3]]]].
      apply mk_dyn_inj in E1, E2. subst q1 q2. exact E3.
Qed.

(** What it writes: for every call of [serialize] the datagram of the original fields under the
    header last assigned, and nothing else. In particular assigning type, family or length
    through [header_mut], finalizing, or serializing before, never shows on the wire. *)
Theorem C83_emitted : forall m i (p : pdu (class_at m i)) ks buf answers o buf', (i < length (all_pdus m))%nat ->
  dyn_run ks (mk_dyn i p) buf = Ok (answers, o, buf') ->
  buf' = buf ++ List.concat (must_emit (class_at m i) (body p) ks (header p)).
Proof.
  intros m i p ks buf answers o buf' Hi R.
  assert (H := run_shape m i p Hi ks (header p) (mk_dyn i p) buf (shape_refl m i p)). rewrite R in H. apply H.
Qed.
Theorem C83_hidden_fields : forall c b h h' buf, user_fields h = user_fields h' ->
  must_emit c b [CSerialize] h = must_emit c b [CSerialize] h' /\
  match serialize c (mk_pdu h b) buf, serialize c (mk_pdu h' b) buf with
  | Ok (r, _, out), Ok (r', _, out') => r = r' /\ out = out'
  | Panic e, Panic e' => e = e'
  | _, _ => False
  end.
Proof.
  intros c b h h' buf U. injection U as U1 U2 U3 U4 U5. cbn [must_emit]. unfold serialize. cbv zeta. unfold calculate_length. cbn [body header].
  assert (HL : forall len, set_length len (set_protocol_family (cls_family c) (set_pdu_type (cls_type c) h)) =
                           set_length len (set_protocol_family (cls_family c) (set_pdu_type (cls_type c) h'))).
  { intros len. unfold set_length, set_protocol_family, set_pdu_type. cbn. now rewrite U1, U2, U3, U4, U5. }
  destruct (try_uint 2 _) as [len|]; [|auto]. rewrite (HL len). split; [reflexivity|].
  destruct (body_serialize _ _); auto.
Qed.
(** A program panics exactly if it calls [serialize] on an object whose fields make it panic. *)
Theorem C83_panics : forall m i (p : pdu (class_at m i)) ks buf, (i < length (all_pdus m))%nat ->
  ((exists e, dyn_run ks (mk_dyn i p) buf = Panic e) <->
   In CSerialize ks /\ exists e, serialize (class_at m i) p [] = Panic e).
Proof.
  intros m i p ks buf Hi. assert (H := run_shape m i p Hi ks (header p) (mk_dyn i p) buf (shape_refl m i p)).
  destruct (dyn_run ks _ buf) as [[[l o] b]|e].
  - destruct H as [_ [_ [_ N]]]. split; [intros [e E]; discriminate|]. intros [J [e E]]. exfalso. exact (N J e E).
  - split; [intros _; exact H | eauto].
Qed.

(** ** The type field of the header and the class *)
Lemma types_differ m : NoDup (map (fun c => code (cls_type c)) (all_pdus m)).
Proof. apply (nodup_check N.eqb N.eqb_refl). destruct m; vm_compute; reflexivity. Qed.
Lemma type_decides m i j : (i < length (all_pdus m))%nat -> (j < length (all_pdus m))%nat ->
  cls_type (class_at m i) = cls_type (class_at m j) -> i = j.
Proof.
  intros Hi Hj E. assert (D := types_differ m). rewrite (NoDup_nth _ 0) in D. apply D; [rewrite map_length; assumption..|].
  rewrite !(nth_indep _ 0 (code (cls_type AcknowledgePdu))) by (rewrite map_length; assumption).
  rewrite !(map_nth (fun c => code (cls_type c))). unfold class_at in E. now rewrite E.
Qed.
(** After a successful [serialize], and on an object that was decoded, the header's type names
    the class, so it tells which cast will succeed. *)
Theorem C83_type_after_serialize : forall m i (p : pdu (class_at m i)) buf o buf', (i < length (all_pdus m))%nat ->
  dyn_call CSerialize (mk_dyn i p) buf = Ok (ASerialize (ROk tt), o, buf') ->
  forall j, (j < length (all_pdus m))%nat ->
  (downcast_ref j o <> None <-> pdu_type (header (dyn_value o)) = cls_type (class_at m j)).
Proof.
  intros m i p buf o buf' Hi H j Hj. unfold dyn_call in H. cbn [dyn_type dyn_value] in H.
  destruct (serialize (class_at m i) p buf) as [[[r q] b]|] eqn:S; [|discriminate].
  assert (E : r = ROk tt /\ o = mk_dyn i q).
  { split; [|now apply (f_equal (fun x => match x with Ok (_, o, _) => o | _ => o end)) in H].
    apply (f_equal (fun x => match x with Ok (ASerialize r, _, _) => r | _ => r end)) in H. exact H. }
  destruct E as [-> ->]. clear H. cbn [dyn_value dyn_type].
  assert (T : pdu_type (header q) = cls_type (class_at m i)).
  { unfold serialize in S. cbv zeta in S. destruct (calculate_length _ _); [|discriminate].
    destruct (body_serialize _ _); [|discriminate]. injection S as <- _. reflexivity. }
  rewrite T. unfold downcast_ref. cbn [dyn_type dyn_value]. destruct (Nat.eq_dec i j) as [->|N].
  - split; [intros _; reflexivity | discriminate].
  - split; [congruence|]. intros E. exfalso. apply N, (type_decides m); assumption.
Qed.
Theorem C83_type_of_decoded : forall m i bs (p : pdu (class_at m i)) rest, (i < length (all_pdus m))%nat ->
  deserialize (class_at m i) bs = Ok (ROk p, rest) ->
  forall j, (j < length (all_pdus m))%nat ->
  (downcast_ref j (mk_dyn i p) <> None <-> pdu_type (header p) = cls_type (class_at m j)).
Proof.
  intros m i bs p rest Hi D j Hj.
  assert (T : pdu_type (header p) = cls_type (class_at m i)).
  { unfold deserialize in D. destruct (PduHeader_deserialize bs) as [[h r]|]; [|discriminate].
    destruct (enum_eqb (pdu_type h) (cls_type (class_at m i))) eqn:E; [|discriminate].
    destruct (body_deserialize _ _ _) as [[b r']|]; [|discriminate]. injection D as <- _. cbn [header].
    apply enum_eq. apply N.eqb_eq, E. }
  rewrite T. unfold downcast_ref. cbn [dyn_type dyn_value]. destruct (Nat.eq_dec i j) as [->|N].
  - split; [intros _; reflexivity | discriminate].
  - split; [congruence|]. intros E. exfalso. apply N, (type_decides m); assumption.
Qed.
(** Otherwise it does not: a default object has type [Other], and [header_mut] can give an
    object the type of another class, to which it cannot be cast. *)
Theorem C83_type_refuted : forall m, exists (i j : nat) (p : pdu (class_at m i)) h,
  (i < length (all_pdus m))%nat /\ (j < length (all_pdus m))%nat /\ i <> j /\
  pdu_type (header (pdu_default (class_at m i) (as_u32 0))) <> cls_type (class_at m i) /\
  forall l o b, dyn_run [CSet h] (mk_dyn i p) [] = Ok (l, o, b) ->
    pdu_type (header (dyn_value o)) = cls_type (class_at m j) /\ downcast_ref j o = None /\ downcast_ref i o <> None.
Proof.
  intros m. exists 0%nat, 1%nat, (pdu_default (class_at m 0) (as_u32 0)),
    (set_pdu_type (cls_type (class_at m 1)) (PduHeader_default (as_u32 0))).
  split; [destruct m; vm_compute; lia|]. split; [destruct m; vm_compute; lia|]. split; [discriminate|]. split.
  - intros E. apply (f_equal code) in E. destruct m; vm_compute in E; discriminate.
  - intros l o b H. cbn [dyn_run dyn_call dyn_type dyn_value] in H.
    apply (f_equal (fun x => match x with Ok (_, o, _) => o | _ => o end)) in H. subst o.
    split; [reflexivity|]. split; [reflexivity | discriminate].
Qed.

(** A concrete history: a PDU is serialized, given another PDU's type, finalized, serialized again. *)
Example C83_example :
  let o := mk_dyn 0 (pdu_new (class_at Checked 0) (as_u32 7)) in
  let h := set_pdu_type (cls_type (class_at Checked 1)) (PduHeader_default (as_u32 9)) in
  match dyn_run [CSerialize; CSet h; CFinalize; CHeader; CSerialize] o [] with
  | Ok (l, o', out) => length l = 5%nat /\ (0 < length out)%nat /\
      map uval (firstn 12 out) <> map uval (firstn 12 (skipn (length out / 2) out)) /\
      skipn 12 (firstn (length out / 2) out) = skipn 12 (skipn (length out / 2) out) /\
      byte_at out 2 = byte_at out (length out / 2 + 2) /\ downcast_ref 1 o' = None
  | Panic _ => False
  end.
Proof. vm_compute. repeat split; try lia; discriminate. Qed.

Definition Prop_Dyn_theorems : True :=
  let _ := @C83_downcast in let _ := @C83_history in let _ := @C83_emitted in let _ := @C83_hidden_fields in
  let _ := @C83_panics in let _ := @C83_type_after_serialize in let _ := @C83_type_of_decoded in
  let _ := @C83_type_refuted in let _ := @C83_example in I.
Print Assumptions Prop_Dyn_theorems.
