(** * Decoding looks at nothing but the bytes it consumes (C42, every class), and what a
    truncated datagram does. *)
From Verif Require Import Base BaseFacts EnumModel Enums EnumFacts Fixed Header HeaderFacts HeaderProofs PduMacro PduMacroFacts
  DataTypes DataTypesFacts Pdus PduFields PdusFacts ClassFacts RecordFacts PduProofs Spec SpecMacro MacroFacts Prop_Special.

(** A reader that succeeds does so on a prefix of its input, whatever follows, and panics on
    every shorter prefix. *)
Definition local_reader {A} (r : reader A) : Prop := forall bs a rest, r bs = Ok (a, rest) ->
  exists used, bs = used ++ rest /\ (forall rest', r (used ++ rest') = Ok (a, rest')) /\
    forall pre suf, used = pre ++ suf -> suf <> [] -> r pre = Panic Underflow.

Lemma local_exact {A} (r : reader A) n : exact_reader r n -> local_reader r.
Proof.
  intros [Sh Ex] bs a rest H.
  assert (L : (n <= length bs)%nat).
  { destruct (Nat.lt_ge_cases (length bs) n) as [K|K]; [rewrite (Sh _ K) in H; discriminate | exact K]. }
  destruct (Ex (firstn n bs)) as [x Hx]; [rewrite firstn_length; lia|].
  assert (E := Hx (skipn n bs)). rewrite firstn_skipn, H in E. injection E as <- ->.
  exists (firstn n bs). split; [now rewrite firstn_skipn|]. split; [exact Hx|].
  intros pre suf E N. apply Sh. assert (K : length (firstn n bs) = (length pre + length suf)%nat) by (rewrite E; apply app_length).
  rewrite firstn_length in K. destruct suf; [contradiction|]. cbn [length] in K. lia.
Qed.
Lemma local_ret {A} (a : A) : local_reader (ret a).
Proof. apply (local_exact _ 0), exact_ret. Qed.
Lemma local_fail {A} e : local_reader (@rfail A e).
Proof. intros bs a rest [=]. Qed.
Lemma prefix_cases {A} (p q pre suf : list A) : p ++ q = pre ++ suf ->
  (exists s, p = pre ++ s /\ s <> []) \/ exists q1, pre = p ++ q1 /\ q = q1 ++ suf.
Proof.
  revert pre. induction p as [|x p IH]; intros pre E.
  - right. exists pre. split; [reflexivity | exact E].
  - destruct pre as [|y pre].
    + left. exists (x :: p). split; [reflexivity | discriminate].
    + cbn [app] in E. injection E as <- E. destruct (IH _ E) as [[s [-> N]]|[q1 [-> ->]]].
      * left. exists s. split; [reflexivity | exact N].
      * right. exists q1. split; reflexivity.
Qed.
Lemma local_bind {A B} (r : reader A) (k : A -> reader B) : local_reader r -> (forall a, local_reader (k a)) -> local_reader (bind r k).
Proof.
  intros R K bs b rest H. unfold bind in H. destruct (r bs) as [[a mid]|] eqn:E1; [|discriminate].
  destruct (R _ _ _ E1) as [u1 [-> [F1 P1]]]. destruct (K a _ _ _ H) as [u2 [-> [F2 P2]]].
  exists (u1 ++ u2). split; [now rewrite app_assoc|]. split.
  - intros rest'. rewrite <- app_assoc. unfold bind. rewrite F1. apply F2.
  - intros pre suf E N. destruct (prefix_cases _ _ _ _ E) as [[s [Es Ns]]|[q1 [-> Eq]]].
    + unfold bind. rewrite (P1 _ _ Es Ns). reflexivity.
    + unfold bind. rewrite F1. apply (P2 _ _ Eq N).
Qed.
Lemma local_repeat {A} (r : reader A) n : local_reader r -> local_reader (repeat_read n r).
Proof.
  intros H. induction n as [|n IH]; cbn [repeat_read]; [apply local_ret|].
  apply local_bind; [exact H | intros x; apply local_bind; [exact IH | intros xs; apply local_ret]].
Qed.
Lemma local_lift {A} (o : outcome A) : local_reader (rlift o).
Proof. destruct o as [a|e]; [apply local_ret | apply local_fail]. Qed.
Lemma local_uint k : local_reader (get_uint k).
Proof. eapply local_exact, exact_get_uint. Qed.

Ltac loc :=
  repeat first [ apply local_uint | apply local_ret | apply local_fail | apply local_lift | apply local_repeat
               | (apply local_bind; [|intros]) ].
Lemma element_local m : local_reader (RecordSpecificationElement_deserialize m).
Proof. unfold RecordSpecificationElement_deserialize. loc. Qed.
Lemma specification_local m : local_reader (RecordSpecification_deserialize m).
Proof. unfold RecordSpecification_deserialize. loc. Qed.
Lemma standard_records_local : local_reader StandardVariableRecords_deserialize.
Proof. unfold StandardVariableRecords_deserialize. loc. Qed.
Lemma standard_local : local_reader StandardVariableSpecification_deserialize.
Proof. unfold StandardVariableSpecification_deserialize. loc. Qed.
Lemma modulation_local n : local_reader (ModulationParameters_deserialize_with_len n).
Proof.
  unfold ModulationParameters_deserialize_with_len. destruct (try_uint 1 n) as [l|]; [|apply local_fail].
  apply local_bind; [|intros; apply local_ret]. unfold ModulationParameters_deserialize. destruct (uval l =? 0); loc.
Qed.

(** Fields. *)
Definition local_field (f : field) : Prop := local_reader (c_des (f_codec f)) /\
  match f_len_attr f with None => True | Some (_, r) => forall n, local_reader (r n) end.
Lemma local_body fs : Forall local_field fs -> forall env, local_reader (body_deserialize env fs).
Proof.
  induction 1 as [|f fs [H A] _ IH]; intros env; cbn [body_deserialize]; [apply local_ret|].
  apply local_bind.
  - unfold field_deserialize. destruct (f_len_attr f) as [[l r]|]; [|exact H]. destruct (lookup l env); [apply A | apply local_fail].
  - intros x. apply local_bind; [apply IH | intros; apply local_ret].
Qed.
Lemma plain_local name {T} (c : codec T) d : local_reader (c_des c) -> local_field (plain name c d).
Proof. split; [assumption | exact I]. Qed.
Lemma fixed_local name {T} n nf (c : codec T) d : fixed_codec n nf c -> local_field (plain name c d).
Proof. intros [_ _ E]. apply plain_local. eapply local_exact, E. Qed.
Lemma u8_local name : local_field (u8_field name).
Proof. split; [apply local_uint | exact I]. Qed.
Lemma vec_local name {T} (c : codec T) d : local_field (plain name (vec_codec c) d).
Proof. apply plain_local, local_ret. Qed.

(** Every class but one. *)
Lemma class_local m c : In c (all_pdus m) -> cls_name c <> "EntityStatePdu"%string -> local_reader (body_deserialize [] (cls_fields c)).
Proof.
  intros Ic N. destruct (mem_string (cls_name c) special_pdus) eqn:O.
  2: { eapply local_exact, (ordinary_exact m c Ic O). }
  apply local_body. revert c Ic O N. by_class.
  all_classes ltac:(first
    [ intros O; vm_compute in O; discriminate O
    | intros _ N; first [exfalso; apply N; reflexivity | clear N];
      repeat (apply Forall_cons;
        [first [ apply u8_local | apply vec_local
               | solve [eapply fixed_local; eauto with cd nocore]
               | eapply fixed_local, SimulationIdentifier_fc
               | apply plain_local; first [apply specification_local | apply standard_local | apply local_ret]
               | split; [apply local_ret | intros n; unfold option_deserialize_with_len; destruct (n =? 0);
                          [apply local_ret | apply local_bind; [apply modulation_local | intros; apply local_ret]]] ]|]);
      apply Forall_nil ]).
Qed.

(** ** Theorems *)
Lemma local_ext {A} (r s : reader A) : (forall bs, r bs = s bs) -> local_reader s -> local_reader r.
Proof.
  intros E L bs a rest H. rewrite E in H. destruct (L _ _ _ H) as [u [U1 [U2 U3]]]. exists u. split; [exact U1|].
  split; [intros; rewrite E; apply U2 | intros; rewrite E; eapply U3; eassumption].
Qed.
Lemma deserialize_local c : local_reader (body_deserialize [] (cls_fields c)) -> local_reader (deserialize c).
Proof.
  intros L. apply (local_ext _ (let* h := PduHeader_deserialize in
    if enum_eqb (pdu_type h) (cls_type c) then let* b := body_deserialize [] (cls_fields c) in ret (ROk (mk_pdu h b))
    else ret (RErr (InvalidHeader (cls_type c) (pdu_type h))))).
  - intros bs. unfold deserialize, bind, ret. destruct (PduHeader_deserialize bs) as [[h rest]|]; [|reflexivity].
    destruct (enum_eqb _ _); reflexivity.
  - apply local_bind; [eapply local_exact, PduHeader_fixed|]. intros h.
    destruct (enum_eqb _ _); [apply local_bind; [exact L | intros; apply local_ret] | apply local_ret].
Qed.
Lemma local_prefixes {A} (r : reader A) : local_reader r -> forall bs a rest, r bs = Ok (a, rest) ->
  exists used, bs = used ++ rest /\ (forall rest', r (used ++ rest') = Ok (a, rest')) /\
    forall k, (k < length used)%nat -> r (firstn k used) = Panic Underflow.
Proof.
  intros L bs a rest H. destruct (L _ _ _ H) as [u [U1 [U2 U3]]]. exists u. split; [exact U1|]. split; [exact U2|].
  intros k K. apply (U3 _ (skipn k u)); [now rewrite firstn_skipn|]. intros E. apply (f_equal (@length byte)) in E.
  rewrite skipn_length in E. cbn [length] in E. lia.
Qed.

(** Every class but EntityState: a result, PDU or refusal, depends only on the bytes
    consumed, whatever follows them; with fewer of these bytes decoding panics. *)
Theorem C42_every_class : forall m c bs r rest, In c (all_pdus m) -> cls_name c <> "EntityStatePdu"%string ->
  deserialize c bs = Ok (r, rest) ->
  exists used, bs = used ++ rest /\
    (forall rest', deserialize c (used ++ rest') = Ok (r, rest')) /\
    (forall k, (k < length used)%nat -> deserialize c (firstn k used) = Panic Underflow).
Proof. intros m c bs r rest Ic N. apply local_prefixes, deserialize_local, (class_local m c Ic N). Qed.
(** The same for [deserialize_without_header]. *)
Theorem C42_without_header : forall m c h bs p rest, In c (all_pdus m) -> cls_name c <> "EntityStatePdu"%string ->
  deserialize_without_header c bs h = Ok (ROk p, rest) ->
  exists used, bs = used ++ rest /\
    (forall rest', deserialize_without_header c (used ++ rest') h = Ok (ROk p, rest')) /\
    (forall k, (k < length used)%nat -> deserialize_without_header c (firstn k used) h = Panic Underflow).
Proof.
  intros m c h bs p rest Ic N D. unfold deserialize_without_header in *.
  destruct (body_deserialize [] (cls_fields c) bs) as [[b r]|] eqn:E; [|discriminate]. injection D as <- ->.
  destruct (local_prefixes _ (class_local m c Ic N) _ _ _ E) as [u [U1 [U2 U3]]].
  exists u. split; [exact U1|]. split; [intros rest'; rewrite U2; reflexivity | intros k K; rewrite (U3 k K); reflexivity].
Qed.
(** Any class of a user whose field types decode locally. *)
Theorem C42_user_class : forall c bs r rest,
  Forall (fun f => local_reader (c_des (f_codec f)) /\
                   match f_len_attr f with None => True | Some (_, with_len) => forall n, local_reader (with_len n) end) (cls_fields c) ->
  deserialize c bs = Ok (r, rest) ->
  exists used, bs = used ++ rest /\
    (forall rest', deserialize c (used ++ rest') = Ok (r, rest')) /\
    (forall k, (k < length used)%nat -> deserialize c (firstn k used) = Panic Underflow).
Proof. intros c bs r rest F. apply local_prefixes, deserialize_local, local_body, F. Qed.
(** A Transmitter with two modulation bytes: 106 of the bytes are used; 105 are too few. *)
Example C42_transmitter :
  let bs := map B (repeat 7 2 ++ [25] ++ repeat 0 97 ++ [2; 0; 0; 0; 8; 9] ++ [1; 2; 3])%list in
  (match deserialize TransmitterPdu bs with
   | Ok (ROk p, rest) =>
       match TransmitterPdu_modulation_parameters p with
       | Some x => map (@uval 1) (ModulationParameters_record_specific_fields x) | None => [] end
   | _ => [] end) = [8; 9] /\
  (match deserialize TransmitterPdu bs with Ok (_, rest) => map (@uval 1) rest | _ => [] end) = [1; 2; 3] /\
  (match deserialize TransmitterPdu (firstn 105 bs) with Panic Underflow => true | _ => false end) = true.
Proof. vm_compute. repeat split. Qed.

Definition Prop_Local_theorems : True :=
  let _ := @C42_every_class in
  let _ := @C42_without_header in
  let _ := @C42_user_class in
  I.
Print Assumptions Prop_Local_theorems.
