(** * Classes with the same fields (C70). Vocabulary in [Spec]. *)
From Verif Require Import Base BaseFacts EnumModel Enums EnumFacts Header HeaderFacts HeaderProofs PduMacro PduMacroFacts
  DataTypes Pdus Spec ClassFacts PduProofs Prop_Pdu Prop_Dispatch.

(** The pairs of classes with the same fields: same names, types, order and defaults. The book
    says that "no two PDUs have the exact same fields". *)
Definition twins : list (string * string) := [
  ("ResupplyOfferPdu", "ResupplyReceivedPdu");
  ("CreateEntityPdu", "RemoveEntityPdu");
  ("AcknowledgePdu", "AcknowledgeReliablePdu");
  ("ActionResponsePdu", "ActionResponseReliablePdu");
  ("SetDataPdu", "DataPdu");
  ("EventReportPdu", "EventReportReliablePdu");
  ("CommentPdu", "CommentReliablePdu");
  ("CreateEntityReliablePdu", "RemoveEntityReliablePdu")]%string.
Definition twin (c c' : pdu_class) : Prop :=
  In (cls_name c, cls_name c') twins \/ In (cls_name c', cls_name c) twins.

(** Two PDUs, possibly of different classes, with the same fields and values. *)
Definition same_fields {c c'} (p : pdu c) (q : pdu c') : Prop :=
  exists E : cls_fields c = cls_fields c', eq_rect (cls_fields c) values (body p) (cls_fields c') E = body q.

Definition shape (c : pdu_class) : list (string * N) :=
  map (fun f => (f_name f, c_len (f_codec f) (f_default f))) (cls_fields c).
Fixpoint shape_eqb (a b : list (string * N)) : bool :=
  match a, b with
  | [], [] => true
  | (n, x) :: a', (n', x') :: b' => String.eqb n n' && (x =? x') && shape_eqb a' b'
  | _, _ => false
  end.
Lemma shape_eqb_refl a : shape_eqb a a = true.
Proof. induction a as [|[n x] a IH]; [reflexivity|]. cbn. now rewrite String.eqb_refl, N.eqb_refl. Qed.
Definition is_pair (a b : string) (l : list (string * string)) : bool :=
  existsb (fun q => String.eqb a (fst q) && String.eqb b (snd q)) l.
Lemma is_pair_In a b l : is_pair a b l = true <-> In (a, b) l.
Proof.
  unfold is_pair. rewrite existsb_exists. split.
  - intros [[x y] [H E]]. apply andb_prop in E. destruct E as [E1 E2]. apply String.eqb_eq in E1, E2. cbn in E1, E2. now subst.
  - intros H. exists (a, b). split; [exact H|]. cbn. now rewrite !String.eqb_refl.
Qed.
Lemma same_name_same_class m c c' : In c (all_pdus m) -> In c' (all_pdus m) -> cls_name c = cls_name c' -> c = c'.
Proof.
  intros I I' T'. destruct (C06_all_of_table m) as [_ [_ [_ [ND _]]]].
  clear - ND I I' T'. induction (all_pdus m) as [|x l IH]; [destruct I|].
  cbn [map] in ND. inversion ND as [|a b Hn ND' EQ]; subst. destruct I as [->|I], I' as [->|I']; [reflexivity| | |auto].
  - exfalso. apply Hn. rewrite T'. now apply (in_map cls_name).
  - exfalso. apply Hn. rewrite <- T'. now apply (in_map cls_name).
Qed.

(** ** Exactly these pairs. *)
Theorem C70_exactly : forall m c c', In c (all_pdus m) -> In c' (all_pdus m) -> c <> c' ->
  (cls_fields c = cls_fields c' <-> twin c c').
Proof.
  intros m c c' I I' D. split.
  - intros E.
    assert (V : forallb (fun a => forallb (fun b => negb (shape_eqb (shape a) (shape b)) || String.eqb (cls_name a) (cls_name b)
      || is_pair (cls_name a) (cls_name b) twins || is_pair (cls_name b) (cls_name a) twins) (all_pdus m)) (all_pdus m) = true)
      by (destruct m; vm_compute; reflexivity).
    rewrite forallb_forall in V. specialize (V c I). cbv beta in V. rewrite forallb_forall in V. specialize (V c' I'). cbv beta in V.
    assert (S : shape c = shape c') by (unfold shape; now rewrite E). rewrite S, shape_eqb_refl in V. cbn [negb orb] in V.
    apply orb_prop in V. destruct V as [V|V]; [apply orb_prop in V; destruct V as [V|V]|].
    + apply String.eqb_eq in V. exfalso. apply D. exact (same_name_same_class m c c' I I' V).
    + left. now apply is_pair_In.
    + right. now apply is_pair_In.
  - assert (H : forall a b, In a (all_pdus m) -> In b (all_pdus m) -> In (cls_name a, cls_name b) twins -> cls_fields a = cls_fields b).
    { clear. intros a b Ia Ib H.
      assert (W : exists a' b', In a' (all_pdus m) /\ In b' (all_pdus m) /\ cls_name a' = cls_name a /\ cls_name b' = cls_name b /\ cls_fields a' = cls_fields b').
      { unfold twins in H. cbn [In] in H.
        repeat (destruct H as [H|H]; [injection H as <- <-|]); [..|destruct H].
        1: exists ResupplyOfferPdu, ResupplyReceivedPdu.
        2: exists CreateEntityPdu, RemoveEntityPdu.
        3: exists AcknowledgePdu, AcknowledgeReliablePdu.
        4: exists ActionResponsePdu, ActionResponseReliablePdu.
        5: exists SetDataPdu, DataPdu.
        6: exists EventReportPdu, EventReportReliablePdu.
        7: exists CommentPdu, CommentReliablePdu.
        8: exists CreateEntityReliablePdu, RemoveEntityReliablePdu.
        all: split; [unfold all_pdus; cbn [In]; tauto|]; split; [unfold all_pdus; cbn [In]; tauto|]; repeat split; reflexivity. }
      destruct W as [a' [b' [Ia' [Ib' [Ea [Eb E]]]]]].
      rewrite <- (same_name_same_class m a' a Ia' Ia Ea), <- (same_name_same_class m b' b Ib' Ib Eb). exact E. }
    intros [T|T]; [exact (H c c' I I' T) | symmetry; exact (H c' c I' I T)].
Qed.
Theorem C70_all_differ_refuted : exists c c', (forall m, In c (all_pdus m) /\ In c' (all_pdus m)) /\ c <> c' /\ cls_fields c = cls_fields c'.
Proof.
  exists CreateEntityPdu, RemoveEntityPdu. split; [intros m; split; unfold all_pdus; cbn [In]; tauto|]. split; [|reflexivity].
  intros E. apply (f_equal cls_name) in E. discriminate E.
Qed.

(** ** On the wire two such PDUs with the same values and the same header differ at most in the
    third and the fourth byte, type and family. Either both are sent or neither. *)
Theorem C70_wire : forall c c' (p : pdu c) (q : pdu c') buf, same_fields p q -> header p = header q ->
  match serialize c p buf, serialize c' q buf with
  | Ok (ROk _, p', out), Ok (ROk _, q', out') => same_fields p' q' /\
      exists v x t f t' f' rest, out = buf ++ v :: x :: t :: f :: rest /\ out' = buf ++ v :: x :: t' :: f' :: rest /\
        uval t = code (cls_type c) /\ uval t' = code (cls_type c') /\ uval f = code (cls_family c) /\ uval f' = code (cls_family c')
  | Ok (RErr e, p', out), Ok (RErr e', q', out') => e = e' /\ out = buf /\ out' = buf /\ same_fields p' q'
  | Panic e, Panic e' => e = e'
  | _, _ => False
  end.
Proof.
  intros [nm t f fs] [nm' t' f' fs'] [h b] [h' b'] buf [E S] H. cbn [cls_fields header body] in *. subst h'. destruct E. cbn [eq_rect] in S. subst b'.
  unfold serialize, calculate_length. cbn [header body cls_fields cls_type cls_family]. cbv zeta.
  destruct (try_uint 2 _) as [l|]; [|split; [reflexivity|]; split; [reflexivity|]; split; [reflexivity|]; exists eq_refl; reflexivity].
  destruct (body_serialize _ _) as [out|e]; [|reflexivity]. split; [exists eq_refl; reflexivity|].
  rewrite !header_layout. do 7 eexists. split; [reflexivity|]. split; [reflexivity|].
  assert (F : forall (s : enum_spec) (e : enum s), e_bytes s = 1%nat -> uval (B (code e)) = code e).
  { intros s e W. unfold B. apply as_uint_val. assert (X := enum_fits s e). rewrite W in X. exact X. }
  repeat split; apply F; reflexivity.
Qed.

(** ** A datagram of one class becomes a datagram of the other by changing its third byte alone:
    same fields, same rest. The family byte need not be changed, it is not looked at (C53). *)
Theorem C70_relabel : forall m c c' bs p rest, In c (all_pdus m) -> In c' (all_pdus m) -> twin c c' ->
  deserialize c bs = Ok (ROk p, rest) ->
  exists q, deserialize c' (firstn 2 bs ++ B (code (cls_type c')) :: skipn 3 bs) = Ok (ROk q, rest) /\ same_fields p q.
Proof.
  intros m c c' bs p rest I I' T D.
  assert (L : (12 <= length bs)%nat).
  { destruct (Nat.le_gt_cases 12 (length bs)) as [L|L]; [exact L|]. rewrite (deserialize_short c bs L) in D. discriminate D. }
  assert (E : cls_fields c = cls_fields c').
  { destruct (N.eq_dec (code (cls_type c)) (code (cls_type c'))) as [Q|Q]; [now rewrite (same_type_same_class m c c' I I' Q)|].
    apply (C70_exactly m c c' I I'); [intros ->; contradiction | exact T]. }
  set (bs' := firstn 2 bs ++ _).
  assert (L' : length bs' = length bs) by (unfold bs'; rewrite app_length, firstn_length; cbn [length]; rewrite skipn_length; lia).
  assert (R : skipn 12 bs' = skipn 12 bs).
  { unfold bs'. do 12 (destruct bs as [|? bs]; [cbn in L; lia|]). reflexivity. }
  assert (W : wire_type bs' = code (cls_type c')).
  { unfold wire_type, byte_at, bs'. destruct bs as [|x [|y bs]]; [cbn in L; lia..|]. cbn [firstn app nth].
    assert (F := enum_fits _ (cls_type c')). unfold B. rewrite as_uint_val by exact F.
    destruct (proj1 (C51_covered m (code (cls_type c')))) as [F' _]; [exists c'; auto|]. destruct (N.leb_spec (code (cls_type c')) 72); [reflexivity | lia]. }
  destruct (deserialize_cases c bs L) as [h [_ [_ Q]]], (deserialize_cases c' bs' ltac:(lia)) as [h' [_ [_ Q']]].
  rewrite Q in D. rewrite Q', W, N.eqb_refl, R. clear Q Q' W.
  destruct (wire_type bs =? code (cls_type c)); [|discriminate]. clear - D E.
  destruct c as [nm t f fs], c' as [nm' t' f' fs']. cbn [cls_fields] in E. subst fs'. unfold deserialize_without_header in *. cbn [cls_fields] in *.
  destruct (body_deserialize [] fs (skipn 12 bs)) as [[b r]|e]; [|discriminate]. injection D as <- <-.
  eexists. split; [reflexivity|]. exists eq_refl. reflexivity.
Qed.
(** For Resupply Offer and Resupply Received (types 6 and 7) it takes a single bit. *)
Example C70_example : twin ResupplyOfferPdu ResupplyReceivedPdu /\
  (exists p rest, deserialize ResupplyOfferPdu (map B ([7; 1; 6; 3; 0; 0; 0; 0; 0; 28; 0; 0] ++ repeat 1 16)) = Ok (ROk p, rest)) /\
  N.lxor (code (cls_type ResupplyOfferPdu)) (code (cls_type ResupplyReceivedPdu)) = 1.
Proof.
  split; [left; cbn; tauto|]. split; [|reflexivity].
  assert (C : match deserialize ResupplyOfferPdu (map B ([7; 1; 6; 3; 0; 0; 0; 0; 0; 28; 0; 0] ++ repeat 1 16)) with Ok (ROk _, _) => true | _ => false end = true)
    by (vm_compute; reflexivity).
  destruct (deserialize _ _) as [[[p|] r]|]; [|discriminate C..]. exists p, r. reflexivity.
Qed.

(** What the theorems above rest on (one traversal for all of them; not part of the model). *)
Definition Prop_Twins_theorems : True :=
  let _ := @C70_exactly in
  let _ := @C70_all_differ_refuted in
  let _ := @C70_wire in
  let _ := @C70_relabel in
  I.
Print Assumptions Prop_Twins_theorems.
