(** * Trying classes in turn (C81). Vocabulary in [SpecTries]. *)
From Verif Require Import Base BaseFacts EnumModel Enums EnumFacts Fixed Header HeaderFacts HeaderProofs PduMacro PduMacroFacts
  DataTypes Pdus PdusFacts ClassFacts PduProofs Spec SpecExercise Prop_Header Prop_Pdu Prop_Exercise Prop_Bundle SpecTries.

Lemma refused c bs : (12 <= length bs)%nat -> wire_type bs <> code (cls_type c) ->
  exists e, deserialize c bs = Ok (RErr e, skipn 12 bs).
Proof.
  intros L N. destruct (deserialize_cases c bs L) as [h [_ [_ E]]]. rewrite E.
  replace (wire_type bs =? code (cls_type c)) with false by (symmetry; now apply N.eqb_neq). eauto.
Qed.
Lemma same_class m c c' : In c (all_pdus m) -> In c' (all_pdus m) -> code (cls_type c) = code (cls_type c') -> c' = c.
Proof.
  intros I I' E. assert (A := find_class m c I). assert (A' := find_class m c' I').
  apply enum_eq in E. rewrite E in A. rewrite A in A'. congruence.
Qed.

(** ** On copies the order does not matter *)
(** Whatever classes are tried in whatever order, the class of the datagram's type among them:
    the result is what the receiver of C76, who asks [get_pdu_type], gets. *)
Theorem C81_on_copies : forall m cs c bs, incl cs (all_pdus m) -> In c cs -> (12 <= length bs)%nat -> wire_type bs = code (cls_type c) ->
  tried_on_copies cs bs = receive m bs.
Proof.
  intros m cs c bs Inc I L T. assert (Ic := Inc c I).
  assert (R : receive m bs = match deserialize c bs with Ok (ROk p, _) => Ok (Some (existT _ c p)) | Ok (RErr _, _) => Ok None | Panic e => Panic e end).
  { unfold receive. destruct (get_pdu_type_spec bs L) as [h [_ [G C]]]. rewrite G.
    assert (E : pdu_type h = cls_type c) by (apply enum_eq; congruence). rewrite E, (find_class m c Ic). reflexivity. }
  rewrite R. assert (NE : forall e rest, deserialize c bs <> Ok (RErr e, rest)).
  { intros e rest D. destruct (deserialize_cases c bs L) as [h [_ [_ E]]]. rewrite E, T, N.eqb_refl in D. exact (without_header_no_err _ _ _ _ _ D). }
  clear R. induction cs as [|c' cs IH]; [destruct I|]. cbn [tried_on_copies].
  destruct (N.eq_dec (code (cls_type c)) (code (cls_type c'))) as [Q|Q].
  - assert (c' = c) as -> by (apply (same_class m); [exact Ic | apply Inc; now left | exact Q]).
    destruct (deserialize c bs) as [[[p|e] rest]|e] eqn:D; try reflexivity. exfalso. exact (NE e rest eq_refl).
  - destruct (refused c' bs L) as [e ->]; [congruence|]. apply IH.
    + intros x X. apply Inc. now right.
    + destruct I as [->|I]; [congruence | exact I].
Qed.
(** Without that class: nothing. *)
Theorem C81_on_copies_none : forall cs bs, (12 <= length bs)%nat -> (forall c, In c cs -> wire_type bs <> code (cls_type c)) ->
  tried_on_copies cs bs = Ok None.
Proof.
  intros cs bs L N. induction cs as [|c cs IH]; [reflexivity|]. cbn [tried_on_copies].
  destruct (refused c bs L) as [e ->]; [apply N; now left|]. apply IH. intros c' I. apply N. now right.
Qed.

Lemma skipn_skipn' {A} (l : list A) : forall a b, skipn b (skipn a l) = skipn (a + b) l.
Proof. induction l as [|x l IH]; intros [|a] b; cbn [skipn Nat.add]; try reflexivity; [now destruct b | apply IH]. Qed.

(** ** In place every failed try removes twelve bytes *)
Definition all_refused (wrong : list pdu_class) (bs : bytes) : Prop :=
  forall i c, nth_error wrong i = Some c -> (12 * (i + 1) <= length bs)%nat /\ wire_type (skipn (12 * i) bs) <> code (cls_type c).
Theorem C81_in_place : forall wrong cs bs, all_refused wrong bs ->
  tried_in_place (wrong ++ cs) bs = tried_in_place cs (skipn (12 * length wrong) bs).
Proof.
  induction wrong as [|w wrong IH]; intros cs bs A; [reflexivity|].
  cbn [app tried_in_place]. destruct (A 0%nat w eq_refl) as [L N]. cbn [skipn Nat.mul Nat.add] in L, N.
  destruct (refused w bs ltac:(lia) N) as [e ->]. rewrite IH.
  - rewrite skipn_skipn'. f_equal. f_equal. cbn [length]. lia.
  - intros i c E. destruct (A (S i) c E) as [L' N']. rewrite skipn_length. split; [lia|].
    rewrite skipn_skipn'. replace (12 + 12 * i)%nat with (12 * S i)%nat by lia. exact N'.
Qed.
(** So the class of the datagram's type decodes the datagram only if it is tried first; tried
    later it is given the bytes that follow the first [12 * length wrong]. *)
Theorem C81_in_place_tried_first : forall c cs bs p rest, deserialize c bs = Ok (ROk p, rest) ->
  tried_in_place (c :: cs) bs = Ok (Some (existT _ c p), rest).
Proof. intros c cs bs p rest D. cbn [tried_in_place]. now rewrite D. Qed.
Theorem C81_in_place_tried_later : forall wrong c bs, all_refused wrong bs ->
  tried_in_place (wrong ++ [c]) bs =
  match deserialize c (skipn (12 * length wrong) bs) with
  | Panic e => Panic e
  | Ok (ROk p, rest) => Ok (Some (existT _ c p), rest)
  | Ok (RErr _, rest) => Ok (None, rest)
  end.
Proof. intros wrong c bs A. rewrite (C81_in_place wrong [c] bs A). reflexivity. Qed.
(** If the tries use up the datagram, the receiver panics. *)
Theorem C81_in_place_used_up : forall wrong c cs bs, all_refused wrong bs -> (length bs < 12 * length wrong + 12)%nat ->
  tried_in_place (wrong ++ c :: cs) bs = Panic Underflow.
Proof.
  intros wrong c cs bs A L. rewrite (C81_in_place wrong (c :: cs) bs A). cbn [tried_in_place].
  rewrite deserialize_short; [reflexivity|]. rewrite skipn_length. lia.
Qed.

(** A new FirePdu, tried first as a DetonationPdu: on copies it is found, in place it is not. *)
Theorem C81_in_place_refuted : forall m,
  match serialize FirePdu (pdu_new FirePdu (as_u32 1)) [] with
  | Ok (ROk _, _, d) =>
      (match tried_on_copies [DetonationPdu; FirePdu] d with Ok (Some p) => code (cls_type (class_of p)) | _ => 0 end,
       match tried_in_place [DetonationPdu; FirePdu] d with Ok (Some p, _) => 1 | Ok (None, rest) => lenN rest | Panic _ => 2 end,
       match tried_in_place (firstn 9 (all_pdus m)) d with Ok _ => 0 | Panic _ => 1 end)
  | _ => (0, 0, 0)
  end = (2, 72, 1).
Proof. intros m. destruct m; vm_compute; reflexivity. Qed.
(** A SignalPdu whose data are four bytes and the datagram of a FirePdu, tried in place as three
    other classes of its family and then as a FirePdu: a FirePdu that nobody sent is received. *)
Theorem C81_in_place_phantom : forall m,
  match serialize FirePdu (pdu_new FirePdu (as_u32 7)) [] with
  | Ok (ROk _, _, d) =>
      match serialize SignalPdu (carrier (repeat (B 0) 4 ++ d)) [] with
      | Ok (ROk _, _, signal) =>
          (match tried_in_place [TransmitterPdu; ReceiverPdu; IntercomSignalPdu; FirePdu] signal with
           | Ok (Some p, _) => code (cls_type (class_of p)) | _ => 0 end,
           match tried_on_copies [TransmitterPdu; ReceiverPdu; IntercomSignalPdu; FirePdu] signal with Ok None => 1 | _ => 0 end,
           match receive m signal with Ok (Some p) => code (cls_type (class_of p)) | _ => 0 end)
      | _ => (0, 0, 0)
      end
  | _ => (0, 0, 0)
  end = (2, 1, 26).
Proof. intros m. destruct m; vm_compute; reflexivity. Qed.

(** The hypothesis is met: a new FirePdu is refused as a DetonationPdu, and what is left as a
    CollisionPdu. *)
Example C81_example :
  match serialize FirePdu (pdu_new FirePdu (as_u32 1)) [] with
  | Ok (ROk _, _, d) => all_refused [DetonationPdu; CollisionPdu] d
  | _ => False
  end.
Proof.
  destruct (serialize FirePdu (pdu_new FirePdu (as_u32 1)) []) as [[[[[]|e] p'] d]|e] eqn:S;
  assert (K : match serialize FirePdu (pdu_new FirePdu (as_u32 1)) [] with
    Ok (ROk _, _, d) => (length d, wire_type d, wire_type (skipn 12 d)) | _ => (0%nat, 0, 0) end = (96%nat, 2, 0)) by (vm_compute; reflexivity);
  rewrite S in K; try discriminate K.
  assert (K1 := f_equal (fun x => fst (fst x)) K). assert (K2 := f_equal (fun x => snd (fst x)) K). assert (K3 := f_equal snd K).
  cbn [fst snd] in K1, K2, K3. intros [|[|i]] c E; cbn [nth_error] in E; [| |destruct i; discriminate E];
  assert (Ec := f_equal (fun o => match o with Some x => cls_type x | None => cls_type c end) E); cbn beta iota in Ec; rewrite <- Ec; (split; [lia|]).
  - change (12 * 0)%nat with 0%nat. cbn [skipn]. rewrite K2. vm_compute. discriminate.
  - change (12 * 1)%nat with 12%nat. rewrite K3. vm_compute. discriminate.
Qed.

(** What the theorems above rest on (one traversal for all of them; not part of the model). *)
Definition Prop_Tries_theorems : True :=
  let _ := @C81_on_copies in
  let _ := @C81_on_copies_none in
  let _ := @C81_in_place in
  let _ := @C81_in_place_tried_first in
  let _ := @C81_in_place_tried_later in
  let _ := @C81_in_place_used_up in
  let _ := @C81_in_place_refuted in
  let _ := @C81_in_place_phantom in
  I.
Print Assumptions Prop_Tries_theorems.
