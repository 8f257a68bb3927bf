(** * Which datagrams have a class that decodes them (C51). Vocabulary in [Spec]. *)
From Verif Require Import Base BaseFacts EnumModel Enums EnumFacts Header HeaderFacts HeaderProofs PduMacro PduMacroFacts
  DataTypes Pdus Spec ClassFacts PduProofs Prop_Pdu.

Lemma same_type_same_class m c c' : In c (all_pdus m) -> In c' (all_pdus m) -> code (cls_type c) = code (cls_type c') -> c = c'.
Proof.
  intros I I' T'. destruct (C06_all_of_table m) as [_ [_ [_ [_ ND]]]].
  clear - ND I I' T'. induction (all_pdus m) as [|x l IH]; [destruct I|].
  cbn [map] in ND. inversion ND as [|a b Hn ND' EQ]; subst. destruct I as [->|I], I' as [->|I']; [reflexivity| | |auto].
  - exfalso. apply Hn. rewrite T'. now apply (in_map (fun c => code (cls_type c))).
  - exfalso. apply Hn. rewrite <- T'. now apply (in_map (fun c => code (cls_type c))).
Qed.
(** The assigned type numbers (1..72) without a class: time-space-position information,
    appearance, articulated parts, live entity fire and detonation, record-reliable. *)
Definition classless : list N := [46; 47; 48; 49; 50; 63].

Theorem C51_covered : forall m n,
  (exists c, In c (all_pdus m) /\ code (cls_type c) = n) <-> (1 <= n <= 72 /\ ~ In n classless).
Proof.
  intros m n.
  assert (E : map (fun c => code (cls_type c)) (all_pdus m) = map (fun c => code (cls_type c)) (all_pdus Checked)) by (destruct m; reflexivity).
  assert (X : (exists c, In c (all_pdus m) /\ code (cls_type c) = n) <-> In n (map (fun c => code (cls_type c)) (all_pdus Checked))).
  { rewrite <- E, in_map_iff. split; intros [c [H1 H2]]; exists c; auto. }
  rewrite X. clear X E. assert (V : forallb (fun k => Bool.eqb (existsb (N.eqb k) (map (fun c => code (cls_type c)) (all_pdus Checked)))
    ((1 <=? k) && negb (existsb (N.eqb k) classless))) (map N.of_nat (seq 0 73)) = true) by (vm_compute; reflexivity).
  assert (In_b : forall l, In n l <-> existsb (N.eqb n) l = true).
  { intros l. rewrite existsb_exists. split; [intros H; exists n; split; [exact H | apply N.eqb_refl] | intros [x [H K]]; apply N.eqb_eq in K; now subst]. }
  destruct (N.leb_spec n 72) as [L|L].
  - rewrite forallb_forall in V. specialize (V n). rewrite in_map_iff in V.
    assert (K : existsb (N.eqb n) (map (fun c => code (cls_type c)) (all_pdus Checked)) = ((1 <=? n) && negb (existsb (N.eqb n) classless))%bool).
    { apply Bool.eqb_prop, V. exists (N.to_nat n). split; [lia|]. apply in_seq. lia. }
    rewrite In_b, K, In_b, andb_true_iff, negb_true_iff, N.leb_le, not_true_iff_false. intuition lia.
  - split; [|lia]. intros I. exfalso.
    assert (Y : forallb (fun k => k <=? 72) (map (fun c => code (cls_type c)) (all_pdus Checked)) = true) by (vm_compute; reflexivity).
    rewrite forallb_forall in Y. apply Y in I. apply N.leb_le in I. lia.
Qed.

(** The guide's "72 PDUs, all of which have been implemented" (book/src/guides/creating-a-pdu.md:3-4). *)
Theorem C51_all_types_refuted : exists n, 1 <= n <= 72 /\ forall m c, In c (all_pdus m) -> code (cls_type c) <> n.
Proof.
  exists 63. split; [lia|]. intros m c I E. destruct (proj1 (C51_covered m 63)) as [_ N]; [eauto|]. apply N. cbn. tauto.
Qed.

(** A datagram whose type is none of the covered ones is refused by every class, with an
    error that names the type found, after reading the header. *)
Theorem C51_unclaimed : forall m bs, (12 <= length bs)%nat -> (wire_type bs = 0 \/ In (wire_type bs) classless) ->
  exists t, code t = wire_type bs /\ PduHeader_get_pdu_type bs = Ok (Some t) /\
    forall c, In c (all_pdus m) -> deserialize c bs = Ok (RErr (InvalidHeader (cls_type c) t), skipn 12 bs).
Proof.
  intros m bs L U. destruct (get_pdu_type_spec bs L) as [h [D [G T]]]. exists (pdu_type h). split; [exact T|]. split; [exact G|].
  intros c I. destruct (C05_type_check c bs L) as [h' [D' [_ [R _]]]]. rewrite D' in D. injection D as ->. apply R.
  intros E. destruct (proj1 (C51_covered m (wire_type bs))) as [B N]; [exists c; auto|]. destruct U as [U|U]; [lia | exact (N U)].
Qed.

(** Any other datagram belongs to exactly one class, the one whose type [get_pdu_type]
    reports; all the others refuse it. *)
Theorem C51_claimed : forall m bs, (12 <= length bs)%nat -> wire_type bs <> 0 -> ~ In (wire_type bs) classless ->
  exists c, In c (all_pdus m) /\ PduHeader_get_pdu_type bs = Ok (Some (cls_type c)) /\
    (forall e rest, deserialize c bs <> Ok (RErr e, rest)) /\
    forall c', In c' (all_pdus m) -> c' = c \/ deserialize c' bs = Ok (RErr (InvalidHeader (cls_type c') (cls_type c)), skipn 12 bs).
Proof.
  intros m bs L Z U. destruct (get_pdu_type_spec bs L) as [h [D [G T]]].
  assert (B : wire_type bs <= 72) by (unfold wire_type; destruct (N.leb_spec (byte_at bs 2) 72); lia).
  destruct (proj2 (C51_covered m (wire_type bs))) as [c [I C]]; [split; [lia | exact U]|].
  assert (Eq : pdu_type h = cls_type c) by (apply enum_eq; congruence).
  exists c. split; [exact I|]. split; [congruence|].
  split. { destruct (C05_type_check c bs L) as [h' [_ [_ [_ A]]]]. destruct (A (eq_sym C)) as [A1 _]. exact A1. }
  intros c' I'. destruct (N.eq_dec (code (cls_type c')) (code (cls_type c))) as [E|E].
  - left. apply (same_type_same_class m); assumption.
  - right. destruct (C05_type_check c' bs L) as [h' [D' [_ [R _]]]]. rewrite D' in D. injection D as ->. rewrite <- Eq. apply R. congruence.
Qed.

(** A live-entity datagram, a record-reliable one, an unassigned number; and a Fire datagram. *)
Example C51_example :
  map (fun t => wire_type (map B ([7; 1; t] ++ repeat 0 20))) [46; 63; 200; 2] = [46; 63; 0; 2].
Proof. vm_compute. reflexivity. Qed.

(** What the theorems above rest on (one traversal for all of them; not part of the model). *)
Definition Prop_Dispatch_theorems : True :=
  let _ := @C51_covered in
  let _ := @C51_all_types_refuted in
  let _ := @C51_unclaimed in
  let _ := @C51_claimed in
  I.
Print Assumptions Prop_Dispatch_theorems.
