(** * C87: a buffer used as a queue. Vocabulary in [SpecQueue]. *)
From Verif Require Import Base BaseFacts EnumModel Enums EnumFacts Fixed Header HeaderFacts HeaderProofs PduMacro PduMacroFacts
  DataTypes DataTypesFacts Pdus PduFields PdusFacts ClassFacts RecordFacts PduProofs Spec Prop_Pdu Prop_Special Prop_Faults Prop_Relay Prop_Exercise SpecQueue.
From Verif Require Prop_Threads DecodeFacts.

(** [p] has been put into the buffer as [d]. *)
Definition waits (m : profile) (p : any_pdu) (d : bytes) : Prop :=
  exists q, becomes p q /\ forall rest, consume m (d ++ rest) = Ok (Some q, rest).
Lemma consume_decodes m c p bs rest : In c (all_pdus m) -> deserialize c bs = Ok (ROk p, rest) -> consume m bs = Ok (Some (existT _ c p), rest).
Proof.
  intros I D. destruct (decoded_type _ _ _ _ D) as [L12 T]. unfold consume.
  destruct (get_pdu_type_spec bs L12) as [h [_ [G C]]]. rewrite G.
  assert (E : pdu_type h = cls_type c) by (apply enum_eq; congruence). rewrite E, (find_class m c I), D. reflexivity.
Qed.
Lemma serialize_plain m c (p : pdu c) : plain m (existT _ c p) -> exists p' d,
  (forall buf, serialize c p buf = Ok (ROk tt, p', buf ++ d)) /\ waits m (existT _ c p) d.
Proof.
  intros [I [O E]]. cbn [class_of projT1 projT2] in I, O, E.
  destruct (DecodeFacts.cleared_serialize m c I O p E) as [p' [d [S [B St]]]]. cbn [app] in S.
  assert (Ep : clear_lists p' = p').
  { destruct p as [h b], p' as [h' b']. unfold clear_lists in *. cbn [header body] in *. subst b'. f_equal.
    exact (f_equal body E). }
  exists p', d. split; [intros buf; rewrite Prop_Threads.serialize_prefix, S; reflexivity|].
  exists (existT _ c p'). split; [exists p', d; auto|].
  destruct (C12_list_roundtrip_exact m c p [] p' d I O S) as [_ [fixed [lists [Ed [L D]]]]]. cbn [app] in Ed.
  assert (NE : cls_name c <> "EntityStatePdu"%string) by (intros X; unfold ordinary in O; rewrite X in O; discriminate O).
  rewrite Ep in D.
  assert (Y : lists = []).
  { assert (D0 := D []). rewrite !app_nil_r, <- Ed in D0.
    assert (S' := serialize_idem m c I _ _ _ _ [] S). cbn [app] in S'.
    destruct (C49_relay_size m c d p' lists [] I NE D0) as [Small Large].
    destruct (N.le_gt_cases (lenN d - lenN lists) 65535) as [K|K].
    + destruct (Small K) as [p2 [out [S2 [Len _]]]]. rewrite S' in S2. injection S2 as _ Eo. subst out.
      destruct lists as [|b l]; [reflexivity|]. exfalso. unfold lenN in Len. cbn [length] in Len. lia.
    + destruct (Large K) as [p2 [S2 _]]. rewrite S' in S2. discriminate. }
  subst lists. rewrite app_nil_r in Ed. subst fixed.
  intros rest. exact (consume_decodes m c _ _ _ I (D rest)).
Qed.

Lemma run_queue m : forall ts q ds, Forall (plain m) (produced ts) -> Forall2 (waits m) q ds ->
  exists answers ds', run m ts (List.concat ds) = Ok (answers, List.concat ds') /\
    Forall2 arrived (fst (queue ts q)) answers /\ Forall2 (waits m) (snd (queue ts q)) ds'.
Proof.
  induction ts as [|t ts IH]; intros q ds P W.
  - exists [], ds. cbn. auto.
  - destruct t as [[c p]|].
    + cbn [produced flat_map app] in P. apply Forall_cons_iff in P as [Pp P].
      destruct (serialize_plain m c p Pp) as [p' [d [S Wd]]]. cbn [run queue]. rewrite S.
      destruct (IH (q ++ [existT _ c p]) (ds ++ [d]) P) as [l [ds' [R A]]].
      { apply Forall2_app; [exact W|]. constructor; [exact Wd | constructor]. }
      rewrite concat_app in R. cbn [List.concat] in R. rewrite app_nil_r in R. exists l, ds'. auto.
    + cbn [produced flat_map app] in P. cbn [run queue]. destruct W as [|p d q ds Wd W].
      * destruct (IH [] [] P (Forall2_nil _)) as [l [ds' [R A]]]. cbn [List.concat] in R |- *.
        change (consume m []) with (@Ok (option any_pdu * bytes) (None, [])). cbv beta iota. rewrite R.
        exists (None :: l), ds'. destruct (queue ts []) as [l0 q0]. destruct A as [A B]. cbn [fst snd] in *.
        split; [reflexivity|]. split; [constructor; [exact I | exact A] | exact B].
      * destruct Wd as [r [Br C]]. cbn [List.concat]. rewrite C. destruct (IH q ds P W) as [l [ds' [R A]]]. rewrite R.
        exists (Some r :: l), ds'. destruct (queue ts q) as [l0 q0]. destruct A as [A B]. cbn [fst snd] in *.
        split; [reflexivity|]. split; [constructor; [exact Br | exact A] | exact B].
Qed.
(** Any number of producers and consumers, in any order: the consumers get what they would get from
    a first-in first-out queue of PDUs, no call panics, and the buffer holds the PDUs still in the queue. *)
Theorem C87_queue : forall m ts, Forall (plain m) (produced ts) ->
  exists answers left, run m ts [] = Ok (answers, left) /\ Forall2 arrived (fst (queue ts [])) answers /\
    (left = [] <-> snd (queue ts []) = []).
Proof.
  intros m ts P. destruct (run_queue m ts [] [] P (Forall2_nil _)) as [l [ds [R [A B]]]]. exists l, (List.concat ds).
  split; [exact R|]. split; [exact A|]. destruct B as [|p d q ds [r [_ C]] B]; [split; reflexivity|].
  split; [|discriminate]. intros E. cbn [List.concat] in E. apply app_eq_nil in E as [-> _].
  specialize (C []). change (consume m ([] ++ [])) with (@Ok (option any_pdu * bytes) (None, [])) in C. discriminate C.
Qed.
(** So what the consumers got and what is still waiting is what was produced, in order: nothing is
    lost, invented, doubled or overtaken. *)
Definition got {A} (l : list (option A)) : list A := flat_map (fun a => match a with Some x => [x] | None => [] end) l.
Lemma queue_order ts : forall q, got (fst (queue ts q)) ++ snd (queue ts q) = q ++ produced ts.
Proof.
  induction ts as [|[p|] ts IH]; intros q; cbn [queue produced flat_map].
  - cbn. now rewrite app_nil_r.
  - rewrite IH, <- app_assoc. reflexivity.
  - destruct q as [|p q]; [specialize (IH []) | specialize (IH q)]; destruct (queue ts _) as [l q']; cbn [fst snd got flat_map app] in *; [exact IH|].
    f_equal. exact IH.
Qed.
Theorem C87_exactly_once : forall m ts, Forall (plain m) (produced ts) ->
  exists answers left waiting, run m ts [] = Ok (answers, left) /\
    exists sent, produced ts = sent ++ waiting /\ Forall2 becomes sent (got answers) /\ (left = [] <-> waiting = []).
Proof.
  intros m ts P. destruct (C87_queue m ts P) as [l [left [R [A E]]]]. exists l, left, (snd (queue ts [])). split; [exact R|].
  exists (got (fst (queue ts []))). split; [symmetry; exact (queue_order ts [])|]. split; [|exact E].
  clear - A. induction A as [|a b la lb H _ IH]; [constructor|]. cbn [got flat_map].
  destruct a as [x|], b as [y|]; try contradiction; cbn [app]; [constructor; assumption | exact IH].
Qed.
(** A consumer goes away empty-handed only when every PDU produced before has been taken. *)
Theorem C87_empty_handed : forall m ts answers left, Forall (plain m) (produced ts) ->
  run m (ts ++ [Consume]) [] = Ok (answers ++ [None], left) -> length (got answers) = length (produced ts) /\ left = [].
Proof.
  intros m ts answers left P R.
  assert (Q : forall ts q, queue (ts ++ [Consume]) q =
    match snd (queue ts q) with [] => (fst (queue ts q) ++ [None], []) | p :: q' => (fst (queue ts q) ++ [Some p], q') end).
  { clear. induction ts as [|[p|] ts IH]; intros q; cbn [app queue].
    - cbn. destruct q; reflexivity.
    - apply IH.
    - destruct q as [|p q]; [specialize (IH []) | specialize (IH q)]; rewrite IH; destruct (queue ts _) as [l q']; cbn [fst snd];
        destruct q'; reflexivity. }
  assert (P' : Forall (plain m) (produced (ts ++ [Consume]))).
  { unfold produced. rewrite flat_map_app. cbn [flat_map]. rewrite !app_nil_r. exact P. }
  destruct (C87_queue m (ts ++ [Consume]) P') as [l [b [R' [A E]]]]. rewrite R in R'. injection R' as <- <-. rewrite Q in A, E.
  assert (Z := queue_order ts []). cbn [app] in Z. destruct (snd (queue ts [])) as [|p q']; cbn [fst snd] in A, E.
  - split; [|apply E; reflexivity]. rewrite app_nil_r in Z. rewrite <- Z.
    apply Forall2_app_inv_l in A as [l1 [l2 [A1 [A2 Ea]]]]. inversion A2 as [|? b ? l3 H2 H3]; subst. inversion H3; subst.
    apply app_inj_tail in Ea as [-> _]. clear - A1. induction A1 as [|a b la lb H _ IH]; [reflexivity|]. cbn [got flat_map].
    destruct a as [x|], b as [y|]; try contradiction; cbn [app length]; [f_equal; exact IH | exact IH].
  - exfalso. apply Forall2_app_inv_l in A as [l1 [l2 [A1 [A2 Ea]]]]. inversion A2 as [|? b ? l3 H2 H3]; subst. inversion H3; subst.
    apply app_inj_tail in Ea as [_ <-]. exact H2.
Qed.
(** With list elements it is no queue: one Signal PDU is produced, two PDUs are taken. *)
Definition trap : pdu SignalPdu :=
  mk_pdu (c := SignalPdu) (PduHeader_default (as_u32 0))
    (EntityId_default, (as_uint 2 0, (as_uint 2 0, (enum_default SignalTDLType_spec, (as_uint 4 0, (as_uint 2 0, (as_uint 2 0,
      (match serialize AcknowledgePdu (pdu_default AcknowledgePdu (as_u32 0)) [] with Ok (_, _, d) => d | Panic _ => [] end, tt)))))))).
Theorem C87_elements_refuted : exists a b, run Checked [Produce (existT _ SignalPdu trap); Consume; Consume] [] = Ok ([Some a; Some b], []) /\
  cls_name (class_of a) = "SignalPdu"%string /\ cls_name (class_of b) = "AcknowledgePdu"%string.
Proof.
  set (x := run Checked _ []).
  assert (V : match x with
    | Ok ([Some a; Some b], []) => Some (cls_name (class_of a), cls_name (class_of b)) | _ => None end = Some ("SignalPdu", "AcknowledgePdu")%string) by (vm_compute; reflexivity).
  clearbody x. destruct x as [[[|[a|] [|[b|] [|]]] [|]]|]; try discriminate V. injection V as Va Vb. exists a, b. auto.
Qed.
(** The hypotheses are met: two producers, consumers that come too early, Signal PDUs without data. *)
Example C87_example :
  let ts := [Consume; Produce (existT pdu SignalPdu (pdu_default _ (as_u32 1))); Produce (existT pdu FirePdu (pdu_default _ (as_u32 2))); Consume;
             Produce (existT pdu AcknowledgePdu (pdu_default _ (as_u32 3))); Consume] in
  Forall (plain Checked) (produced ts) /\
  match run Checked ts [] with
  | Ok (l, rest) => (map (fun a => match a with Some p => cls_name (class_of p) | None => ""%string end) l, lenN rest)
  | Panic _ => ([], 0)
  end = ([""; "SignalPdu"; "FirePdu"]%string, 32).
Proof.
  cbv zeta. split; [|vm_compute; reflexivity]. cbn [produced flat_map app].
  repeat (apply Forall_cons; [split; [cbn; tauto | split; reflexivity]|]). apply Forall_nil.
Qed.

Definition Prop_Queue_theorems : True :=
  let _ := @C87_queue in let _ := @C87_exactly_once in let _ := @C87_empty_handed in let _ := @C87_elements_refuted in
  let _ := @C87_example in I.
Print Assumptions Prop_Queue_theorems.
