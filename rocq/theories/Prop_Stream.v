(** * PDUs over a byte stream (C80). Vocabulary in [SpecBundle] and [SpecStream]. *)
From Verif Require Import Base BaseFacts EnumModel Enums EnumFacts Fixed Header HeaderFacts HeaderProofs PduMacro PduMacroFacts
  DataTypes DataTypesFacts Bitflags Pdus PduFields PdusFacts ClassFacts RecordFacts PduProofs Spec SpecDatum SpecSpecial Wire WireMaps WireFacts WireProofs WireClass
  SpecHistory SpecExercise Prop_History Prop_Exercise SpecBundle Prop_Bundle SpecStream.

(** One step of the receiver by length, on any bytes. *)
Lemma by_length_short m bs : (length bs < 12)%nat -> taken_by_length m bs = ([], bs).
Proof.
  intros L. unfold taken_by_length. destruct (length bs) as [|f] eqn:E; [reflexivity|]. cbn [cuts].
  destruct (PduHeader_deserialize bs) as [[h r]|e] eqn:D; [|reflexivity].
  set (n := N.to_nat (uval (header_length h))). destruct (n <? 12)%nat eqn:C; [reflexivity|]. apply Nat.ltb_ge in C.
  replace (length bs <? n)%nat with true by (symmetry; apply Nat.ltb_lt; lia). reflexivity.
Qed.
Definition complete (bs : bytes) : Prop := (12 <= length bs)%nat /\ 12 <= be2_at bs 8 /\ be2_at bs 8 <= lenN bs.
Lemma by_length_wait m bs : ~ complete bs -> taken_by_length m bs = ([], bs).
Proof.
  intros N. destruct (Nat.lt_ge_cases (length bs) 12) as [L|L]; [exact (by_length_short m bs L)|].
  unfold taken_by_length. destruct (length bs) as [|f] eqn:E; [reflexivity|]. cbn [cuts].
  assert (L12 : (12 <= length bs)%nat) by lia.
  destruct (header_decode bs L12) as [h [-> [_ [_ [_ [_ [_ [Hl _]]]]]]]]. rewrite Hl.
  destruct (_ || _) eqn:C; [reflexivity|]. apply Bool.orb_false_iff in C as [C1 C2]. apply Nat.ltb_ge in C1, C2.
  exfalso. apply N. unfold complete, lenN. lia.
Qed.
Lemma by_length_take m bs : complete bs -> let n := N.to_nat (be2_at bs 8) in
  taken_by_length m bs = (receive m (firstn n bs) :: fst (taken_by_length m (skipn n bs)), snd (taken_by_length m (skipn n bs))).
Proof.
  intros [L [C1 C2]] n. unfold taken_by_length at 1. destruct (length bs) as [|f] eqn:E; [lia|]. cbn [cuts].
  assert (L12 : (12 <= length bs)%nat) by lia.
  destruct (header_decode bs L12) as [h [-> [_ [_ [_ [_ [_ [Hl _]]]]]]]]. rewrite Hl. fold n.
  unfold lenN in C2.
  replace (n <? 12)%nat with false by (symmetry; apply Nat.ltb_ge; lia).
  replace (length bs <? n)%nat with false by (symmetry; apply Nat.ltb_ge; lia). cbn [orb].
  unfold taken_by_length. rewrite (cuts_enough m f (length (skipn n bs)) (skipn n bs)) by (rewrite skipn_length; lia).
  now destruct (cuts m (length (skipn n bs)) (skipn n bs)).
Qed.
Lemma complete_dec bs : complete bs \/ ~ complete bs.
Proof. unfold complete. destruct (Nat.le_gt_cases 12 (length bs)), (N.le_gt_cases 12 (be2_at bs 8)), (N.le_gt_cases (be2_at bs 8) (lenN bs)); lia. Qed.

(** What the receiver leaves pending is not a complete PDU. *)
Lemma by_length_app m : forall k a b, (length a <= k)%nat ->
  taken_by_length m (a ++ b) =
  (fst (taken_by_length m a) ++ fst (taken_by_length m (snd (taken_by_length m a) ++ b)), snd (taken_by_length m (snd (taken_by_length m a) ++ b))).
Proof.
  induction k as [|k IH]; intros a b L; (destruct (complete_dec a) as [C|C]; [|rewrite (by_length_wait m a C); cbn [fst snd app]; apply surjective_pairing]).
  { destruct C; lia. }
  assert (C' : complete (a ++ b)).
  { destruct C as [L1 [L2 L3]]. unfold complete, lenN in *. rewrite app_length, be2_at_app by lia. lia. }
  assert (P := C). destruct P as [L1 [L2 L3]]. unfold lenN in L3.
  rewrite (by_length_take m _ C'), (by_length_take m _ C), be2_at_app by lia. cbn [fst snd]. set (n := N.to_nat (be2_at a 8)).
  assert (Ln : (12 <= n <= length a)%nat) by lia.
  rewrite firstn_app, skipn_app. replace (n - length a)%nat with 0%nat by lia. cbn [firstn skipn]. rewrite app_nil_r.
  rewrite (IH (skipn n a) b) by (rewrite skipn_length; lia). reflexivity.
Qed.
Lemma by_length_pending m : forall k a, (length a <= k)%nat -> ~ complete (snd (taken_by_length m a)).
Proof.
  induction k as [|k IH]; intros a L; (destruct (complete_dec a) as [C|C]; [|now rewrite (by_length_wait m a C)]).
  { destruct C; lia. }
  rewrite (by_length_take m _ C). cbn [snd]. apply IH. rewrite skipn_length. destruct C; lia.
Qed.

(** ** However the bytes are cut into chunks, the receiver decodes the same *)
Lemma stream_whole m : forall chunks pending, ~ complete pending ->
  over_stream m pending chunks = taken_by_length m (pending ++ List.concat chunks).
Proof.
  induction chunks as [|c chunks IH]; intros pending N; cbn [over_stream List.concat].
  { rewrite app_nil_r. symmetry. exact (by_length_wait m _ N). }
  rewrite app_assoc, (by_length_app m (length (pending ++ c)) (pending ++ c)) by lia.
  destruct (taken_by_length m (pending ++ c)) as [rs p'] eqn:E. cbn [fst snd].
  rewrite IH; [now destruct (taken_by_length m (p' ++ List.concat chunks))|].
  change p' with (snd (rs, p')). rewrite <- E. exact (by_length_pending m _ _ (le_n _)).
Qed.
Theorem C80_chunks_do_not_matter : forall m chunks, over_stream m [] chunks = taken_by_length m (List.concat chunks).
Proof. intros m chunks. rewrite stream_whole; [reflexivity|]. intros [L _]. cbn in L. lia. Qed.

(** ** What has arrived completely has been received, in order, and nothing else *)
Lemma prefix_cases {A} (d : list A) : forall k rest, (length (firstn k (d ++ rest)) < length d)%nat /\ firstn k (d ++ rest) = firstn k d /\ (k < length d)%nat \/
  firstn k (d ++ rest) = d ++ firstn (k - length d) rest.
Proof.
  intros k rest. rewrite firstn_app. destruct (Nat.lt_ge_cases k (length d)) as [L|L].
  - left. replace (k - length d)%nat with 0%nat by lia. rewrite firstn_O, app_nil_r, firstn_length. repeat split; lia.
  - right. now rewrite (firstn_all2 d L).
Qed.
Lemma by_length_prefix m qs ds : Forall2 sent_alone qs ds -> Forall (sendable m) qs -> Forall2 (fun q d => one_frame d /\ lenN d = announced q) qs ds ->
  forall k, exists got missing rs pending,
    qs = got ++ missing /\ taken_by_length m (firstn k (List.concat ds)) = (rs, pending) /\
    Forall2 (fun q r => exists r', r = Ok (Some r') /\ same_numbers m q r') got rs /\
    sumN (map announced got) + lenN pending = lenN (firstn k (List.concat ds)) /\
    match missing with [] => pending = [] | q :: _ => lenN pending < announced q end.
Proof.
  induction 1 as [|q d qs ds Sq A IH]; intros G Fr k.
  { exists [], [], [], []. cbn [List.concat]. rewrite firstn_nil. repeat split; constructor. }
  apply Forall_cons_iff in G as [H G]. inversion Fr as [|? ? ? ? [F1 An] Fr' X1 X2]; subst. clear Fr.
  cbn [List.concat]. destruct (prefix_cases d k (List.concat ds)) as [[L [E K]]|E].
  - exists [], (q :: qs), [], (firstn k (d ++ List.concat ds)). cbn [map sumN app]. split; [reflexivity|]. split.
    + apply by_length_wait. intros [C1 [C2 C3]]. rewrite E in C1, C3. rewrite E in C2. rewrite firstn_length in C1.
      assert (Eb : be2_at (firstn k d) 8 = be2_at d 8).
      { rewrite <- (firstn_skipn k d) at 2. rewrite be2_at_app; [reflexivity|]. rewrite firstn_length. lia. }
      destruct F1 as [_ F1]. rewrite Eb, F1 in C3. unfold lenN in C3. rewrite firstn_length in C3. lia.
    + split; [constructor|]. split; [lia|]. unfold lenN. unfold lenN in An. lia.
  - destruct (IH G Fr' (k - length d)%nat) as [got [missing [rs [pending [Eq [T [R [Sm M]]]]]]]].
    exists (q :: got), missing, (receive m d :: rs), pending. rewrite E. split; [now rewrite Eq|]. split.
    + rewrite (length_step m d _ F1), T. reflexivity.
    + split; [|split; [|exact M]].
      * constructor; [|exact R]. destruct q as [c q]. unfold sent_alone in Sq. cbn [projT1 projT2] in Sq.
        destruct (datagram_whole m (existT _ c q) q d H Sq) as [W1 W2].
        destruct (delivery m (existT _ c q) q d (length d) H Sq) as [[X _]|[[X _]|[_ [r' [E' N]]]]]; cbn [projT1 class_of] in *; [lia|lia|].
        rewrite firstn_all in E'. exists r'. split; assumption.
      * cbn [map sumN]. unfold lenN in *. rewrite app_length. lia.
Qed.
(** PDUs are serialized one after the other and their bytes sent; [chunks] is what has arrived
    so far. *)
Theorem C80_received_so_far : forall m ps qs out chunks later,
  Forall (sendable m) ps -> serialize_all ps [] = Some (qs, out) -> Forall announces_its_size qs ->
  List.concat chunks ++ later = out ->
  exists got missing rs pending,
    qs = got ++ missing /\ over_stream m [] chunks = (rs, pending) /\
    Forall2 (fun q r => exists r', r = Ok (Some r') /\ same_numbers m q r') got rs /\
    sumN (map announced got) + lenN pending = lenN (List.concat chunks) /\
    match missing with [] => pending = [] | q :: _ => lenN pending < announced q end.
Proof.
  intros m ps qs out chunks later F S N E.
  assert (F1 : Forall (fun p => In (class_of p) (all_pdus m)) ps)
    by (eapply Forall_impl; [|exact F]; intros x X; exact (sendable_in m x X)).
  destruct (all_pieces m ps [] qs out F1 S) as [ds [Eo [A B]]]. cbn [app] in Eo. subst out.
  assert (G := pieces_after m ps qs F B).
  assert (Fr : Forall2 (fun q d => one_frame d /\ lenN d = announced q) qs ds).
  { clear - A N G. induction A as [|[c q] d qs ds Sq A IH]; [constructor|].
    apply Forall_cons_iff in N as [N1 N]. apply Forall_cons_iff in G as [G1 G]. constructor; [|exact (IH N G)].
    unfold sent_alone in Sq. cbn [projT1 projT2] in Sq. 
    assert (Fq := frame_of m c q d G1 N1 Sq). split; [exact Fq|]. exact (N1 q d Sq). }
  destruct (by_length_prefix m qs ds A G Fr (length (List.concat chunks))) as [got [missing [rs [pending [Eq [T [R [Sm M]]]]]]]].
  assert (Ef : firstn (length (List.concat chunks)) (List.concat ds) = List.concat chunks).
  { rewrite <- Eo, firstn_app, firstn_all, Nat.sub_diag, firstn_O. apply app_nil_r. }
  rewrite Ef in T, Sm. exists got, missing, rs, pending. rewrite C80_chunks_do_not_matter. repeat split; assumption.
Qed.
(** When everything has arrived, everything has been received and nothing is pending. *)
Theorem C80_everything_received : forall m ps qs out chunks,
  Forall (sendable m) ps -> serialize_all ps [] = Some (qs, out) -> Forall announces_its_size qs -> List.concat chunks = out ->
  exists rs, over_stream m [] chunks = (rs, []) /\ Forall2 (fun q r => exists r', r = Ok (Some r') /\ same_numbers m q r') qs rs.
Proof.
  intros m ps qs out chunks F S N E. rewrite C80_chunks_do_not_matter, E.
  destruct (C79_by_length m ps qs out F S N) as [rs [R T]]. exists rs. split; [|exact R].
  specialize (T []). rewrite app_nil_r in T. rewrite T. cbn. now rewrite app_nil_r.
Qed.

(** ** How much the receiver keeps, and how it can be blocked *)
Definition blocked (pending : bytes) : Prop := (12 <= length pending)%nat /\ be2_at pending 8 < 12.
Theorem C80_pending_is_bounded : forall m chunks, let pending := snd (over_stream m [] chunks) in
  lenN pending < 65535 \/ blocked pending.
Proof.
  intros m chunks pending. subst pending. rewrite C80_chunks_do_not_matter.
  assert (C := by_length_pending m _ (List.concat chunks) (le_n _)). set (p := snd _) in *.
  assert (U : be2_at p 8 <= 65535).
  { unfold be2_at, byte_at. assert (A := uint_lt 1 (nth 8 p (B 0))). assert (D := uint_lt 1 (nth (8 + 1) p (B 0))).
    change (256 ^ N.of_nat 1) with 256 in A, D. lia. }
  unfold blocked, complete in *. destruct (Nat.le_gt_cases 12 (length p)); [|left; unfold lenN; lia].
  destruct (N.le_gt_cases 12 (be2_at p 8)); [left|right]; unfold lenN in *; lia.
Qed.
Theorem C80_blocked_for_ever : forall m pending chunks, blocked pending ->
  over_stream m pending chunks = ([], pending ++ List.concat chunks).
Proof.
  intros m pending chunks [L K]. rewrite stream_whole; [|intros [_ [X _]]; lia].
  apply by_length_wait. intros [_ [X _]]. rewrite be2_at_app in X by lia. lia.
Qed.
(** Nobody has to be malicious: one new EntityStatePdu, followed by three new FirePdus, blocks
    the receiver: it takes two wrong pieces, and whatever is sent afterwards is not received. *)
Theorem C80_blocked_by_entity_state : forall m,
  let state := existT pdu EntityStatePdu (pdu_new EntityStatePdu (as_u32 1)) in
  let fire := existT pdu FirePdu (pdu_new FirePdu (as_u32 1)) in
  let ps := [state; fire; fire; fire] in
  Forall (sendable m) ps /\
  exists qs out rs pending, serialize_all ps [] = Some (qs, out) /\ length rs = 2%nat /\ lenN pending = 21 /\
    forall chunks afterwards, List.concat chunks = out ++ afterwards -> over_stream m [] chunks = (rs, pending ++ afterwards).
Proof.
  intros m state fire ps. split.
  { repeat apply Forall_cons; try apply Forall_nil;
    (apply sendable_plain; [unfold all_pdus; repeat (first [left; reflexivity | right])|]; cbn; intuition discriminate). }
  assert (K : match serialize_all ps [] with
    | Some (_, o) => (length (fst (taken_by_length m o)), lenN (snd (taken_by_length m o)), be2_at (snd (taken_by_length m o)) 8)
    | None => (0%nat, 0, 13) end = (2%nat, 21, 0)) by (destruct m; vm_compute; reflexivity).
  destruct (serialize_all ps []) as [[qs out]|]; [|discriminate K].
  destruct (taken_by_length m out) as [rs pending] eqn:T. cbn [fst snd] in K.
  assert (K1 := f_equal (fun x => fst (fst x)) K). assert (K2 := f_equal (fun x => snd (fst x)) K). assert (K3 := f_equal snd K).
  cbn [fst snd] in K1, K2, K3.
  exists qs, out, rs, pending. split; [reflexivity|]. split; [exact K1|]. split; [exact K2|]. intros chunks afterwards E.
  rewrite C80_chunks_do_not_matter, E.
  rewrite (by_length_app m _ out afterwards (le_n _)), T. cbn [fst snd].
  assert (Bl : blocked pending) by (split; [unfold lenN in K2; lia | rewrite K3; reflexivity]).
  assert (X := C80_blocked_for_ever m pending [afterwards] Bl). rewrite stream_whole in X by (intros [_ [Y _]]; lia).
  cbn [List.concat] in X. rewrite app_nil_r in X. rewrite X. cbn [fst snd]. now rewrite app_nil_r.
Qed.

(** ** The hypotheses are met *)
(** Two PDUs in three chunks, none of which ends where a PDU ends. *)
Example C80_example : forall m,
  Forall (sendable m) (bundle m) /\
  (forall qs out, serialize_all (bundle m) [] = Some (qs, out) -> Forall announces_its_size qs) /\
  match serialize_all (bundle m) [] with
  | Some (_, out) =>
      let chunks := [firstn 5 out; firstn 100 (skipn 5 out); skipn 105 out] in
      map (fun k => let '(rs, pending) := over_stream m [] (firstn k chunks) in
                    (map (fun r => match r with Ok (Some p) => code (cls_type (class_of p)) | _ => 0 end) rs, lenN pending)) [0; 1; 2; 3]%nat
  | None => []
  end = [([], 0); ([], 5); ([2], 9); ([2; 3], 0)].
Proof.
  intros m. destruct (C79_example_plain m) as [_ [F _]]. split; [|split].
  - eapply Forall_impl; [|exact F]. now intros p [X _].
  - intros qs out S. exact (C79_by_length_exact m _ _ _ F S).
  - destruct m; vm_compute; reflexivity.
Qed.
(** A blocked receiver. *)
Example C80_example_blocked : blocked (zero_bytes 12).
Proof. vm_compute. split; [repeat constructor | reflexivity]. Qed.

(** What the theorems above rest on (one traversal for all of them; not part of the model). *)
Definition Prop_Stream_theorems : True :=
  let _ := @C80_chunks_do_not_matter in
  let _ := @C80_received_so_far in
  let _ := @C80_everything_received in
  let _ := @C80_pending_is_bounded in
  let _ := @C80_blocked_for_ever in
  let _ := @C80_blocked_by_entity_state in
  I.
Print Assumptions Prop_Stream_theorems.
