(** * C88: a log file through crashes. Vocabulary in [SpecLog]. *)
From Verif Require Import Base BaseFacts EnumModel Enums EnumFacts Fixed Header HeaderFacts HeaderProofs PduMacro PduMacroFacts
  DataTypes DataTypesFacts Bitflags Pdus PduFields PdusFacts ClassFacts RecordFacts PduProofs Spec SpecDatum SpecSpecial Wire WireMaps WireFacts WireProofs WireClass
  SpecHistory SpecExercise Prop_History Prop_Exercise SpecBundle Prop_Bundle SpecStream Prop_Stream SpecLog.

(** ** What opening the file does to it *)
Lemma take_apart m : forall k a, (length a <= k)%nat ->
  exists base, a = base ++ snd (taken_by_length m a) /\ taken_by_length m base = (fst (taken_by_length m a), []).
Proof.
  induction k as [|k IH]; intros a L; (destruct (complete_dec a) as [C|C];
    [|exists []; rewrite (by_length_wait m a C); split; [reflexivity|]; apply by_length_wait; intros [X _]; cbn in X; lia]).
  { destruct C; lia. }
  assert (P := C). destruct P as [L1 [L2 L3]]. unfold lenN in L3.
  rewrite (by_length_take m a C). cbn [fst snd]. set (n := N.to_nat (be2_at a 8)) in *.
  destruct (IH (skipn n a)) as [base [E T]]; [rewrite skipn_length; lia|].
  set (rest := taken_by_length m (skipn n a)) in *.
  exists (firstn n a ++ base). split; [rewrite <- app_assoc, <- E; symmetry; apply firstn_skipn|].
  assert (Eh : be2_at (firstn n a ++ base) 8 = be2_at a 8).
  { rewrite be2_at_app by (rewrite firstn_length; lia). rewrite <- (firstn_skipn n a) at 2.
    rewrite be2_at_app by (rewrite firstn_length; lia). reflexivity. }
  assert (Ln : length (firstn n a) = n) by (rewrite firstn_length; lia).
  rewrite by_length_take.
  - rewrite Eh. fold n. rewrite firstn_app, skipn_app, Ln, Nat.sub_diag, firstn_O, app_nil_r.
    rewrite (firstn_all2 (firstn n a)), (skipn_all2 (firstn n a)) by lia. cbn [app skipn]. rewrite T. reflexivity.
  - unfold complete, lenN. rewrite Eh, app_length, Ln. lia.
Qed.
Lemma repaired_base m file : exists base, file = base ++ snd (taken_by_length m file) /\
  repaired m file = base /\ taken_by_length m base = (fst (taken_by_length m file), []).
Proof.
  destruct (take_apart m (length file) file (le_n _)) as [base [E T]]. exists base. split; [exact E|]. split; [|exact T].
  unfold repaired. set (p := snd (taken_by_length m file)) in *. rewrite E at 1 2. rewrite app_length.
  replace (length base + length p - length p)%nat with (length base) by lia.
  rewrite firstn_app, firstn_all, Nat.sub_diag, firstn_O. apply app_nil_r.
Qed.
(** It loses no PDU that is there, on any file; what is cut off is what no reader could use; and
    opening the file again (after a crash while it was opened) changes nothing more. *)
Theorem C88_opening : forall m file,
  taken_by_length m (repaired m file) = (fst (taken_by_length m file), []) /\
  file = repaired m file ++ snd (taken_by_length m file) /\
  repaired m (repaired m file) = repaired m file.
Proof.
  intros m file. destruct (repaired_base m file) as [base [E [R T]]]. rewrite R. split; [exact T|]. split; [exact E|].
  unfold repaired. rewrite T. cbn [snd length]. rewrite Nat.sub_0_r. apply firstn_all.
Qed.
(** The file can be read on from there. *)
Theorem C88_appending : forall m file more,
  taken_by_length m (repaired m file ++ more) =
  (fst (taken_by_length m file) ++ fst (taken_by_length m more), snd (taken_by_length m more)).
Proof.
  intros m file more. destruct (C88_opening m file) as [T _].
  rewrite (by_length_app m (length (repaired m file)) (repaired m file) more (le_n _)), T. reflexivity.
Qed.

(** ** One session *)
Lemma within_exact : forall got missing k, sumN (map announced got) <= k ->
  match missing with [] => True | q :: _ => k < sumN (map announced got) + announced q end ->
  within k (got ++ missing) = got.
Proof.
  induction got as [|q got IH]; intros missing k L M; cbn [app within map sumN] in *.
  - destruct missing as [|q missing]; [reflexivity|]. cbn [within].
    replace (announced q <=? k) with false by (symmetry; apply N.leb_gt; lia). reflexivity.
  - replace (announced q <=? k) with true by (symmetry; apply N.leb_le; lia).
    rewrite IH; [reflexivity | lia|]. destruct missing; [exact I|]. lia.
Qed.
Lemma sum_app a b : sumN (a ++ b) = sumN a + sumN b.
Proof. induction a as [|x a IH]; cbn [app sumN]; [reflexivity|]. rewrite IH. lia. Qed.
Lemma one_session m ps qs out k : Forall (sendable m) ps -> serialize_all ps [] = Some (qs, out) -> Forall announces_its_size qs ->
  exists rs pending, taken_by_length m (firstn k out) = (rs, pending) /\ Forall2 (read_back m) (within (N.of_nat k) qs) rs.
Proof.
  intros F S N.
  assert (F1 : Forall (fun p => In (class_of p) (all_pdus m)) ps)
    by (eapply Forall_impl; [|exact F]; intros x X; exact (sendable_in m x X)).
  destruct (all_pieces m ps [] qs out F1 S) as [ds [Eo [A B]]]. cbn [app] in Eo. subst out.
  assert (G := pieces_after m ps qs F B).
  assert (Fr : Forall2 (fun q d => one_frame d /\ lenN d = announced q) qs ds).
  { clear - A N G. induction A as [|[c q] d qs ds Sq A IH]; [constructor|].
    apply Forall_cons_iff in N as [N1 N]. apply Forall_cons_iff in G as [G1 G]. constructor; [|exact (IH N G)].
    unfold sent_alone in Sq. cbn [projT1 projT2] in Sq.
    assert (Fq := frame_of m c q d G1 N1 Sq). split; [exact Fq|]. exact (N1 q d Sq). }
  destruct (by_length_prefix m qs ds A G Fr k) as [got [missing [rs [pending [Eq [T [R [Sm M]]]]]]]].
  exists rs, pending. split; [exact T|].
  assert (Total : lenN (List.concat ds) = sumN (map announced qs)).
  { clear - Fr. induction Fr as [|q d qs ds [_ L] _ IH]; [reflexivity|]. cbn [List.concat map sumN]. rewrite <- IH, <- L.
    unfold lenN. rewrite app_length. lia. }
  assert (Lk : lenN (firstn k (List.concat ds)) = N.min (N.of_nat k) (lenN (List.concat ds)))
    by (unfold lenN; rewrite firstn_length; lia).
  rewrite Eq, map_app, sum_app in Total.
  replace (within (N.of_nat k) qs) with got; [exact R|]. symmetry. rewrite Eq. apply within_exact; [lia|].
  destruct missing as [|q missing]; [exact I|]. cbn [map sumN] in Total. lia.
Qed.

(** ** Any number of sessions and crashes, on any file *)
Theorem C88_history : forall m ss file, Forall (loggable m) ss ->
  exists file' rs, history (repaired m) ss file = Some file' /\
    fst (taken_by_length m file') = fst (taken_by_length m file) ++ rs /\
    Forall2 (read_back m) (survivors ss) rs.
Proof.
  induction ss as [|s ss IH]; intros file L.
  { exists file, []. cbn. rewrite app_nil_r. repeat split; constructor. }
  apply Forall_cons_iff in L as [[F [qs [out [S N]]]] L]. cbn [history survivors]. rewrite S.
  destruct (one_session m _ _ _ (survive s) F S N) as [rs1 [pending [T R1]]].
  destruct (IH (repaired m file ++ firstn (survive s) out) L) as [file' [rs [H [E R]]]].
  exists file', (rs1 ++ rs). split; [exact H|]. split; [|apply Forall2_app; assumption].
  rewrite E, C88_appending, T. cbn [fst]. symmetry. apply app_assoc.
Qed.
(** From an empty file: what is read is exactly what survived completely, in the order of writing. *)
Theorem C88_log : forall m ss, Forall (loggable m) ss ->
  exists file, history (repaired m) ss [] = Some file /\ Forall2 (read_back m) (survivors ss) (fst (taken_by_length m file)).
Proof.
  intros m ss L. destruct (C88_history m ss [] L) as [file [rs [H [E R]]]]. exists file. split; [exact H|].
  rewrite E. exact R.
Qed.
(** What survives: of each session a beginning; all of it if it did not crash; and a PDU is lost
    only if some of its bytes were. *)
Lemma within_beginning : forall qs k, exists missing, qs = within k qs ++ missing /\ sumN (map announced (within k qs)) <= k /\
  match missing with [] => True | q :: _ => k < sumN (map announced (within k qs)) + announced q end.
Proof.
  induction qs as [|q qs IH]; intros k; cbn [within].
  { exists []. repeat split; cbn; lia. }
  destruct (announced q <=? k) eqn:C; [apply N.leb_le in C | apply N.leb_gt in C].
  - destruct (IH (k - announced q)) as [missing [E [L M]]]. exists missing. cbn [app map sumN]. split; [f_equal; exact E|].
    split; [lia|]. destruct missing; [exact I|]. lia.
  - exists (q :: qs). cbn. repeat split; lia.
Qed.
Theorem C88_survivors : forall m ps k, loggable m (Session ps k) ->
  exists qs out missing, serialize_all ps [] = Some (qs, out) /\ qs = survivors [Session ps k] ++ missing /\
    ((length out <= k)%nat -> missing = []) /\
    match missing with [] => (length out <= k)%nat | q :: _ => N.of_nat k < sumN (map announced (survivors [Session ps k])) + announced q end.
Proof.
  intros m ps k [F [qs [out [S N]]]]. cbn [written survive survivors] in *. rewrite S, app_nil_r.
  destruct (within_beginning qs (N.of_nat k)) as [missing [E [L M]]]. exists qs, out, missing.
  assert (F1 : Forall (fun p => In (class_of p) (all_pdus m)) ps)
    by (eapply Forall_impl; [|exact F]; intros x X; exact (sendable_in m x X)).
  destruct (all_pieces m ps [] qs out F1 S) as [ds [Eo [A B]]]. cbn [app] in Eo. subst out.
  assert (G := pieces_after m ps qs F B).
  assert (Total : lenN (List.concat ds) = sumN (map announced qs)).
  { clear - A N G. induction A as [|[c q] d qs ds Sq A IH]; [reflexivity|].
    apply Forall_cons_iff in N as [N1 N]. apply Forall_cons_iff in G as [G1 G].
    cbn [List.concat map sumN]. rewrite <- (IH N G).
    assert (X : lenN d = announced (existT _ c q)) by exact (N1 q d Sq). rewrite <- X.
    unfold lenN. rewrite app_length. lia. }
  rewrite E, map_app, sum_app in Total. unfold lenN in Total.
  split; [reflexivity|]. split; [exact E|]. destruct missing as [|q missing]; cbn [map sumN] in Total.
  - split; [reflexivity|]. lia.
  - split; [|exact M]. intros Lk. exfalso. lia.
Qed.

(** ** Without truncating the file *)
Lemma only_grows : forall ss file file', history (fun f => f) ss file = Some file' -> exists more, file' = file ++ more.
Proof.
  induction ss as [|s ss IH]; intros file file' H; cbn [history] in H.
  { injection H as <-. exists []. symmetry. apply app_nil_r. }
  destruct (serialize_all (written s) []) as [[qs out]|]; [|discriminate].
  destruct (IH _ _ H) as [more ->]. exists (firstn (survive s) out ++ more). now rewrite app_assoc.
Qed.
Lemma history_app repair : forall a b file,
  history repair (a ++ b) file = match history repair a file with Some f => history repair b f | None => None end.
Proof.
  induction a as [|s a IH]; intros b file; cbn [app history]; [reflexivity|].
  destruct (serialize_all (written s) []) as [[qs out]|]; [apply IH | reflexivity].
Qed.
Lemma loggable_exact m ps k : Forall (fun p => sendable m p /\ exact_length (class_of p)) ps ->
  match serialize_all ps [] with Some _ => true | None => false end = true -> loggable m (Session ps k).
Proof.
  intros F S. split; cbn [written]; [eapply Forall_impl; [|exact F]; now intros p [X _]|].
  destruct (serialize_all ps []) as [[qs out]|] eqn:E; [|discriminate S]. exists qs, out. split; [reflexivity|].
  exact (C79_by_length_exact m _ _ _ F E).
Qed.
Ltac plain_exact := repeat apply Forall_cons; try apply Forall_nil; (split;
    [apply sendable_plain; [unfold all_pdus; repeat (first [left; reflexivity | right])|]; cbn; intuition discriminate
    | unfold exact_length; cbn; intuition discriminate]).

(** One crash in the middle of a FirePdu, then a session that ends well: without the truncation the
    reader makes one PDU, that nobody wrote, of the two halves, and of whatever later sessions append it reads nothing. *)
Definition fire_log : any_pdu := existT pdu FirePdu (pdu_new FirePdu (as_u32 1)).
Definition torn : list session := [Session [fire_log] 50; Session [fire_log; fire_log] 192].
Theorem C88_without_truncating : forall m,
  Forall (loggable m) torn /\ length (survivors torn) = 2%nat /\
  exists r p, r = Ok (Some p) /\
    forall later file, history (fun f => f) (torn ++ later) [] = Some file -> fst (taken_by_length m file) = [r].
Proof.
  intros m. split; [|split; [vm_compute; reflexivity|]].
  { repeat apply Forall_cons; try apply Forall_nil; (apply loggable_exact; [plain_exact | vm_compute; reflexivity]). }
  assert (K : match history (fun f => f) torn [] with
    | Some f => match taken_by_length m f with ([Ok (Some _)], p) => Some ((12 <=? length p)%nat, be2_at p 8) | _ => None end
    | None => None end = Some (true, 0)) by (destruct m; vm_compute; reflexivity).
  destruct (history (fun f => f) torn []) as [f|] eqn:H; [|discriminate K].
  destruct (taken_by_length m f) as [[|[[p|]|e] [|r2 rs]] pending] eqn:T; try discriminate K.
  injection K as K1 K2. change ((12 <=? length pending)%nat = true) in K1. apply Nat.leb_le in K1.
  exists (Ok (Some p)), p. split; [reflexivity|]. intros later file E.
  rewrite history_app, H in E. destruct (only_grows _ _ _ E) as [more ->].
  rewrite (by_length_app m _ f more (le_n _)), T. cbn [fst snd].
  assert (X := C80_blocked_for_ever m pending [more]).
  rewrite stream_whole, (by_length_wait m (pending ++ _)) in X.
  - cbn [List.concat] in X. rewrite (by_length_wait m (pending ++ more)); [reflexivity|].
    intros [_ [Y _]]. rewrite be2_at_app in Y by lia. lia.
  - intros [_ [Y _]]. rewrite be2_at_app in Y by lia. lia.
  - intros [_ [Y _]]. lia.
Qed.

(** ** The hypotheses are met *)
(** Three sessions: the first crashes in its second PDU, the second in its first, the third ends well. *)
Example C88_example : forall m, let ss := [Session (bundle m) 150; Session [fire_log] 95; Session (bundle m) 200] in
  Forall (loggable m) ss /\
  map (fun p => code (cls_type (class_of p))) (survivors ss) = [2; 2; 3] /\
  match history (repaired m) ss [] with
  | Some file => (lenN file, map (fun r => match r with Ok (Some p) => code (cls_type (class_of p)) | _ => 0 end) (fst (taken_by_length m file)))
  | None => (0, [])
  end = (296, [2; 2; 3]).
Proof.
  intros m ss. split; [|split; destruct m; vm_compute; reflexivity].
  assert (Eb : Forall (fun p => sendable m p /\ exact_length (class_of p)) (bundle m)) by apply C79_example_plain.
  repeat apply Forall_cons; try apply Forall_nil; apply loggable_exact; try exact Eb; try (destruct m; vm_compute; reflexivity). plain_exact.
Qed.
(** Opening a file that is garbage from some byte on. *)
Example C88_example_opening : forall m,
  match serialize_all [fire_log] [] with
  | Some (_, d) => repaired m (d ++ [B 1; B 2; B 3]) = d /\ repaired m (d ++ zero_bytes 40) = d /\ repaired m [B 7] = []
  | None => False
  end.
Proof. intros m. destruct m; vm_compute; repeat split; reflexivity. Qed.

(** What the theorems above rest on (one traversal for all of them; not part of the model). *)
Definition Prop_Log_theorems : True :=
  let _ := @C88_opening in
  let _ := @C88_appending in
  let _ := @C88_history in
  let _ := @C88_log in
  let _ := @C88_survivors in
  let _ := @C88_without_truncating in
  I.
Print Assumptions Prop_Log_theorems.
