(** * C86: threads that share an output buffer. *)
From Verif Require Import Base BaseFacts EnumModel Enums Header HeaderProofs PduMacro PduMacroFacts DataTypes Pdus Spec ClassFacts PduProofs
  SpecHistory Crash Threads SpecThreads.
From Verif Require Prop_Pdu Prop_History Prop_Crash.

(** The bytes of a PDU do not depend on what the buffer holds already. *)
Lemma serialize_prefix c p buf : serialize c p buf =
  match serialize c p [] with Ok (r, p', out) => Ok (r, p', buf ++ out) | Panic e => Panic e end.
Proof.
  unfold serialize. cbv zeta. destruct (calculate_length _ _) as [n|e]; [|now rewrite app_nil_r].
  destruct (body_serialize _ _); reflexivity.
Qed.
Lemma nth_set {A} (x d : A) l : forall i j, (i < length l)%nat -> nth j (set_nth i x l) d = if Nat.eqb i j then x else nth j l d.
Proof.
  induction l as [|y l IH]; intros i j H; [cbn in H; lia|].
  destruct i as [|i], j as [|j]; cbn; try reflexivity. apply IH. cbn in H. lia.
Qed.
Lemma of_thread_cons i j p l : of_thread i ((j, p) :: l) = if Nat.eqb j i then p :: of_thread i l else of_thread i l.
Proof. unfold of_thread. cbn [filter fst]. destruct (Nat.eqb j i); reflexivity. Qed.
Lemma nth_bound {A} i (l : list (list A)) x r : nth i l [] = x :: r -> (i < length l)%nat.
Proof. intros E. destruct (Nat.ltb_spec i (length l)) as [H|H]; [exact H|]. rewrite nth_overflow in E by exact H. discriminate. Qed.

Lemma poisoned_stays torn s : forall w, poisoned w = true ->
  let '(w', log) := turns false torn s w in output w' = output w /\ poisoned w' = true /\ log = [].
Proof.
  induction s as [|i s IH]; intros w P; [cbn; auto|]. cbn [turns]. unfold turn.
  destruct (nth i (jobs w) []) as [|[c p] r].
  - specialize (IH w P). destruct (turns false torn s w) as [w' l]. exact IH.
  - rewrite P. cbn [andb negb]. specialize (IH (mk_world (output w) true (set_nth i [] (jobs w))) eq_refl).
    destruct (turns false torn s _) as [w' l]. exact IH.
Qed.

Definition shape (torn : any_pdu -> bytes) (w w' : world) (log : list (nat * any_pdu)) : Prop :=
  exists piece, output w' = output w ++ List.concat (map (fun e => alone (snd e)) log) ++ piece /\
    (forall i, exists rest, nth i (jobs w) [] = of_thread i log ++ rest /\ (poisoned w' = false -> nth i (jobs w') [] = rest)) /\
    Forall (fun e => ~ panics (snd e)) log /\
    (poisoned w' = false /\ piece = [] \/
     poisoned w' = true /\ exists i p rest, nth i (jobs w) [] = of_thread i log ++ p :: rest /\ panics p /\ piece = torn p).
Lemma turns_shape torn s : forall w, poisoned w = false ->
  let '(w', log) := turns false torn s w in shape torn w w' log.
Proof.
  induction s as [|i s IH]; intros w P.
  - cbn. exists []. cbn. rewrite !app_nil_r. split; [reflexivity|]. split; [|auto]. intros i. exists (nth i (jobs w) []). auto.
  - cbn [turns]. unfold turn. destruct (nth i (jobs w) []) as [|[c p] r] eqn:J.
    + specialize (IH w P). destruct (turns false torn s w) as [w' l]. exact IH.
    + rewrite P. cbn [andb]. assert (Hi := nth_bound _ _ _ _ J). assert (X := serialize_prefix c p (output w)).
      destruct (serialize c p []) as [[[res p'] o]|e] eqn:E; rewrite X.
      * specialize (IH (mk_world (output w ++ o) false (set_nth i r (jobs w))) eq_refl).
        destruct (turns false torn s _) as [w' l]. destruct IH as [piece [O [T [NP F]]]]. cbn [output jobs] in O, T, F.
        exists piece. cbn [app map List.concat snd]. split; [|split; [|split]].
        -- rewrite O. unfold alone at 2. rewrite E, <- !app_assoc. reflexivity.
        -- intros j. destruct (T j) as [rest [T1 T2]]. rewrite nth_set in T1 by exact Hi. exists rest. rewrite of_thread_cons.
           destruct (Nat.eqb_spec i j) as [<-|N]; [rewrite J, T1; auto | auto].
        -- constructor; [|exact NP]. cbn [snd panics]. intros [e K]. rewrite E in K. discriminate K.
        -- destruct F as [F|[F1 [j [q [rest [F2 F3]]]]]]; [left; exact F | right]. split; [exact F1|].
           exists j, q, rest. split; [|exact F3]. rewrite nth_set in F2 by exact Hi. rewrite of_thread_cons.
           destruct (Nat.eqb_spec i j) as [<-|N]; [rewrite J, F2; reflexivity | exact F2].
      * assert (Y := poisoned_stays torn s (mk_world (output w ++ torn (existT _ c p)) true (set_nth i [] (jobs w))) eq_refl).
        destruct (turns false torn s _) as [w' l]. cbn [output] in Y. destruct Y as [O [P' L]]. subst l.
        exists (torn (existT _ c p)). cbn [app map List.concat]. split; [exact O|]. split; [|split].
        -- intros j. exists (nth j (jobs w) []). rewrite P'. split; [reflexivity | discriminate].
        -- constructor.
        -- right. split; [exact P'|]. exists i, (existT _ c p), r. split; [exact J|]. split; [exists e; exact E | reflexivity].
Qed.

(** Whatever the scheduler does: the buffer holds, after its old contents, whole datagrams, each
    the one its PDU would give alone; the calls of each thread happen in its order; and after
    that at most one torn datagram, the last thing in the buffer, of the next PDU of some thread. *)
Theorem C86_any_schedule : forall torn schedule buf threads,
  let '(w, log) := turns false torn schedule (mk_world buf false threads) in
  exists piece, output w = buf ++ List.concat (map (fun e => alone (snd e)) log) ++ piece /\
    (forall i, exists rest, nth i threads [] = of_thread i log ++ rest) /\
    (poisoned w = false /\ piece = [] \/
     poisoned w = true /\ exists i p rest, nth i threads [] = of_thread i log ++ p :: rest /\ panics p /\ piece = torn p).
Proof.
  intros torn s buf threads. assert (X := turns_shape torn s (mk_world buf false threads) eq_refl).
  destruct (turns false torn s _) as [w log]. destruct X as [piece [O [T [_ F]]]]. exists piece. split; [exact O|].
  split; [intros i; destruct (T i) as [rest [T1 _]]; exists rest; exact T1 | exact F].
Qed.

Lemma count_turns torn s : forall w, (forall i p, In p (nth i (jobs w) []) -> ~ panics p) -> poisoned w = false ->
  let '(w', log) := turns false torn s w in poisoned w' = false /\
    forall i, length (nth i (jobs w') []) = (length (nth i (jobs w) []) - count_occ Nat.eq_dec s i)%nat.
Proof.
  induction s as [|i s IH]; intros w NP P; [cbn; split; [exact P|]; intros i; lia|].
  cbn [turns]. unfold turn. destruct (nth i (jobs w) []) as [|[c p] r] eqn:J.
  - specialize (IH w NP P). destruct (turns false torn s w) as [w' l]. destruct IH as [P' IH]. split; [exact P'|].
    intros j. rewrite IH. cbn [count_occ]. destruct (Nat.eq_dec i j) as [<-|N]; [rewrite J; cbn [length]; lia | reflexivity].
  - rewrite P. cbn [andb]. assert (Hi := nth_bound _ _ _ _ J). assert (X := serialize_prefix c p (output w)).
    destruct (serialize c p []) as [[[res p'] o]|e] eqn:E; rewrite X.
    + specialize (IH (mk_world (output w ++ o) false (set_nth i r (jobs w)))). cbn [jobs poisoned] in IH.
      assert (NP' : forall j q, In q (nth j (set_nth i r (jobs w)) []) -> ~ panics q).
      { intros j q. rewrite nth_set by exact Hi. destruct (Nat.eqb_spec i j) as [<-|N]; [|apply NP].
        intros K. apply (NP i). rewrite J. right. exact K. }
      specialize (IH NP' eq_refl). destruct (turns false torn s _) as [w' l]. destruct IH as [P' IH]. split; [exact P'|].
      intros j. rewrite IH, nth_set by exact Hi. cbn [count_occ]. destruct (Nat.eq_dec i j) as [<-|N].
      * rewrite Nat.eqb_refl, J. cbn [length]. lia.
      * apply Nat.eqb_neq in N. rewrite N. reflexivity.
    + exfalso. apply (NP i (existT _ c p)); [rewrite J; left; reflexivity | exists e; exact E].
Qed.
(** If no PDU panics (C46: all classes but two) and every thread gets its turns, everything is
    sent: the buffer is a merge of the threads' datagrams. *)
Theorem C86_all_sent : forall torn schedule buf threads,
  (forall i p, In p (nth i threads []) -> ~ panics p) -> enough_turns schedule threads ->
  let '(w, log) := turns false torn schedule (mk_world buf false threads) in
  poisoned w = false /\ output w = buf ++ List.concat (map (fun e => alone (snd e)) log) /\
  forall i, of_thread i log = nth i threads [].
Proof.
  intros torn s buf threads NP En. assert (X := turns_shape torn s (mk_world buf false threads) eq_refl).
  assert (Y := count_turns torn s (mk_world buf false threads) NP eq_refl).
  destruct (turns false torn s _) as [w log]. destruct Y as [P Y]. destruct X as [piece [O [T [_ F]]]]. cbn [jobs output] in *.
  split; [exact P|]. split.
  - destruct F as [[_ ->]|[F _]]; [rewrite app_nil_r in O; exact O | congruence].
  - intros i. destruct (T i) as [rest [T1 T2]]. specialize (T2 P). specialize (Y i). specialize (En i).
    assert (L : rest = []). { rewrite <- T2. apply length_zero_iff_nil. lia. }
    rewrite T1, L, app_nil_r. reflexivity.
Qed.

(** The receiver (classes with exact lengths, C08): the stream can be cut in exactly one way, and
    the pieces are the PDUs whose calls succeeded, in the order of the calls, so those of each
    thread in its order. *)
Theorem C86_receiver : forall m torn schedule threads,
  (forall i p, In p (nth i threads []) -> In (class_of p) (all_pdus m) /\ exact_length (class_of p)) -> enough_turns schedule threads ->
  let '(w, log) := turns false torn schedule (mk_world [] false threads) in
  (forall i, of_thread i log = nth i threads []) /\
  exists frs, framed (output w) frs /\ (forall g, framed (output w) g -> g = frs) /\
    Forall2 arrives (filter (fun p => negb (too_long p)) (map snd log)) frs.
Proof.
  intros m torn s threads G En.
  assert (NP : forall i p, In p (nth i threads []) -> ~ panics p).
  { intros i [c p] Hp [e E]. destruct (G i _ Hp) as [I X]. exact (Prop_History.exact_no_panic m c I X _ _ _ E). }
  assert (A := C86_all_sent torn s [] threads NP En). destruct (turns false torn s _) as [w log]. destruct A as [_ [O T]].
  split; [exact T|]. cbn [app] in O.
  assert (GL : Forall (fun p => In (class_of p) (all_pdus m) /\ exact_length (class_of p)) (map snd log)).
  { apply Forall_forall. intros p Hp. apply in_map_iff in Hp as [[i q] [E Hq]]. cbn in E. subst q. apply (G i). rewrite <- T.
    unfold of_thread. apply in_map_iff. exists (i, p). split; [reflexivity|]. apply filter_In. split; [exact Hq | apply Nat.eqb_refl]. }
  assert (M : exists frs, List.concat (map (fun e => alone (snd e)) log) = List.concat frs /\ Forall one_frame frs /\
    Forall2 arrives (filter (fun p => negb (too_long p)) (map snd log)) frs).
  { clear O T. revert GL. induction log as [|[i [c p]] log IH]; intros GL; [exists []; repeat constructor|].
    cbn [map snd] in GL. inversion GL as [|? ? [I X] GL']; subst. destruct (IH GL') as [frs [E [F H]]]. cbn [class_of projT1] in I, X.
    cbn [map snd List.concat filter].
    assert (Al : alone (existT _ c p) = match serialize c p [] with Ok (_, _, out) => out | Panic _ => [] end) by reflexivity.
    assert (Tl : too_long (existT _ c p) = match serialize c p [] with Ok (RErr _, _, _) => true | _ => false end) by reflexivity.
    rewrite Al, Tl. clear Al Tl.
    destruct (serialize c p []) as [[[[[]|e] p'] o]|e] eqn:S; [| |exfalso; exact (Prop_History.exact_no_panic m c I X _ _ _ S)].
    - destruct (Prop_History.serialize_frame m c I X _ _ _ _ S) as [fr [-> [Fr _]]]. cbn [app] in S |- *.
      exists (fr :: frs). cbn [negb List.concat]. rewrite E. split; [reflexivity|]. split; [constructor; assumption|].
      constructor; [|exact H]. exists p'. split; [exact S|]. intros Od.
      destruct (serialize_spec m c I _ _ _ _ S) as [fl [_ [_ [_ [_ [Eb _]]]]]].
      split; [rewrite Eb; apply (no_auto_prep m c I Od)|].
      intros rest. destruct (ordinary_roundtrip m c I Od _ _ _ _ S) as [_ [o [Eo [_ R]]]]. cbn [app] in Eo. subst o. eauto.
    - assert (Ho : o = []).
      { unfold serialize in S. cbv zeta in S. destruct (calculate_length _ _) as [n|er]; [destruct (body_serialize _ _); discriminate|].
        injection S as _ _ <-. reflexivity. }
      subst o. cbn [negb app]. exists frs. auto. }
  destruct M as [frs [E [F H]]]. exists frs. split; [split; [rewrite O; exact E | exact F]|]. split; [|exact H].
  intros g Fg. apply (Prop_History.C48_framing_unique _ _ _ Fg). split; [rewrite O; exact E | exact F].
Qed.

(** One PDU that makes [serialize] panic silences all threads: whatever is scheduled after
    it, nothing more is written. *)
Theorem C86_poison : forall torn before i after buf threads p rest,
  let '(w, log) := turns false torn before (mk_world buf false threads) in
  poisoned w = false -> nth i (jobs w) [] = p :: rest -> panics p ->
  let '(w', log') := turns false torn (before ++ i :: after) (mk_world buf false threads) in
  log' = log /\ output w' = output w ++ torn p /\ poisoned w' = true.
Proof.
  intros torn s i after buf threads p rest. generalize (mk_world buf false threads) as w0. clear buf threads.
  induction s as [|j s IH]; intros w0.
  - cbn [turns app]. intros P J Hp. unfold turn. rewrite J. destruct p as [c p]. destruct Hp as [e E']. rewrite P. cbn [andb].
    rewrite serialize_prefix, E'.
    assert (Y := poisoned_stays torn after (mk_world (output w0 ++ torn (existT _ c p)) true (set_nth i [] (jobs w0))) eq_refl).
    destruct (turns false torn after _) as [w' l]. destruct Y as [O [P' L]]. subst l. auto.
  - cbn [turns app]. destruct (turn false torn j w0) as [w1 l1]. specialize (IH w1).
    destruct (turns false torn s w1) as [w l]. intros P J Hp. specialize (IH P J Hp).
    destruct (turns false torn (s ++ i :: after) w1) as [w' l']. destruct IH as [L [O P']]. rewrite L. auto.
Qed.

(** Recovering the lock from its poison is no way out: the torn datagram stays in the buffer and
    announces bytes that never came, so what other threads append later cannot be framed, for
    their next 300 bytes. One thread's oversized record set, two other threads' Acknowledge PDUs. *)
Theorem C86_recover_refuted : exists (bad p' : pdu (SetRecordReliablePdu Checked)) (piece : bytes) (e : panic) (good : pdu AcknowledgePdu),
  serialize_trace _ (SetRecordReliablePdu_traces Checked) bad [] = (Panicked e, p', piece) /\
  let torn := fun _ : any_pdu => piece in
  let threads := [[existT _ (SetRecordReliablePdu Checked) bad]; [existT _ AcknowledgePdu good]; [existT _ AcknowledgePdu good]] in
  (forall a b, (a = 1 /\ b = 2 \/ a = 2 /\ b = 1)%nat ->
    let '(w, log) := turns true torn [0%nat; a; b] (mk_world [] false threads) in
    log = [(a, existT _ AcknowledgePdu good); (b, existT _ AcknowledgePdu good)] /\ forall frames, ~ framed (output w) frames) /\
  (let '(w, log) := turns false torn [0%nat; 1%nat; 2%nat] (mk_world [] false threads) in output w = piece /\ log = []).
Proof.
  destruct Prop_Crash.C55_framing_refuted as [bad [p' [piece [E [T F]]]]].
  exists bad, p', piece, ArithOverflow, (pdu_default AcknowledgePdu (as_u32 0)). split; [exact T|]. cbv zeta.
  assert (G : exists q o, serialize AcknowledgePdu (pdu_default AcknowledgePdu (as_u32 0)) [] = Ok (ROk tt, q, o) /\ lenN o = 32).
  { assert (V : match serialize AcknowledgePdu (pdu_default AcknowledgePdu (as_u32 0)) [] with Ok (ROk _, _, o) => lenN o | _ => 0 end = 32) by (vm_compute; reflexivity).
    destruct (serialize AcknowledgePdu _ []) as [[[[[]|er] q] o]|er]; try discriminate V. exists q, o. auto. }
  revert G. generalize (pdu_default AcknowledgePdu (as_u32 0)). intros good [q [o [Eg L]]].
  split.
  - intros a b [[-> ->]|[-> ->]]; cbn [turns]; unfold turn; cbn [nth jobs poisoned output andb negb set_nth app];
      rewrite (serialize_prefix (SetRecordReliablePdu Checked)), E; cbn [nth jobs poisoned output andb negb set_nth app];
      rewrite (serialize_prefix AcknowledgePdu), Eg; cbn [nth jobs poisoned output andb negb set_nth app];
      rewrite (serialize_prefix AcknowledgePdu), Eg; cbn [nth jobs poisoned output andb negb set_nth app];
      (split; [reflexivity|]); intros frames; rewrite <- app_assoc; apply F; unfold lenN in *; rewrite app_length; lia.
  - cbn [turns]. unfold turn. cbn [nth jobs poisoned output andb negb set_nth app].
    rewrite (serialize_prefix (SetRecordReliablePdu Checked)), E. cbn [nth jobs poisoned output andb negb set_nth app]. auto.
Qed.

(** The hypotheses are met: three threads with Acknowledge, Fire and Signal PDUs under an irregular schedule. *)
Example C86_example :
  let threads := [[existT pdu AcknowledgePdu (pdu_default _ (as_u32 1)); existT _ FirePdu (pdu_default _ (as_u32 2))];
                  [existT pdu SignalPdu (pdu_default _ (as_u32 3))]; [];
                  [existT pdu AcknowledgePdu (pdu_default _ (as_u32 4)); existT _ AcknowledgePdu (pdu_default _ (as_u32 5))]] in
  let schedule := [3; 0; 7; 1; 2; 3; 0; 0; 3]%nat in
  (forall i p, In p (nth i threads []) -> In (class_of p) (all_pdus Checked) /\ exact_length (class_of p)) /\
  enough_turns schedule threads /\
  (let '(w, log) := turns false (fun _ => []) schedule (mk_world [] false threads) in
   map fst log = [3; 0; 1; 3; 0]%nat /\ lenN (output w) = 32 + 32 + 32 + 32 + 96).
Proof.
  cbv zeta. split; [|split].
  - intros i p H. destruct i as [|[|[|[|[|i]]]]]; cbn [nth] in H; repeat destruct H as [<-|H]; try destruct H; (split; [cbn; tauto | reflexivity]).
  - intros i. destruct i as [|[|[|[|[|i]]]]]; cbn; lia.
  - vm_compute. split; reflexivity.
Qed.

Definition Prop_Threads_theorems : True :=
  let _ := @C86_any_schedule in let _ := @C86_all_sent in let _ := @C86_receiver in let _ := @C86_poison in
  let _ := @C86_recover_refuted in let _ := @C86_example in I.
Print Assumptions Prop_Threads_theorems.
