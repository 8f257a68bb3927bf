(** * C90: requests and acknowledgements over an unreliable network. Vocabulary in [SpecHandshake]. *)
From Verif Require Import Base BaseFacts EnumModel Enums EnumFacts Fixed Header HeaderFacts HeaderProofs PduMacro PduMacroFacts
  DataTypes DataTypesFacts Pdus PduFields PdusFacts ClassFacts RecordFacts PduProofs Spec Prop_Pdu Prop_Special Prop_Faults Prop_Relay Prop_Exercise SpecHandshake.
From Verif Require Equality Prop_Equality DecodeFacts.

Lemma sent_decodes m c (p p' : pdu c) d : In c (all_pdus m) -> ordinary c -> serialize c p [] = Ok (ROk tt, p', d) ->
  (exists q r, deserialize c d = Ok (ROk q, r) /\ body q = body (clear_lists p)) /\
  forall c', code (cls_type c') <> code (cls_type c) -> exists e r, deserialize c' d = Ok (RErr e, r).
Proof.
  intros I O S. destruct (C12_list_roundtrip_exact m c p [] p' d I O S) as [Eb [fixed [lists [E [_ D]]]]]. cbn [app] in E. subst d.
  specialize (D []). rewrite !app_nil_r in D. split.
  - eexists. eexists. split; [exact D|]. unfold clear_lists. cbn [body]. now rewrite Eb.
  - intros c' N. destruct (decoded_type _ _ _ _ D) as [L12 T].
    destruct (C05_type_check c' _ L12) as [h [_ [_ [R _]]]]. rewrite R by congruence. eauto.
Qed.

Lemma nth_last {A} (l : list A) x : nth_error (l ++ [x]) (length l) = Some x.
Proof. rewrite nth_error_app2, Nat.sub_diag by lia. reflexivity. Qed.

Section Handshake.
Variable m : profile.
Variable P : protocol.
Variable requests : list (pdu (rc P)).
Variable remember : bool.
Hypothesis Sound : sound m P.
Hypothesis Can : Forall can_send requests.

Definition keys (w : world P) : list (key P) := map (of_request P) (executed w).
(** A datagram on the wire is that of a request that was sent, or an answer to one that was carried out. *)
Definition a_request (sent : list (pdu (rc P))) (d : bytes) : Prop :=
  (exists p q r, In p sent /\ deserialize (rc P) d = Ok (ROk q, r) /\ body q = body (clear_lists p)) /\
  exists e r, deserialize (ac P) d = Ok (RErr e, r).
Definition an_answer (ks : list (key P)) (d : bytes) : Prop :=
  (exists a r, deserialize (ac P) d = Ok (ROk a, r) /\ In (of_answer P a) ks) /\
  exists e r, deserialize (rc P) d = Ok (RErr e, r).
Definition inv (sent : list (pdu (rc P))) (w : world P) : Prop :=
  Forall (fun d => a_request sent d \/ an_answer (keys w) d) (wire w) /\
  Forall (fun q => exists p, In p sent /\ body q = body (clear_lists p)) (executed w) /\
  (remember = true -> NoDup (keys w)) /\
  Forall (fun k => In k (keys w)) (completed w).

Lemma known_iff k (w : world P) : known k w = true <-> In k (keys w).
Proof.
  destruct Sound as [_ [_ [_ [_ [_ [K _]]]]]]. unfold known, keys. rewrite existsb_exists. split.
  - intros [q [I E]]. apply K in E. subst k. now apply in_map.
  - intros I. apply in_map_iff in I as [q [E I]]. exists q. split; [exact I|]. apply K. now symmetry.
Qed.
Lemma wire_more sent sent' (ks ks' : list (key P)) l : incl sent sent' -> incl ks ks' ->
  Forall (fun d => a_request sent d \/ an_answer ks d) l -> Forall (fun d => a_request sent' d \/ an_answer ks' d) l.
Proof.
  intros I J. apply Forall_impl. intros d [[[p [q [r [A B]]]] C]|[[a [r [A B]]] C]]; [left|right]; (split; [|exact C]).
  - exists p, q, r. split; [now apply I | exact B].
  - exists a, r. split; [exact A | now apply J].
Qed.
(** What the server does with the datagram of a request. *)
Lemma server_request sent w d : inv sent w -> a_request sent d -> exists w' out p,
  at_server remember d w = Ok w' /\ inv sent w' /\ wire w' = wire w ++ [out] /\ In p sent /\
  an_answer (keys w') out /\ In (of_request P p) (keys w') /\ completed w' = completed w /\
  (forall q, In q sent -> (exists q' r, deserialize (rc P) d = Ok (ROk q', r) /\ body q' = body (clear_lists q)) -> 
     In (of_request P q) (keys w') /\ exists a r, deserialize (ac P) out = Ok (ROk a, r) /\ of_answer P a = of_request P q).
Proof.
  destruct Sound as [Ir [Or [Ia [Oa [Ne [K [Kr [Ka [An Sn]]]]]]]]].
  intros [W [X [N C]]] [[p [q [r [Ip [D B]]]]] [ea [ra Da]]].
  destruct (Sn q) as [a' [out So]].
  destruct (sent_decodes m (ac P) _ _ _ Ia Oa So) as [[qa [rqa [Dq Bq]]] Oth].
  destruct (Oth (rc P) Ne) as [e2 [r2 D2]].
  assert (Ek : of_request P q = of_request P p) by (apply Kr; exact B).
  assert (Ea : of_answer P qa = of_request P p) by (rewrite (Ka _ _ Bq), An; exact Ek).
  set (w1 := if remember && known (of_request P q) w then w else mk_world (wire w) (executed w ++ [q]) (completed w)).
  assert (W1 : wire w1 = wire w /\ completed w1 = completed w /\ incl (keys w) (keys w1) /\ In (of_request P p) (keys w1)).
  { subst w1. destruct (remember && known (of_request P q) w) eqn:E; cbn [wire completed executed].
    - split; [reflexivity|]. split; [reflexivity|]. split; [apply incl_refl|]. rewrite <- Ek. apply known_iff.
      apply andb_true_iff in E. apply E.
    - split; [reflexivity|]. split; [reflexivity|]. unfold keys. cbn [executed]. rewrite map_app. cbn [map].
      split; [apply incl_appl, incl_refl|]. apply in_or_app. right. left. exact Ek. }
  destruct W1 as [W1 [C1 [K1 K2]]].
  assert (Ew : at_server remember d w = Ok (mk_world (wire w1 ++ [out]) (executed w1) (completed w1))).
  { unfold at_server. rewrite D. fold w1. unfold send. rewrite So. reflexivity. }
  assert (Ans : an_answer (keys w1) out).
  { split; [exists qa, rqa; split; [exact Dq | now rewrite Ea] | eauto]. }
  eexists. exists out, p. split; [exact Ew|]. cbn [wire completed executed]. 
  change (keys (mk_world (wire w1 ++ [out]) (executed w1) (completed w1))) with (keys w1).
  split; [|split; [now rewrite W1|]; split; [exact Ip|]; split; [exact Ans|]; split; [exact K2|]; split; [exact C1|]].
  - split; [|split; [|split]]; cbn [wire executed completed].
    + change (keys (mk_world (wire w1 ++ [out]) (executed w1) (completed w1))) with (keys w1).
      rewrite W1. apply Forall_app. split; [|constructor; [right; exact Ans | constructor]].
      exact (wire_more sent sent _ _ _ (incl_refl _) K1 W).
    + subst w1. destruct (remember && _); [exact X|]. cbn [executed]. apply Forall_app. split; [exact X|].
      constructor; [|constructor]. exists p. split; [exact Ip | exact B].
    + intros Er. change (NoDup (keys w1)). specialize (N Er). subst w1. rewrite Er in *. cbn [andb].
      destruct (known (of_request P q) w) eqn:Kn; [exact N|]. unfold keys. cbn [executed]. rewrite map_app. cbn [map].
      apply NoDup_Add with (a := of_request P q) (l := keys w).
      * unfold keys. rewrite <- (app_nil_r (map (of_request P) (executed w))) at 1. apply Add_app.
      * split; [exact N|]. intros In1. apply known_iff in In1. congruence.
    + change (Forall (fun k => In k (keys w1)) (completed w1)). rewrite C1. eapply Forall_impl; [|exact C]. intros k. apply K1.
  - intros q0 I0 [q' [r' [D' B']]]. rewrite D in D'. injection D' as <- _.
    assert (E0 : of_request P q0 = of_request P p) by (rewrite <- Ek; symmetry; apply Kr; exact B').
    rewrite E0. split; [exact K2|]. exists qa, rqa. split; [exact Dq | exact Ea].
Qed.
Lemma step_inv sent w e : inv sent w -> exists w', step remember requests e w = Ok w' /\ inv (sent ++ asked requests [e]) w'.
Proof.
  destruct Sound as [Ir [Or [Ia [Oa [Ne _]]]]]. intros V. destruct e as [i|j|j]; cbn [step asked flat_map].
  - destruct (nth_error requests i) as [p|] eqn:Ep; [|exists w; cbn [app]; rewrite app_nil_r; auto].
    assert (Ip := nth_error_In _ _ Ep). rewrite Forall_forall in Can. destruct (Can p Ip) as [p' [d S]].
    exists (mk_world (wire w ++ [d]) (executed w) (completed w)). split; [unfold send; now rewrite S|]. cbn [app].
    destruct V as [W [X [N C]]]. split; [|split; [|split]]; cbn [wire executed completed]; [| |exact N | exact C].
    + apply Forall_app. split; [exact (wire_more sent (sent ++ [p]) _ _ _ (incl_appl _ (incl_refl _)) (incl_refl _) W)|].
      constructor; [|constructor]. left. destruct (sent_decodes m (rc P) _ _ _ Ir Or S) as [[q [r [D B]]] Oth].
      split; [exists p, q, r; split; [apply in_or_app; right; now left | auto]|]. apply Oth. congruence.
    + eapply Forall_impl; [|exact X]. intros q [p0 [I B]]. exists p0. split; [apply in_or_app; now left | exact B].
  - cbn [app]. rewrite app_nil_r. destruct (nth_error (wire w) j) as [d|] eqn:Ed; [|eauto].
    assert (V' := V). destruct V' as [W _]. rewrite Forall_forall in W. destruct (W d (nth_error_In _ _ Ed)) as [R|[_ [x [r D]]]].
    + destruct (server_request sent w d V R) as [w' [_ [_ [E [V1 _]]]]]. eauto.
    + exists w. unfold at_server. rewrite D. auto.
  - cbn [app]. rewrite app_nil_r. destruct (nth_error (wire w) j) as [d|] eqn:Ed; [|eauto].
    assert (V' := V). destruct V' as [W [X [N C]]]. rewrite Forall_forall in W.
    destruct (W d (nth_error_In _ _ Ed)) as [[_ [x [r D]]]|[[a [r [D I]]] _]]; unfold at_client; rewrite D; [eauto|].
    eexists. split; [reflexivity|]. rewrite Forall_forall in X. split; [|split; [|split]]; cbn [wire executed completed].
    + apply Forall_forall. exact W.
    + apply Forall_forall. exact X.
    + exact N.
    + constructor; [exact I | exact C].
Qed.
Lemma run_inv : forall es sent w, inv sent w -> exists w', run remember requests es w = Ok w' /\ inv (sent ++ asked requests es) w'.
Proof.
  induction es as [|e es IH]; intros sent w V; [exists w; cbn; rewrite app_nil_r; auto|]. cbn [run].
  destruct (step_inv sent w e V) as [w1 [E V1]]. rewrite E. destruct (IH _ w1 V1) as [w' [R V']]. exists w'. split; [exact R|].
  rewrite <- app_assoc in V'. replace (asked requests (e :: es)) with (asked requests [e] ++ asked requests es); [exact V'|].
  unfold asked. cbn [flat_map]. now rewrite app_nil_r.
Qed.
Lemma start_inv : inv [] nothing.
Proof. repeat split; intros; constructor. Qed.
Lemma ask_now sent w i p : inv sent w -> nth_error requests i = Some p -> exists d w1, 
  step remember requests (Ask i) w = Ok w1 /\ inv (sent ++ [p]) w1 /\ wire w1 = wire w ++ [d] /\ executed w1 = executed w /\
  completed w1 = completed w /\ a_request (sent ++ [p]) d /\ exists q r, deserialize (rc P) d = Ok (ROk q, r) /\ body q = body (clear_lists p).
Proof.
  destruct Sound as [Ir [Or [Ia [Oa [Ne _]]]]]. intros V Ep. destruct (step_inv sent w (Ask i) V) as [w1 [E V1]].
  assert (E' := E). cbn [step] in E'. rewrite Ep in E'. unfold asked in V1. cbn [flat_map] in V1. rewrite Ep, app_nil_r in V1.
  assert (C' := Can). rewrite Forall_forall in C'. destruct (C' p (nth_error_In _ _ Ep)) as [p' [d S]].
  unfold send in E'. rewrite S in E'. injection E' as E'. exists d, w1. split; [exact E|]. split; [exact V1|]. subst w1.
  cbn [wire executed completed]. split; [reflexivity|]. split; [reflexivity|]. split; [reflexivity|].
  destruct (sent_decodes m (rc P) _ _ _ Ir Or S) as [[q [r [D B]]] Oth]. split; [|eauto].
  split; [|apply Oth; congruence]. exists p, q, r. split; [apply in_or_app; right; now left | auto].
Qed.
Lemma retry sent w i p : inv sent w -> nth_error requests i = Some p -> let n := length (wire w) in
  exists w', run remember requests [Ask i; ToServer n; ToClient (S n)] w = Ok w' /\
    In (of_request P p) (completed w') /\ In (of_request P p) (keys w') /\
    (remember = true -> In (of_request P p) (keys w) -> executed w' = executed w).
Proof.
  intros V Ep n. destruct (ask_now sent w i p V Ep) as [d [w1 [E1 [V1 [W1 [X1 [C1 [R1 D1]]]]]]]]. cbn [run]. rewrite E1. cbn [step].
  rewrite W1. unfold n. rewrite nth_last.
  destruct (server_request _ w1 d V1 R1) as [w2 [out [p2 [E2 [V2 [W2 [_ [_ [_ [C2 H]]]]]]]]]]. rewrite E2.
  destruct (H p ltac:(apply in_or_app; right; now left) D1) as [K2 [a [r [Da Ea]]]].
  rewrite W2, W1. replace (S (length (wire w))) with (length (wire w ++ [d])) by (rewrite app_length; cbn; lia).
  rewrite nth_last. unfold at_client. rewrite Da.
  eexists. split; [reflexivity|]. cbn [completed]. rewrite Ea. split; [now left|]. split; [exact K2|].
  intros Er Kn. cbn [executed]. rewrite <- X1. unfold at_server in E2.
  destruct D1 as [q [rq [D1 B1]]]. rewrite D1 in E2. destruct Sound as [_ [_ [_ [_ [_ [_ [Kr _]]]]]]].
  rewrite Er, (Kr p q B1) in E2. cbn [andb] in E2.
  assert (Kn1 : known (of_request P p) w1 = true) by (apply known_iff; unfold keys; rewrite X1; exact Kn).
  rewrite Kn1 in E2. unfold send in E2. destruct (serialize _ _ _) as [[[? ?] ?]|]; [|discriminate]. injection E2 as <-. reflexivity.
Qed.

Lemma run_app : forall a b (w : world P), run remember requests (a ++ b) w =
  match run remember requests a w with Ok w1 => run remember requests b w1 | Panic e => Panic e end.
Proof.
  induction a as [|e a IH]; intros b w; cbn [app run]; [reflexivity|]. destruct (step remember requests e w); [apply IH | reflexivity].
Qed.
Lemma send_grows c (p : pdu c) (w w' : world P) : send p w = Ok w' -> exists l, wire w' = wire w ++ l.
Proof.
  unfold send. destruct (serialize c p []) as [[[x y] out]|]; [|discriminate]. intros [= <-]. exists [out]. reflexivity.
Qed.
Lemma step_grows e (w w' : world P) : step remember requests e w = Ok w' -> exists l, wire w' = wire w ++ l.
Proof.
  assert (Z : exists l, wire w = wire w ++ l) by (exists []; symmetry; apply app_nil_r).
  destruct e as [i|j|j]; cbn [step].
  - destruct (nth_error requests i) as [p|]; [apply send_grows|]. intros [= <-]. exact Z.
  - destruct (nth_error (wire w) j) as [d|]; [|intros [= <-]; exact Z]. unfold at_server.
    destruct (deserialize (rc P) d) as [[[q|e] r]|e]; [| |discriminate]; [|intros [= <-]; exact Z].
    intros E. apply send_grows in E as [l E]. exists l. rewrite E. destruct (remember && _); reflexivity.
  - destruct (nth_error (wire w) j) as [d|]; [|intros [= <-]; exact Z]. unfold at_client.
    destruct (deserialize (ac P) d) as [[[q|e] r]|e]; [| |discriminate]; intros [= <-]; exact Z.
Qed.
Lemma run_grows : forall es (w w' : world P), run remember requests es w = Ok w' -> exists l, wire w' = wire w ++ l.
Proof.
  induction es as [|e es IH]; intros w w' R; cbn [run] in R.
  { injection R as <-. exists []. symmetry. apply app_nil_r. }
  destruct (step remember requests e w) as [w1|] eqn:E; [|discriminate].
  destruct (step_grows _ _ _ E) as [l1 E1], (IH _ _ R) as [l2 E2]. exists (l1 ++ l2). rewrite E2, E1. symmetry. apply app_assoc.
Qed.
Lemma nth_kept {A} (l1 l3 : list A) x : nth_error ((l1 ++ [x]) ++ l3) (length l1) = Some x.
Proof. rewrite nth_error_app1 by (rewrite app_length; cbn; lia). apply nth_last. Qed.
Lemma delivered sent w i p es2 es3 : inv sent w -> nth_error requests i = Some p ->
  exists w2 w', run remember requests (Ask i :: es2) w = Ok w2 /\
    run remember requests (ToServer (length (wire w)) :: es3 ++ [ToClient (length (wire w2))]) w2 = Ok w' /\
    In (of_request P p) (completed w') /\ In (of_request P p) (keys w').
Proof.
  intros V Ep. destruct (ask_now sent w i p V Ep) as [d [w1 [E1 [V1 [W1 [_ [_ [R1 D1]]]]]]]].
  destruct (run_inv es2 _ w1 V1) as [w2 [E2 V2]]. destruct (run_grows _ _ _ E2) as [l2 W2].
  assert (Hd : nth_error (wire w2) (length (wire w)) = Some d) by (rewrite W2, W1; apply nth_kept).
  assert (R2 : a_request ((sent ++ [p]) ++ asked requests es2) d).
  { destruct R1 as [[p0 [q [r [I D]]]] O]. split; [|exact O]. exists p0, q, r. split; [apply in_or_app; now left | exact D]. }
  destruct (server_request _ w2 d V2 R2) as [w3 [out [p3 [E3 [V3 [W3 [_ [_ [_ [_ H]]]]]]]]]].
  destruct (H p ltac:(apply in_or_app; left; apply in_or_app; right; now left) D1) as [K3 [a [r [Da Ea]]]].
  destruct (run_inv es3 _ w3 V3) as [w4 [E4 V4]]. destruct (run_grows _ _ _ E4) as [l4 W4].
  assert (Ho : nth_error (wire w4) (length (wire w2)) = Some out) by (rewrite W4, W3; apply nth_kept).
  assert (Ec : step remember requests (ToClient (length (wire w2))) w4 = Ok (mk_world (wire w4) (executed w4) (of_answer P a :: completed w4))).
  { cbn [step]. rewrite Ho. unfold at_client. rewrite Da. reflexivity. }
  exists w2. eexists. split; [cbn [run]; rewrite E1; exact E2|]. split.
  - cbn [run]. cbn [step]. rewrite Hd, E3. rewrite run_app, E4. cbn [run]. rewrite Ec. reflexivity.
  - cbn [completed]. split; [left; exact Ea|].
    destruct (step_inv _ w4 (ToClient (length (wire w2))) V4) as [w5 [E5 [_ [_ [_ C5]]]]]. rewrite Ec in E5. injection E5 as <-.
    apply Forall_inv in C5. rewrite Ea in C5. exact C5.
Qed.
End Handshake.

(** ** Whatever the network does *)
(** Nobody panics; the server carries out at most one request of each key; what it carries out was
    requested and has the fields of the request (its lists are empty, see C12); and a client is told
    that a request is done only if it has been. *)
Theorem C90_safe : forall m P requests es, sound m P -> Forall can_send requests ->
  exists w : world P, run true requests es nothing = Ok w /\
    NoDup (map (of_request P) (executed w)) /\
    Forall (fun q => exists p, In p (asked requests es) /\ body q = body (clear_lists p)) (executed w) /\
    Forall (fun k => In k (map (of_request P) (executed w))) (completed w).
Proof.
  intros m P requests es So Ca. destruct (run_inv m P requests true So Ca es [] nothing (start_inv P true)) as [w [R [_ [X [N C]]]]].
  exists w. split; [exact R|]. split; [exact (N eq_refl)|]. split; [exact X | exact C].
Qed.
(** Trying again works: at any time, a request that is sent once more and whose datagram and whose
    answer arrive is completed, and is not carried out a second time. *)
Theorem C90_retry : forall m P requests es (w : world P) i p, sound m P -> Forall can_send requests ->
  run true requests es nothing = Ok w -> nth_error requests i = Some p -> let n := length (wire w) in
  exists w', run true requests [Ask i; ToServer n; ToClient (S n)] w = Ok w' /\
    In (of_request P p) (completed w') /\ In (of_request P p) (map (of_request P) (executed w')) /\
    (In (of_request P p) (map (of_request P) (executed w)) -> executed w' = executed w).
Proof.
  intros m P requests es w i p So Ca R Ep n. destruct (run_inv m P requests true So Ca es [] nothing (start_inv P true)) as [w0 [R0 V]].
  rewrite R in R0. injection R0 as <-. destruct (retry m P requests true So Ca _ w i p V Ep) as [w' [R' [A [B C]]]].
  exists w'. split; [exact R'|]. split; [exact A|]. split; [exact B|]. exact (C eq_refl).
Qed.
(** And it does not matter when: whatever else happens before, between and after, if the datagram of
    a request reaches the server and the answer to it reaches the clients, the request is completed. *)
Theorem C90_delivered : forall m P requests es es2 es3 (w w2 : world P) i p, sound m P -> Forall can_send requests ->
  nth_error requests i = Some p ->
  run true requests es nothing = Ok w -> run true requests (es ++ Ask i :: es2) nothing = Ok w2 ->
  exists w', run true requests (es ++ (Ask i :: es2) ++ ToServer (length (wire w)) :: es3 ++ [ToClient (length (wire w2))]) nothing = Ok w' /\
    In (of_request P p) (completed w') /\ In (of_request P p) (map (of_request P) (executed w')).
Proof.
  intros m P requests es es2 es3 w w2 i p So Ca Ep R R2.
  destruct (run_inv m P requests true So Ca es [] nothing (start_inv P true)) as [w0 [R0 V]]. rewrite R in R0. injection R0 as <-.
  destruct (delivered m P requests true So Ca _ w i p es2 es3 V Ep) as [w2' [w' [E2 [E3 [A B]]]]].
  rewrite run_app, R in R2. rewrite E2 in R2. injection R2 as <-.
  exists w'. split; [|split; [exact A | exact B]]. rewrite run_app, R, run_app, E2. exact E3.
Qed.
(** A server that does not remember carries out a duplicated datagram twice. *)
Theorem C90_forgetful_refuted : forall m P (p : pdu (rc P)), sound m P -> can_send p ->
  exists (w : world P) q, run false [p] [Ask 0; ToServer 0; ToServer 0] nothing = Ok w /\ executed w = [q; q] /\ body q = body (clear_lists p).
Proof.
  intros m P p So [p' [d S]]. assert (So' := So). destruct So' as [Ir [Or [_ [_ [_ [_ [_ [_ [_ Sn]]]]]]]]].
  destruct (sent_decodes m (rc P) _ _ _ Ir Or S) as [[q [r [D B]]] _]. destruct (Sn q) as [a [out Sa]].
  cbn [run step nth_error]. unfold send at 1. rewrite S. cbn [wire nothing app nth_error executed completed].
  unfold at_server. rewrite D. cbn [andb]. unfold send. rewrite Sa. cbn [wire app nth_error executed completed].
  rewrite D. unfold send. rewrite Sa. eexists. exists q. split; [reflexivity|]. split; [reflexivity | exact B].
Qed.
(** Two requests with one key: the second is acknowledged and never carried out. *)
Theorem C90_same_key_refuted : forall m P (p p2 : pdu (rc P)), sound m P -> can_send p -> can_send p2 -> of_request P p2 = of_request P p ->
  exists (w : world P) q, run true [p; p2] [Ask 0; ToServer 0; Ask 1; ToServer 2; ToClient 3] nothing = Ok w /\
    executed w = [q] /\ body q = body (clear_lists p) /\ completed w = [of_request P p2].
Proof.
  intros m P p p2 So [p' [d S]] [p2' [d2 S2]] Ek. assert (So' := So). destruct So' as [Ir [Or [Ia [Oa [_ [K [Kr [Ka [An Sn]]]]]]]]].
  destruct (sent_decodes m (rc P) _ _ _ Ir Or S) as [[q [r [D B]]] _]. destruct (sent_decodes m (rc P) _ _ _ Ir Or S2) as [[q2 [r2 [D2 B2]]] _].
  destruct (Sn q) as [a [out Sa]]. destruct (Sn q2) as [a2 [out2 Sa2]].
  destruct (sent_decodes m (ac P) _ _ _ Ia Oa Sa2) as [[qa [ra [Da Ba]]] _].
  cbn [run step nth_error]. unfold send at 1. rewrite S. cbn [wire nothing app nth_error executed completed].
  unfold at_server at 1. rewrite D. cbn [known existsb executed andb wire completed app]. unfold send at 1. rewrite Sa.
  cbn [wire nothing app nth_error executed completed]. unfold send at 1. rewrite S2. cbn [wire app nth_error executed completed].
  unfold at_server. rewrite D2. unfold known. cbn [existsb executed andb].
  assert (Y : key_eqb P (of_request P q2) (of_request P q) = true) by (apply K; rewrite (Kr _ _ B2), (Kr _ _ B); exact Ek).
  rewrite Y. cbn [orb]. unfold send. rewrite Sa2. cbn [wire app nth_error executed completed]. unfold at_client. rewrite Da.
  eexists. exists q. split; [reflexivity|]. cbn [executed completed]. split; [reflexivity|]. split; [exact B|].
  rewrite (Ka _ _ Ba), An, (Kr _ _ B2). reflexivity.
Qed.

(** ** Instances *)
Lemma sends_cleared m c (p : pdu c) : In c (all_pdus m) -> ordinary c -> clear_lists p = p ->
  exists p' d, serialize c p [] = Ok (ROk tt, p', d).
Proof. intros I O E. destruct (DecodeFacts.cleared_serialize m c I O p E) as [p' [d [S _]]]. eauto. Qed.
Lemma pair_key (a b : EntityId * u32) : Equality.EntityId_eqb (fst a) (fst b) && Equality.uint_eqb (snd a) (snd b) = true <-> a = b.
Proof.
  destruct a as [e n], b as [e' n']. cbn [fst snd]. rewrite andb_true_iff, Prop_Equality.entity_iff, Prop_Equality.uint_eqb_iff.
  split; [intros [-> ->]; reflexivity | intros [= -> ->]; auto].
Qed.
Theorem C90_start_resume_sound : forall m server stamp flag, sound m (start_resume server stamp flag).
Proof.
  intros m server stamp flag. unfold sound, start_resume. cbn [rc ac key key_eqb of_request of_answer answer]. repeat apply conj.
  - unfold all_pdus; repeat (first [left; reflexivity | right]).
  - reflexivity.
  - unfold all_pdus; repeat (first [left; reflexivity | right]).
  - reflexivity.
  - discriminate.
  - exact pair_key.
  - intros p q E. unfold StartResumePdu_originating_entity_id, StartResumePdu_request_id. rewrite E. reflexivity.
  - intros p q E. unfold AcknowledgePdu_receiving_entity_id, AcknowledgePdu_request_id. rewrite E. reflexivity.
  - reflexivity.
  - intros p. destruct (C11_fixed_roundtrip m AcknowledgePdu
      (@mk_pdu AcknowledgePdu (header (pdu_new AcknowledgePdu stamp)) (server, (StartResumePdu_originating_entity_id p, (variant AcknowledgeFlag_spec 3 eq_refl, (flag, (StartResumePdu_request_id p, tt))))))
      []) as [p' [out [S _]]].
    + unfold all_pdus; repeat (first [left; reflexivity | right]).
    + split; reflexivity.
    + eauto.
Qed.
Theorem C90_action_sound : forall m server stamp status, sound m (action server stamp status).
Proof.
  intros m server stamp status. unfold sound, action. cbn [rc ac key key_eqb of_request of_answer answer]. repeat apply conj.
  - unfold all_pdus; repeat (first [left; reflexivity | right]).
  - reflexivity.
  - unfold all_pdus; repeat (first [left; reflexivity | right]).
  - reflexivity.
  - discriminate.
  - exact pair_key.
  - intros p q E. unfold ActionRequestPdu_originating_entity_id, ActionRequestPdu_request_id. rewrite E. reflexivity.
  - intros p q E. unfold ActionResponsePdu_receiving_entity_id, ActionResponsePdu_request_id. rewrite E. reflexivity.
  - reflexivity.
  - intros p. apply (sends_cleared m); [|reflexivity|reflexivity]. unfold all_pdus; repeat (first [left; reflexivity | right]).
Qed.
Theorem C90_start_resume_can_send : forall server stamp flag (p : pdu StartResumePdu), can_send (P := start_resume server stamp flag) p.
Proof.
  intros server stamp flag p. destruct (C11_fixed_roundtrip Checked StartResumePdu p []) as [p' [out [S _]]].
  - unfold all_pdus; repeat (first [left; reflexivity | right]).
  - split; reflexivity.
  - exists p', out. exact S.
Qed.

(** The requests of simulation management that are acknowledged (StopFreeze is not an ordinary class, see C21). *)
Ltac in_classes := unfold all_pdus; repeat (first [left; reflexivity | right]).
Lemma acknowledged_sound m c who number server stamp kind flag : In c (all_pdus m) -> ordinary c ->
  code (cls_type c) <> code (cls_type AcknowledgePdu) ->
  (forall p q : pdu c, body q = body (clear_lists p) -> who q = who p /\ number q = number p) ->
  sound m (acknowledged c who number server stamp kind flag).
Proof.
  intros I O N H. unfold sound, acknowledged. cbn [rc ac key key_eqb of_request of_answer answer].
  split; [exact I|]. split; [exact O|]. split; [in_classes|]. split; [reflexivity|]. split; [exact N|]. split; [exact pair_key|].
  split; [intros p q E; destruct (H p q E) as [-> ->]; reflexivity|].
  split; [intros p q E; unfold AcknowledgePdu_receiving_entity_id, AcknowledgePdu_request_id; rewrite E; reflexivity|].
  split; [reflexivity|]. intros p. apply (sends_cleared m); [in_classes | reflexivity | reflexivity].
Qed.
Lemma acknowledged_reliably_sound m c who number server stamp kind flag : In c (all_pdus m) -> ordinary c ->
  code (cls_type c) <> code (cls_type AcknowledgeReliablePdu) ->
  (forall p q : pdu c, body q = body (clear_lists p) -> who q = who p /\ number q = number p) ->
  sound m (acknowledged_reliably c who number server stamp kind flag).
Proof.
  intros I O N H. unfold sound, acknowledged_reliably. cbn [rc ac key key_eqb of_request of_answer answer].
  split; [exact I|]. split; [exact O|]. split; [in_classes|]. split; [reflexivity|]. split; [exact N|]. split; [exact pair_key|].
  split; [intros p q E; destruct (H p q E) as [-> ->]; reflexivity|].
  split; [intros p q E; unfold AcknowledgeReliablePdu_receiving_entity_id, AcknowledgeReliablePdu_request_id; rewrite E; reflexivity|].
  split; [reflexivity|]. intros p. apply (sends_cleared m); [in_classes | reflexivity | reflexivity].
Qed.
Theorem C90_management_sound : forall m server stamp kind flag,
  sound m (acknowledged CreateEntityPdu CreateEntityPdu_originating_entity_id CreateEntityPdu_request_id server stamp kind flag) /\
  sound m (acknowledged RemoveEntityPdu RemoveEntityPdu_originating_entity_id RemoveEntityPdu_request_id server stamp kind flag) /\
  sound m (acknowledged StartResumePdu StartResumePdu_originating_entity_id StartResumePdu_request_id server stamp kind flag) /\
  sound m (acknowledged_reliably CreateEntityReliablePdu CreateEntityReliablePdu_originating_entity_id CreateEntityReliablePdu_request_id server stamp kind flag) /\
  sound m (acknowledged_reliably RemoveEntityReliablePdu RemoveEntityReliablePdu_originating_entity_id RemoveEntityReliablePdu_request_id server stamp kind flag) /\
  sound m (acknowledged_reliably StartResumeReliablePdu StartResumeReliablePdu_originating_entity_id StartResumeReliablePdu_request_id server stamp kind flag).
Proof.
  intros m server stamp kind flag.
  refine (conj _ (conj _ (conj _ (conj _ (conj _ _))))); (first [apply acknowledged_sound | apply acknowledged_reliably_sound];
    [in_classes | reflexivity | discriminate | intros p q E]).
  - unfold CreateEntityPdu_originating_entity_id, CreateEntityPdu_request_id. rewrite E. split; reflexivity.
  - unfold RemoveEntityPdu_originating_entity_id, RemoveEntityPdu_request_id. rewrite E. split; reflexivity.
  - unfold StartResumePdu_originating_entity_id, StartResumePdu_request_id. rewrite E. split; reflexivity.
  - unfold CreateEntityReliablePdu_originating_entity_id, CreateEntityReliablePdu_request_id. rewrite E. split; reflexivity.
  - unfold RemoveEntityReliablePdu_originating_entity_id, RemoveEntityReliablePdu_request_id. rewrite E. split; reflexivity.
  - unfold StartResumeReliablePdu_originating_entity_id, StartResumeReliablePdu_request_id. rewrite E. split; reflexivity.
Qed.

(** So whatever the network does, the StartResume handshake is carried out once per request, with all
    fields of the request, and a client that got an Acknowledge knows that it was. *)
Theorem C90_start_resume : forall server stamp flag (requests : list (pdu StartResumePdu)) es,
  let P := start_resume server stamp flag in
  exists w : world P, run (P := P) true requests es nothing = Ok w /\
    NoDup (map (of_request P) (executed w)) /\
    Forall (fun q => exists p, In p (asked (P := P) requests es) /\ body q = body p) (executed w) /\
    forall e n, In (e, n) (completed w) -> exists q, In q (executed w) /\
      StartResumePdu_originating_entity_id q = e /\ StartResumePdu_request_id q = n.
Proof.
  intros server stamp flag requests es P.
  destruct (C90_safe Checked P requests es (C90_start_resume_sound Checked server stamp flag)) as [w [R [N [X C]]]].
  { apply Forall_forall. intros p _. apply C90_start_resume_can_send. }
  exists w. split; [exact R|]. split; [exact N|]. split.
  { eapply Forall_impl; [|exact X]. intros q [p [I B]]. exists p. split; [exact I|]. rewrite B. change (rc P) with StartResumePdu in p |- *.
    exact (f_equal body (clear_lists_id StartResumePdu p eq_refl)). }
  intros e n I. rewrite Forall_forall in C. specialize (C _ I).
  apply in_map_iff in C as [q [E Iq]]. injection E as E1 E2. exists q. auto.
Qed.
(** An ActionRequest is carried out once, too, but without its data: the requests arrive with empty
    lists of datum records, though with their counts. *)
Theorem C90_action_without_data : forall server stamp status (requests : list (pdu ActionRequestPdu)) es,
  let P := action server stamp status in Forall (can_send (P := P)) requests ->
  exists w : world P, run (P := P) true requests es nothing = Ok w /\
    NoDup (map (of_request P) (executed w)) /\
    Forall (fun q : pdu ActionRequestPdu => ActionRequestPdu_fixed_datum_records q = [] /\ ActionRequestPdu_variable_datum_records q = [] /\
      exists p, In p (asked (P := P) requests es) /\ ActionRequestPdu_request_id q = ActionRequestPdu_request_id p /\
        ActionRequestPdu_action_id q = ActionRequestPdu_action_id p /\
        ActionRequestPdu_number_of_fixed_datum_records q = ActionRequestPdu_number_of_fixed_datum_records p) (executed w).
Proof.
  intros server stamp status requests es P Ca.
  destruct (C90_safe Checked P requests es (C90_action_sound Checked server stamp status) Ca) as [w [R [N [X _]]]].
  exists w. split; [exact R|]. split; [exact N|]. eapply Forall_impl; [|exact X]. intros q [p [I B]].
  unfold ActionRequestPdu_fixed_datum_records, ActionRequestPdu_variable_datum_records, ActionRequestPdu_request_id, ActionRequestPdu_action_id,
    ActionRequestPdu_number_of_fixed_datum_records. change (rc P) with ActionRequestPdu in *. rewrite B.
  split; [reflexivity|]. split; [reflexivity|]. exists p. split; [exact I|]. repeat split; reflexivity.
Qed.

(** ** The hypotheses are met *)
(** Two clients with the same request number; the first request is delivered twice, an answer is
    delivered to the server and a request to the clients. *)
Definition request (entity number : N) : pdu StartResumePdu :=
  @mk_pdu StartResumePdu (header (pdu_new StartResumePdu (as_u32 1)))
    (mk_EntityId (mk_SimulationAddress (as_u16 1) (as_u16 1)) (as_u16 entity), (EntityId_default, (ClockTime_default, (ClockTime_default, (as_u32 number, tt))))).
Example C90_example :
  let P := start_resume EntityId_default (as_u32 5) (enum_default _) in
  match run (P := P) true [request 1 7; request 2 7] [Ask 0; ToServer 0; ToServer 0; Ask 1; ToServer 1; ToClient 0; ToServer 3; ToClient 1; ToClient 2] nothing with
  | Ok w => (length (wire w), map (fun k : EntityId * u32 => (uval (EntityId_entity_id (fst k)), uval (snd k))) (map (of_request P) (executed w)),
             map (fun k : EntityId * u32 => uval (EntityId_entity_id (fst k))) (completed w))
  | Panic _ => (0%nat, [], [])
  end = (5%nat, [(1, 7); (2, 7)], [1; 1]).
Proof. vm_compute. reflexivity. Qed.
(** An ActionRequest with a datum record can be sent. *)
Example C90_example_action :
  let P := action EntityId_default (as_u32 5) (enum_default _) in
  can_send (P := P) (@mk_pdu ActionRequestPdu (header (pdu_new ActionRequestPdu (as_u32 1)))
    (EntityId_default, (EntityId_default, (as_u32 7, (as_u32 1, (as_u32 1, (as_u32 0, ([mk_FixedDatumRecord (as_u32 3) (as_u32 4)], ([], tt))))))))).
Proof. cbv zeta. unfold can_send. eexists. eexists. vm_compute. reflexivity. Qed.

(** What the theorems above rest on (one traversal for all of them; not part of the model). *)
Definition Prop_Handshake_theorems : True :=
  let _ := @C90_safe in
  let _ := @C90_retry in
  let _ := @C90_delivered in
  let _ := @C90_forgetful_refuted in
  let _ := @C90_same_key_refuted in
  let _ := @C90_start_resume_sound in
  let _ := @C90_action_sound in
  let _ := @C90_management_sound in
  let _ := @C90_start_resume_can_send in
  let _ := @C90_start_resume in
  let _ := @C90_action_without_data in
  I.
Print Assumptions Prop_Handshake_theorems.
