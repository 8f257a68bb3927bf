(** * The example programs (C38, C39) and fresh PDUs (C47). *)
From Verif Require Import Base BaseFacts EnumModel Enums EnumFacts Header HeaderFacts HeaderProofs PduMacro PduMacroFacts
  DataTypes Pdus PduFields Spec PdusFacts ClassFacts PduProofs SpecDatum SpecSpecial Prop_Pdu Prop_Transmitter NewFacts Examples.

(** ** C47: a fresh PDU survives the wire *)
Theorem C47_new_roundtrip : forall m c ts buf, In c (all_pdus m) -> cls_name c <> "EntityStatePdu"%string ->
  exists out, serialize c (pdu_new c ts) buf = Ok (ROk tt, pdu_new c ts, buf ++ out) /\
    lenN out = default_size c /\
    forall rest, deserialize c (out ++ rest) = Ok (ROk (pdu_new c ts), rest).
Proof. intros m c ts buf I N. exact (new_all m c I N ts buf). Qed.

(** ** Specification vocabulary for the servers *)

(** What a 1024-byte receive buffer keeps of a datagram. *)
Definition truncated (p : packet) : packet := mk_packet (firstn 1024 (pk_data p)) (pk_peer p).
(** The datagrams received before the first receive error. *)
Fixpoint received (rs : list (option packet)) : list packet :=
  match rs with Some p :: rs' => p :: received rs' | _ => [] end.
(** The datagram a looping server is about to handle. *)
Definition pending (q : progress) : list packet :=
  match q with
  | Looping (mk_server buf (Some (n, peer))) => [mk_packet (firstn n buf) peer]
  | _ => []
  end.

(** Invariant: 1024-byte buffer, and a size that fits. *)
Definition server_ok (s : server) : Prop := length (sv_buf s) = 1024%nat /\
  match sv_to_send s with Some (n, _) => (n <= 1024)%nat | None => True end.
Lemma start_ok : server_ok server_start.
Proof. split; [vm_compute; reflexivity | exact I]. Qed.
Lemma receive_ok buf r : length buf = 1024%nat ->
  match server_receive buf r with
  | Looping s => server_ok s /\ exists p, r = Some p /\ pending (Looping s) = [truncated p]
  | Returned => r = None
  | Crashed _ => False
  end.
Proof.
  intros L. destruct r as [p|]; cbn [server_receive]; [|reflexivity].
  unfold recv_into. cbv beta iota zeta. split.
  - unfold server_ok. cbn [sv_buf sv_to_send]. rewrite L, app_length, firstn_length, skipn_length. lia.
  - exists p. split; [reflexivity|]. cbn [pending]. unfold truncated. f_equal. f_equal. rewrite L.
    destruct (Nat.le_ge_cases (length (pk_data p)) 1024) as [H|H].
    + rewrite Nat.min_l by lia. rewrite !firstn_all2 with (l := pk_data p) by lia.
      rewrite firstn_app, Nat.sub_diag, firstn_all, app_nil_r. reflexivity.
    + rewrite Nat.min_r by lia. rewrite firstn_app, firstn_length, Nat.min_l, Nat.sub_diag, app_nil_r by lia.
      rewrite firstn_firstn. reflexivity.
Qed.
Lemma slice_ok s n peer : server_ok s -> sv_to_send s = Some (n, peer) ->
  slice_to n (sv_buf s) = Ok (firstn n (sv_buf s)) /\ pending (Looping s) = [mk_packet (firstn n (sv_buf s)) peer].
Proof.
  intros [L O] E. rewrite E in O. destruct s as [buf ts]. cbn [sv_buf sv_to_send] in *. subst ts. split; [|reflexivity].
  unfold slice_to. rewrite L. destruct (Nat.leb_spec n 1024); [reflexivity | lia].
Qed.

(** ** C38: the echo server *)
Lemma echo_run_ok env : forall s, server_ok s ->
  let '(sent, q) := echo_run s env in
  (forall e, q <> Crashed e) /\
  (exists lost, pending (Looping s) ++ map truncated (received (map snd env)) = sent ++ pending q ++ lost /\
     (match q with Looping _ => lost = [] | _ => True end)) /\
  (Forall (fun x => fst x = true) env -> ~ In None (map snd env) -> exists s', q = Looping s').
Proof.
  induction env as [|[ok r] env IH]; intros s K; cbn [echo_run].
  - split; [discriminate|]. split; [|eauto]. exists []. split; [cbn [map received app]; rewrite !app_nil_r; reflexivity | reflexivity].
  - assert (G : forall s0 out, server_ok s0 -> sv_buf s0 = sv_buf s -> pending (Looping s) = out ->
      let '(o, q) := (out, server_receive (sv_buf s) r) in
      let '(sent, q) := match q with Looping s' => let '(out', q') := echo_run s' env in (o ++ out', q') | _ => (o, q) end in
      (forall e, q <> Crashed e) /\
      (exists lost, pending (Looping s) ++ map truncated (received (map snd ((ok, r) :: env))) = sent ++ pending q ++ lost /\
        (match q with Looping _ => lost = [] | _ => True end)) /\
      (Forall (fun x => fst x = true) ((ok, r) :: env) -> ~ In None (map snd ((ok, r) :: env)) -> exists s', q = Looping s')).
    { intros s0 out _ _ P. cbv beta iota. assert (R := receive_ok (sv_buf s) r (proj1 K)).
      destruct (server_receive (sv_buf s) r) as [s'| |e]; [| |contradiction].
      - destruct R as [K' [p [-> P']]]. specialize (IH s' K'). destruct (echo_run s' env) as [sent q]. destruct IH as [I1 [[lost [I2 I3]] I4]].
        split; [exact I1|]. split.
        + exists lost. split; [|exact I3]. cbn [map snd received]. rewrite P' in I2. cbn [app] in I2.
          rewrite P, <- app_assoc, <- I2. reflexivity.
        + intros F N. inversion F as [|x l F1 F2]; subst. apply I4; [exact F2 | intros H; apply N; right; exact H].
      - subst r. split; [discriminate|]. split.
        + exists []. split; [rewrite P; change (pending Returned) with (@nil packet); cbn [map snd received app]; rewrite !app_nil_r; reflexivity | exact I].
        + intros _ N. exfalso. apply N. left. reflexivity. }
    unfold echo_iteration. destruct (sv_to_send s) as [[n peer]|] eqn:E.
    + destruct (slice_ok s n peer K E) as [-> P]. destruct ok.
      * exact (G s _ K eq_refl P).
      * cbv beta iota. split; [discriminate|]. split; [|intros F; inversion F; subst; discriminate].
        exists (pending (Looping s) ++ map truncated (received (map snd ((false, r) :: env)))). split; [reflexivity | exact I].
    + refine (G s [] K eq_refl _). destruct s as [buf ts]. cbn [sv_to_send] in E. subst ts. reflexivity.
Qed.

(** For every history of the echo server (any datagrams, any send or receive failures): it
    never crashes; the datagrams sent are, in order, the datagrams received (cut to 1024
    bytes), each to its own sender, and while it keeps looping at most the last one is still
    to be sent. *)
Theorem C38_echo : forall env, let '(sent, q) := echo_run server_start env in
  (forall e, q <> Crashed e) /\
  (exists lost, map truncated (received (map snd env)) = sent ++ pending q ++ lost /\
     (match q with Looping _ => lost = [] | _ => True end)) /\
  (length (pending q) <= 1)%nat.
Proof.
  intros env. assert (H := echo_run_ok env server_start start_ok). destruct (echo_run server_start env) as [sent q].
  destruct H as [H1 [[lost [H2 H3]] H4]]. split; [exact H1|]. split; [exists lost; split; [exact H2 | exact H3]|].
  destruct q as [[buf [[n p]|]]| |]; cbn; lia.
Qed.
(** Without I/O errors it loops for ever, so everything is echoed: verbatim if the datagrams
    have at most 1024 bytes. *)
Theorem C38_echo_verbatim : forall ds, Forall (fun p => (length (pk_data p) <= 1024)%nat) ds ->
  let '(sent, q) := echo_run server_start (map (fun p => (true, Some p)) ds) in
  (exists s, q = Looping s) /\ sent ++ pending q = ds.
Proof.
  intros ds F. set (env := map _ ds). assert (H := echo_run_ok env server_start start_ok). destruct (echo_run server_start env) as [sent q].
  destruct H as [_ [[lost [H2 H3]] H4]].
  assert (M : map snd env = map Some ds) by (unfold env; rewrite map_map; apply map_ext; reflexivity).
  destruct H4 as [s' ->].
  - unfold env. apply Forall_forall. intros x Hx. apply in_map_iff in Hx. destruct Hx as [p [<- _]]. reflexivity.
  - rewrite M. intros H. apply in_map_iff in H. destruct H as [p [[=] _]].
  - split; [eauto|]. rewrite H3, app_nil_r in H2. rewrite <- H2, M. cbn [pending server_start app].
    clear - F. induction F as [|p ds Hp F IH]; [reflexivity|]. cbn [map received]. f_equal; [|exact IH].
    unfold truncated. rewrite firstn_all2 by exact Hp. destruct p; reflexivity.
Qed.

(** Whatever arrives, the client does not crash: 1024 bytes are enough for an Acknowledge. *)
Lemma recv_zero d : recv_into (zero_bytes 1024) d = (Nat.min (length d) 1024, firstn 1024 d ++ repeat (B 0) (1024 - length d)).
Proof.
  assert (L : length (zero_bytes 1024) = 1024%nat) by apply repeat_length.
  unfold recv_into. rewrite L. f_equal. f_equal. unfold zero_bytes. generalize 1024%nat. generalize (length d). clear.
  induction n as [|n IH]; intros k; [rewrite Nat.sub_0_r; reflexivity|]. destruct k as [|k]; [reflexivity|]. cbn [repeat skipn Nat.sub]. apply IH.
Qed.
Lemma buffer_length d : length (firstn 1024 d ++ repeat (B 0) (1024 - length d)) = 1024%nat.
Proof. rewrite app_length, firstn_length, repeat_length. lia. Qed.
Theorem C38_client_never_panics : forall ts ds, exists r, ack_client_recv ts ds = Ok r /\
  (r = None <-> Forall (fun d => d = []) ds).
Proof.
  intros ts ds. induction ds as [|d ds [r [IH1 IH2]]]; [exists None; split; [reflexivity | split; auto]|].
  cbn [ack_client_recv]. rewrite recv_zero. cbv beta iota.
  destruct (Nat.ltb_spec 0 (Nat.min (length d) 1024)) as [Pos|Z].
  - set (buf := firstn 1024 d ++ _). assert (L := buffer_length d : length buf = 1024%nat).
    assert (NP : forall e, deserialize AcknowledgePdu buf <> Panic e).
    { intros e E. assert (X : exists e, deserialize AcknowledgePdu buf = Panic e) by eauto.
      apply (C14_panics_iff_short Checked AcknowledgePdu buf ltac:(cbn; tauto) eq_refl) in X.
      unfold lenN in X. rewrite L in X. change (default_size AcknowledgePdu) with 32 in X. lia. }
    assert (ND : d <> []) by (intros ->; cbn in Pos; lia).
    destruct (deserialize AcknowledgePdu buf) as [[[p|e] rest]|e] eqn:D; [| |exfalso; exact (NP e eq_refl)];
      (eexists; split; [reflexivity|]; split; [discriminate | intros F; inversion F; contradiction]).
  - exists r. split; [exact IH1|]. assert (ED : d = []) by (destruct d; [reflexivity | cbn in Z; lia]). subst d.
    rewrite IH2. split; [auto | intros F; inversion F; assumption].
Qed.

(** End to end: the datagram the client sends, echoed by the server whatever else the server
    received before and after it, is shown by the client as the PDU it sent. *)
Theorem C38_end_to_end : forall ts ts' before after me, exists d,
  ack_client_send ts = Ok d /\
  let '(sent, q) := echo_run server_start (map (fun p => (true, Some p)) (before ++ mk_packet d me :: after)) in
  nth_error (sent ++ pending q) (length before) = Some (mk_packet d me) /\
  ack_client_recv ts' [d] = Ok (Some (pdu_new AcknowledgePdu ts)).
Proof.
  intros ts ts' before after me.
  destruct (C47_new_roundtrip Checked AcknowledgePdu ts [] ltac:(cbn; tauto) ltac:(discriminate)) as [d [S [L D]]].
  change (default_size AcknowledgePdu) with 32 in L. unfold lenN in L.
  exists d. split; [unfold ack_client_send; rewrite S; reflexivity|].
  set (env := map _ _). assert (H := echo_run_ok env server_start start_ok). destruct (echo_run server_start env) as [sent q].
  destruct H as [_ [[lost [H2 H3]] H4]].
  assert (M : map snd env = map Some (before ++ mk_packet d me :: after)) by (unfold env; rewrite map_map; apply map_ext; reflexivity).
  destruct H4 as [s' ->].
  - unfold env. apply Forall_forall. intros x Hx. apply in_map_iff in Hx. destruct Hx as [p [<- _]]. reflexivity.
  - rewrite M. intros H. apply in_map_iff in H. destruct H as [p [[=] _]].
  - split.
    + rewrite H3, app_nil_r in H2. rewrite <- H2, M. cbn [pending server_start app].
      assert (R : forall ds, received (map Some ds) = ds) by (induction ds as [|x ds IH]; [reflexivity | cbn [map received]; rewrite IH; reflexivity]).
      rewrite R, map_app, nth_error_app2; rewrite map_length; [|lia]. rewrite Nat.sub_diag. cbn [map nth_error].
      unfold truncated. cbn [pk_data pk_peer]. rewrite firstn_all2 by lia. reflexivity.
    + cbn [ack_client_recv]. rewrite recv_zero. cbv beta iota.
      destruct (Nat.ltb_spec 0 (Nat.min (length d) 1024)) as [_|Z]; [|lia].
      rewrite firstn_all2 by lia. rewrite D. reflexivity.
Qed.
(** A reply of another type is shown as a default Acknowledge. *)
Theorem C38_other_reply : forall ts d ds, d <> [] -> wire_type (firstn 1024 d ++ repeat (B 0) (1024 - length d)) <> 15 ->
  ack_client_recv ts (d :: ds) = Ok (Some (pdu_default AcknowledgePdu ts)).
Proof.
  intros ts d ds N T. cbn [ack_client_recv]. rewrite recv_zero. cbv beta iota.
  destruct (Nat.ltb_spec 0 (Nat.min (length d) 1024)) as [_|Z]; [|destruct d; [contradiction | cbn in Z; lia]].
  set (buf := firstn 1024 d ++ _) in *. assert (L := buffer_length d : length buf = 1024%nat).
  destruct (deserialize_cases AcknowledgePdu buf ltac:(lia)) as [h [_ [_ E]]]. rewrite E.
  destruct (N.eqb_spec (wire_type buf) (code (cls_type AcknowledgePdu))) as [K|_]; [|reflexivity].
  exfalso. apply T. rewrite K. reflexivity.
Qed.
Example C38_example : fst (echo_run server_start [(true, Some (mk_packet (map B [1; 2; 3]) 7)); (true, Some (mk_packet (map B [4]) 8)); (true, None)])
  = [mk_packet (map B [1; 2; 3]) 7; mk_packet (map B [4]) 8].
Proof. vm_compute. reflexivity. Qed.

(** ** C39: the radio server *)

(** Bytes needed to decode a datagram of one of the five radio types; [None] for other types. *)
Definition radio_needed (bs : bytes) : option nat :=
  match byte_at bs 2 with
  | 25 => Some (104 + N.to_nat (byte_at bs 100))%nat
  | 26 => Some 32%nat
  | 27 => Some 36%nat
  | 31 => Some 32%nat
  | 32 => Some 40%nat
  | _ => None
  end.
(** [x] is the PDU decoded from [bs], labelled with the name of its class. *)
Definition radio_result (bs : bytes) (x : ParsedPdu) : Prop :=
  match x with
  | Transmitter p => byte_at bs 2 = 25 /\ exists rest, deserialize TransmitterPdu bs = Ok (ROk p, rest)
  | Signal p => byte_at bs 2 = 26 /\ exists rest, deserialize SignalPdu bs = Ok (ROk p, rest)
  | Receiver p => byte_at bs 2 = 27 /\ exists rest, deserialize ReceiverPdu bs = Ok (ROk p, rest)
  | IntercomSignal p => byte_at bs 2 = 31 /\ exists rest, deserialize IntercomSignalPdu bs = Ok (ROk p, rest)
  | IntercomControl p => byte_at bs 2 = 32 /\ exists rest, deserialize IntercomControlPdu bs = Ok (ROk p, rest)
  end.
Lemma type_is t : forall h bs, code (pdu_type h) = wire_type bs -> enum_eqb (pdu_type h) t = (wire_type bs =? code t).
Proof. intros h bs T. unfold enum_eqb. rewrite T. reflexivity. Qed.
Lemma wire_type_byte bs k : 0 < k <= 72 -> wire_type bs = k <-> byte_at bs 2 = k.
Proof. intros K. unfold wire_type. destruct (N.leb_spec (byte_at bs 2) 72); lia. Qed.
Lemma ok_map_read {c} (f : pdu c -> ParsedPdu) bs n : (12 <= length bs)%nat ->
  ((length bs < n)%nat -> exists e, deserialize c bs = Panic e) ->
  ((n <= length bs)%nat -> exists p rest, deserialize c bs = Ok (ROk p, rest)) ->
  ((exists e, ok_map f (deserialize c bs) = Panic e) <-> (length bs < n)%nat) /\
  (forall x, ok_map f (deserialize c bs) = Ok x -> exists p rest, x = Some (f p) /\ deserialize c bs = Ok (ROk p, rest)).
Proof.
  intros L H1 H2. destruct (Nat.lt_ge_cases (length bs) n) as [K|K].
  - destruct (H1 K) as [e E]. rewrite E. cbn [ok_map]. split; [split; eauto | discriminate].
  - destruct (H2 K) as [p [r E]]. rewrite E. cbn [ok_map]. split; [split; [intros [e [=]] | lia]|]. intros x [= <-]. eauto.
Qed.
Lemma ordinary_read c bs : In c (all_pdus Checked) -> ordinary c -> wire_type bs = code (cls_type c) -> (12 <= length bs)%nat ->
  ((length bs < N.to_nat (default_size c))%nat -> exists e, deserialize c bs = Panic e) /\
  ((N.to_nat (default_size c) <= length bs)%nat -> exists p rest, deserialize c bs = Ok (ROk p, rest)).
Proof.
  intros I O T L. assert (P := C14_panics_iff_short Checked c bs I O). unfold lenN in P. split; intros K.
  - apply P. right. split; [exact T | lia].
  - destruct (deserialize c bs) as [[[p|e] r]|e] eqn:D; [eauto| |].
    + destruct (deserialize_cases c bs L) as [h [_ [_ E]]]. rewrite T, N.eqb_refl, D in E. unfold deserialize_without_header in E.
      destruct (body_deserialize _ _ _) as [[? ?]|]; discriminate.
    + destruct P as [P _]. destruct P as [H|[_ H]]; [eauto | lia | lia].
Qed.

Lemma dispatch_cases bs : (12 <= length bs)%nat -> deserialize_pdu bs =
  if wire_type bs =? 25 then ok_map Transmitter (deserialize TransmitterPdu bs)
  else if wire_type bs =? 26 then ok_map Signal (deserialize SignalPdu bs)
  else if wire_type bs =? 27 then ok_map Receiver (deserialize ReceiverPdu bs)
  else if wire_type bs =? 31 then ok_map IntercomSignal (deserialize IntercomSignalPdu bs)
  else if wire_type bs =? 32 then ok_map IntercomControl (deserialize IntercomControlPdu bs)
  else Ok None.
Proof.
  intros L. destruct (get_pdu_type_spec bs L) as [h [_ [G T]]]. unfold deserialize_pdu. rewrite G.
  rewrite !(type_is _ h bs T).
  change (code PduType_Transmitter) with 25. change (code PduType_Signal) with 26. change (code PduType_Receiver) with 27.
  change (code PduType_IntercomSignal) with 31. change (code PduType_IntercomControl) with 32. reflexivity.
Qed.

(** Exactly what [deserialize_pdu] does with any byte string. *)
Theorem C39_dispatch : forall bs,
  ((exists e, deserialize_pdu bs = Panic e) <->
     (12 <= length bs)%nat /\ exists n, radio_needed bs = Some n /\ (length bs < n)%nat) /\
  (deserialize_pdu bs = Ok None <-> (length bs < 12)%nat \/ radio_needed bs = None) /\
  (forall x, deserialize_pdu bs = Ok (Some x) -> radio_result bs x).
Proof.
  intros bs. destruct (Nat.lt_ge_cases (length bs) 12) as [L|L].
  { unfold deserialize_pdu. rewrite (get_pdu_type_short bs L). split; [split; [intros [e [=]] | lia]|]. split; [tauto | discriminate]. }
  rewrite (dispatch_cases bs L).
  assert (G : forall k n c (f : pdu c -> ParsedPdu), wire_type bs = k -> 0 < k <= 72 -> radio_needed bs = Some n ->
    ((length bs < n)%nat -> exists e, deserialize c bs = Panic e) ->
    ((n <= length bs)%nat -> exists p rest, deserialize c bs = Ok (ROk p, rest)) ->
    (forall p, (byte_at bs 2 = k /\ exists rest, deserialize c bs = Ok (ROk p, rest)) -> radio_result bs (f p)) ->
    ((exists e, ok_map f (deserialize c bs) = Panic e) <->
       (12 <= length bs)%nat /\ exists n, radio_needed bs = Some n /\ (length bs < n)%nat) /\
    (ok_map f (deserialize c bs) = Ok None <-> (length bs < 12)%nat \/ radio_needed bs = None) /\
    (forall x, ok_map f (deserialize c bs) = Ok (Some x) -> radio_result bs x)).
  { intros k n c f T K R H1 H2 H3. destruct (ok_map_read f bs n L H1 H2) as [E1 E2]. split; [|split].
    - rewrite E1. split; [intros H; split; [exact L | eauto] | intros [_ [n' [H H']]]; rewrite R in H; injection H as <-; exact H'].
    - split; [intros H; destruct (E2 _ H) as [p [r [[=] _]]] | intros [H|H]; [lia | congruence]].
    - intros x H. destruct (E2 _ H) as [p [r [[= ->] D]]]. apply H3. split; [apply (wire_type_byte bs k K), T | eauto]. }
  destruct (N.eqb_spec (wire_type bs) 25) as [T|N1].
  { destruct (C29_transmitter_decode bs T) as [H1 H2]. refine (G 25 (104 + N.to_nat (byte_at bs 100))%nat TransmitterPdu Transmitter T ltac:(lia) _ _ _ _).
    - unfold radio_needed. rewrite (proj1 (wire_type_byte bs 25 ltac:(lia)) T). reflexivity.
    - eauto.
    - intros H. destruct (H2 H) as [p [D _]]. eauto.
    - intros p H. exact H. }
  destruct (N.eqb_spec (wire_type bs) 26) as [T|N2].
  { destruct (ordinary_read SignalPdu bs ltac:(cbn; tauto) eq_refl T L) as [H1 H2].
    refine (G 26 32%nat SignalPdu Signal T ltac:(lia) _ H1 H2 (fun p H => H)).
    unfold radio_needed. rewrite (proj1 (wire_type_byte bs 26 ltac:(lia)) T). reflexivity. }
  destruct (N.eqb_spec (wire_type bs) 27) as [T|N3].
  { destruct (ordinary_read ReceiverPdu bs ltac:(cbn; tauto) eq_refl T L) as [H1 H2].
    refine (G 27 36%nat ReceiverPdu Receiver T ltac:(lia) _ H1 H2 (fun p H => H)).
    unfold radio_needed. rewrite (proj1 (wire_type_byte bs 27 ltac:(lia)) T). reflexivity. }
  destruct (N.eqb_spec (wire_type bs) 31) as [T|N4].
  { destruct (ordinary_read IntercomSignalPdu bs ltac:(cbn; tauto) eq_refl T L) as [H1 H2].
    refine (G 31 32%nat IntercomSignalPdu IntercomSignal T ltac:(lia) _ H1 H2 (fun p H => H)).
    unfold radio_needed. rewrite (proj1 (wire_type_byte bs 31 ltac:(lia)) T). reflexivity. }
  destruct (N.eqb_spec (wire_type bs) 32) as [T|N5].
  { destruct (ordinary_read IntercomControlPdu bs ltac:(cbn; tauto) eq_refl T L) as [H1 H2].
    refine (G 32 40%nat IntercomControlPdu IntercomControl T ltac:(lia) _ H1 H2 (fun p H => H)).
    unfold radio_needed. rewrite (proj1 (wire_type_byte bs 32 ltac:(lia)) T). reflexivity. }
  assert (R : radio_needed bs = None).
  { rewrite (wire_type_byte bs 25) in N1 by lia. rewrite (wire_type_byte bs 26) in N2 by lia. rewrite (wire_type_byte bs 27) in N3 by lia.
    rewrite (wire_type_byte bs 31) in N4 by lia. rewrite (wire_type_byte bs 32) in N5 by lia. unfold radio_needed.
    destruct (byte_at bs 2) as [|p]; [reflexivity|]. do 6 (destruct p as [p|p|]; try reflexivity; try (exfalso; lia)). }
  rewrite R. split; [split; [intros [e [=]] | intros [_ [n [[=] _]]]]|]. split; [tauto | discriminate].
Qed.

(** For every history: the server reports, in order, on every datagram received (cut to 1024
    bytes) until it is given one whose decoding panics; then it crashes. *)
Definition reported (d : packet) (r : report) : Prop :=
  deserialize_pdu (pk_data d) = Ok (rp_pdu r) /\ rp_peer r = pk_peer d /\ rp_size r = length (pk_data d).
Lemma radio_run_ok env : forall s, server_ok s ->
  let '(out, q) := radio_run s env in
  exists done rest, pending (Looping s) ++ map truncated (received env) = done ++ pending q ++ rest /\
    Forall2 reported done out /\
    match q with
    | Crashed e => exists d rest', rest = d :: rest' /\ deserialize_pdu (pk_data d) = Panic e
    | _ => rest = []
    end.
Proof.
  induction env as [|r env IH]; intros s K; cbn [radio_run].
  - exists [], []. split; [cbn [map received app]; rewrite !app_nil_r; reflexivity|]. split; [constructor | reflexivity].
  - assert (G : forall out, Forall2 reported (pending (Looping s)) out ->
      let '(o, q) := (out, server_receive (sv_buf s) r) in
      let '(out, q) := match q with Looping s' => let '(out', q') := radio_run s' env in (o ++ out', q') | _ => (o, q) end in
      exists done rest, pending (Looping s) ++ map truncated (received (r :: env)) = done ++ pending q ++ rest /\
        Forall2 reported done out /\
        match q with Crashed e => exists d rest', rest = d :: rest' /\ deserialize_pdu (pk_data d) = Panic e | _ => rest = [] end).
    { intros out F. cbv beta iota. assert (R := receive_ok (sv_buf s) r (proj1 K)).
      destruct (server_receive (sv_buf s) r) as [s'| |e]; [| |contradiction].
      - destruct R as [K' [p [-> P']]]. specialize (IH s' K'). destruct (radio_run s' env) as [out' q]. destruct IH as [dn [rest [I1 [I2 I3]]]].
        exists (pending (Looping s) ++ dn), rest. split; [|split; [apply Forall2_app; assumption | exact I3]].
        rewrite P' in I1. cbn [received map app] in *. rewrite I1, <- app_assoc. reflexivity.
      - subst r. exists (pending (Looping s)), []. split; [|split; [exact F | reflexivity]].
        change (pending Returned) with (@nil packet). cbn [received map]. reflexivity. }
    unfold radio_iteration. destruct (sv_to_send s) as [[n peer]|] eqn:E.
    + destruct (slice_ok s n peer K E) as [-> P]. destruct (deserialize_pdu (firstn n (sv_buf s))) as [x|e] eqn:D.
      * refine (G _ _). rewrite P. constructor; [|constructor]. repeat split; [exact D|]. cbn [rp_size pk_data].
        destruct K as [K1 K2]. rewrite E in K2. rewrite firstn_length. lia.
      * exists [], (pending (Looping s) ++ map truncated (received (r :: env))). split; [reflexivity|]. split; [constructor|].
        rewrite P. eexists _, _. split; [reflexivity | exact D].
    + refine (G [] _). destruct s as [buf ts]. cbn [sv_to_send] in E. subst ts. constructor.
Qed.
Theorem C39_history : forall env, let '(out, q) := radio_run server_start env in
  exists done rest, map truncated (received env) = done ++ pending q ++ rest /\
    Forall2 reported done out /\
    match q with
    | Crashed e => exists d rest', rest = d :: rest' /\ deserialize_pdu (pk_data d) = Panic e
    | _ => rest = []
    end.
Proof. intros env. exact (radio_run_ok env server_start start_ok). Qed.
(** Robustness is false: one 12-byte datagram of type 26 stops the server. *)
Theorem C39_robust_refuted : forall r, exists d e, length (pk_data d) = 12%nat /\
  snd (radio_run server_start [Some d; r]) = Crashed e.
Proof. intros r. exists (mk_packet (map B [7; 1; 26; 4; 0; 0; 0; 0; 0; 32; 0; 0]) 1). eexists. split; [reflexivity|]. vm_compute. reflexivity. Qed.

(** End to end: whatever selection, order and repetition of the client's five datagrams
    reaches the server, it never crashes and reports every one as the PDU that was created. *)
Definition radio_new (ts : u32) (x : ParsedPdu) : Prop :=
  match x with
  | Transmitter p => p = pdu_new TransmitterPdu ts
  | Signal p => p = pdu_new SignalPdu ts
  | Receiver p => p = pdu_new ReceiverPdu ts
  | IntercomSignal p => p = pdu_new IntercomSignalPdu ts
  | IntercomControl p => p = pdu_new IntercomControlPdu ts
  end.
Definition kind (x : ParsedPdu) : nat :=
  match x with Transmitter _ => 0 | Signal _ => 1 | Receiver _ => 2 | IntercomSignal _ => 3 | IntercomControl _ => 4 end.
Lemma client_datagram_decoded c ts (f : pdu c -> ParsedPdu) k : In c (all_pdus Checked) -> cls_name c <> "EntityStatePdu"%string ->
  default_size c <= 1024 -> code (cls_type c) = k ->
  (forall bs, (12 <= length bs)%nat -> wire_type bs = k -> deserialize_pdu bs = ok_map f (deserialize c bs)) ->
  exists d, client_datagram c (pdu_new c ts) = Ok d /\ (length d <= 1024)%nat /\ deserialize_pdu d = Ok (Some (f (pdu_new c ts))).
Proof.
  intros I N Z <- H. destruct (C47_new_roundtrip Checked c ts [] I N) as [d [S [L D]]]. exists d.
  split; [unfold client_datagram; rewrite S; reflexivity|]. unfold lenN in L. split; [lia|].
  specialize (D []). rewrite app_nil_r in D.
  assert (G := default_size_ge Checked c I). rewrite H; [rewrite D; reflexivity | lia |].
  destruct (deserialize_cases c d ltac:(lia)) as [h [_ [_ E]]]. rewrite D in E.
  destruct (N.eqb_spec (wire_type d) (code (cls_type c))) as [K|]; [exact K | discriminate].
Qed.
Theorem C39_end_to_end : forall ts i, (i < 5)%nat -> exists d x,
  nth_error (radio_client_pdus ts) i = Some (Ok d) /\ (length d <= 1024)%nat /\
  deserialize_pdu d = Ok (Some x) /\ kind x = i /\ radio_new (ts i) x.
Proof.
  intros ts i K. unfold radio_client_pdus.
  destruct i as [|[|[|[|[|i]]]]]; [..|lia]; cbn [nth_error].
  - destruct (client_datagram_decoded TransmitterPdu (ts 0%nat) Transmitter 25) as [d [-> [L D]]];
      [cbn; tauto | discriminate | vm_compute; discriminate | reflexivity | intros bs L T; rewrite dispatch_cases, T by exact L; reflexivity |].
    exists d, (Transmitter (pdu_new TransmitterPdu (ts 0%nat))). repeat split; assumption.
  - destruct (client_datagram_decoded SignalPdu (ts 1%nat) Signal 26) as [d [-> [L D]]];
      [cbn; tauto | discriminate | vm_compute; discriminate | reflexivity | intros bs L T; rewrite dispatch_cases, T by exact L; reflexivity |].
    exists d, (Signal (pdu_new SignalPdu (ts 1%nat))). repeat split; assumption.
  - destruct (client_datagram_decoded ReceiverPdu (ts 2%nat) Receiver 27) as [d [-> [L D]]];
      [cbn; tauto | discriminate | vm_compute; discriminate | reflexivity | intros bs L T; rewrite dispatch_cases, T by exact L; reflexivity |].
    exists d, (Receiver (pdu_new ReceiverPdu (ts 2%nat))). repeat split; assumption.
  - destruct (client_datagram_decoded IntercomSignalPdu (ts 3%nat) IntercomSignal 31) as [d [-> [L D]]];
      [cbn; tauto | discriminate | vm_compute; discriminate | reflexivity | intros bs L T; rewrite dispatch_cases, T by exact L; reflexivity |].
    exists d, (IntercomSignal (pdu_new IntercomSignalPdu (ts 3%nat))). repeat split; assumption.
  - destruct (client_datagram_decoded IntercomControlPdu (ts 4%nat) IntercomControl 32) as [d [-> [L D]]];
      [cbn; tauto | discriminate | vm_compute; discriminate | reflexivity | intros bs L T; rewrite dispatch_cases, T by exact L; reflexivity |].
    exists d, (IntercomControl (pdu_new IntercomControlPdu (ts 4%nat))). repeat split; assumption.
Qed.
Theorem C39_client_never_crashes_server : forall ts env,
  Forall (fun p => In (Ok (pk_data p)) (radio_client_pdus ts)) (received env) ->
  let '(out, q) := radio_run server_start env in
  (forall e, q <> Crashed e) /\ Forall (fun r => exists x, rp_pdu r = Some x /\ radio_new (ts (kind x)) x) out.
Proof.
  intros ts env F. assert (H := C39_history env). destruct (radio_run server_start env) as [out q].
  destruct H as [dn [rest [E [R Q]]]].
  assert (F' : Forall (fun p => exists x, deserialize_pdu (pk_data p) = Ok (Some x) /\ radio_new (ts (kind x)) x) (dn ++ pending q ++ rest)).
  { rewrite <- E. apply Forall_map. refine (Forall_impl _ _ F). intros p Hp. apply In_nth_error in Hp. destruct Hp as [i Hi].
    assert (Ki : (i < 5)%nat) by (change 5%nat with (length (radio_client_pdus ts)); apply nth_error_Some; rewrite Hi; discriminate).
    destruct (C39_end_to_end ts i Ki) as [d [x [E1 [L [D [Kd Nw]]]]]]. rewrite Hi in E1. injection E1 as E1.
    exists x. cbn [truncated pk_data]. rewrite E1, firstn_all2 by exact L. rewrite Kd. split; assumption. }
  apply Forall_app in F'. destruct F' as [F1 F2]. apply Forall_app in F2. destruct F2 as [_ F2]. split.
  - intros e ->. destruct Q as [d [rest' [-> D]]]. inversion F2 as [|? ? [x [X _]] _]; subst. congruence.
  - clear - R F1. induction R as [|d r ds rs Hr R IH]; [constructor|]. inversion F1 as [|? ? [x [D Nw]] F]; subst.
    constructor; [|apply IH; exact F]. destruct Hr as [D' _]. exists x. split; [congruence | exact Nw].
Qed.
Example C39_example : match radio_run server_start [Some (mk_packet (map B [1]) 5); Some (mk_packet (map B ([7; 1; 26; 4] ++ repeat 0 40)) 6); None] with
  | ([r1; r2], Returned) => rp_pdu r1 = None /\ match rp_pdu r2 with Some (Signal _) => True | _ => False end
  | _ => False end.
Proof. vm_compute. split; [reflexivity | exact I]. Qed.

(** What the theorems above rest on (one traversal for all of them; not part of the model). *)
Definition Prop_Examples_theorems : True :=
  let _ := @C47_new_roundtrip in
  let _ := @C38_echo in
  let _ := @C38_echo_verbatim in
  let _ := @C38_client_never_panics in
  let _ := @C38_end_to_end in
  let _ := @C38_other_reply in
  let _ := @C39_dispatch in
  let _ := @C39_history in
  let _ := @C39_robust_refuted in
  let _ := @C39_end_to_end in
  let _ := @C39_client_never_crashes_server in
  I.
Print Assumptions Prop_Examples_theorems.
