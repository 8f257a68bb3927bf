(** * C85: discarding stale PDUs by timestamp. *)
From Verif Require Import Base BaseFacts EnumModel Enums Header PduMacro Pdus Spec ClassFacts PduProofs Floats SpecStale.
From Verif Require Prop_Pdu Prop_Clock.
Import Prop_Clock.
Local Open Scope N_scope.

(** All readings of the update are of one instant, which the clock can show. *)
Definition clean {c} (u : update c) : Prop := valid_reading (at1 u) /\ at2 u = at1 u /\ at3 u = at1 u.
(** Microseconds past the hour. *)
Definition instant {c} (u : update c) : N := micros_of (at1 u).
Definition holds {c} (st : option (pdu c)) (u : update c) : Prop := exists p, st = Some p /\ body p = what u.

Lemma datagram_decodes m c u : In c (all_pdus m) -> fixed_layout c ->
  valid_reading (at1 u) -> valid_reading (at2 u) -> valid_reading (at3 u) ->
  exists t p, calculate_dis_timestamp m (at1 u) (at2 u) (at3 u) = Ok t /\
    deserialize c (datagram_of m c u) = Ok (ROk p, []) /\ body p = what u /\ timestamp (header p) = t.
Proof.
  intros I F V1 V2 V3. destruct (C34_timestamp m _ _ _ V1 V2 V3) as [t [E _]].
  destruct (Prop_Pdu.C11_fixed_roundtrip m c (mk_pdu (header (pdu_new c t)) (what u)) [] I F) as [p [out [S [B [St [_ D]]]]]].
  exists t, p. split; [exact E|]. unfold datagram_of. rewrite E, S. split; [specialize (D []); rewrite app_nil_r in D; exact D|].
  split; [exact B|]. assert (T : timestamp (header p) = timestamp (header (pdu_new c t))) by apply St. rewrite T. reflexivity.
Qed.

Lemma bound t n t' n' : (Z.abs (168 * Z.of_N t - 100 * Z.of_N n) <= 168 * 256)%Z ->
  (Z.abs (168 * Z.of_N t' - 100 * Z.of_N n') <= 168 * 256)%Z -> t' <= t -> n' <= n + 860.
Proof. lia. Qed.

(** The state is an update that was received, and none received has a greater timestamp. *)
Definition good m c (seen : list (update c)) (st : option (pdu c)) : Prop :=
  match st with
  | None => seen = []
  | Some p => exists u t, In u seen /\ body p = what u /\ timestamp (header p) = t /\
      calculate_dis_timestamp m (at1 u) (at2 u) (at3 u) = Ok t /\
      forall v t', In v seen -> calculate_dis_timestamp m (at1 v) (at2 v) (at3 v) = Ok t' -> uval t' <= uval t
  end.
Lemma receive_good m c : In c (all_pdus m) -> fixed_layout c -> forall us seen st, Forall clean us -> good m c seen st ->
  exists st', receive_all c st (map (datagram_of m c) us) = Ok st' /\ good m c (seen ++ us) st'.
Proof.
  intros I F. induction us as [|u us IH]; intros seen st V G.
  - exists st. rewrite app_nil_r. auto.
  - inversion V as [|? ? Vu V']; subst. destruct Vu as [V1 [E2 E3]].
    destruct (datagram_decodes m c u I F V1 ltac:(rewrite E2; exact V1) ltac:(rewrite E3; exact V1)) as [t [p [T [D [B H]]]]].
    cbn [map receive_all]. unfold consider. rewrite D.
    assert (X : exists st1, (match st with
        | None => Ok (Some p)
        | Some q => if uval (timestamp (header p)) <? uval (timestamp (header q)) then Ok st else Ok (Some p) end) = Ok st1 /\
        good m c (seen ++ [u]) st1).
    { destruct st as [q|].
      - destruct G as [w [tw [Iw [Bw [Hw [Tw M]]]]]]. destruct (N.ltb_spec (uval (timestamp (header p))) (uval (timestamp (header q)))) as [L|L].
        + eexists. split; [reflexivity|]. exists w, tw. split; [apply in_or_app; auto|]. repeat split; try assumption.
          intros v t' Iv Tv. apply in_app_or in Iv as [Iv|[<-|[]]]; [eapply M; eassumption|].
          rewrite T in Tv. injection Tv as <-. rewrite H, Hw in L. apply N.lt_le_incl, L.
        + eexists. split; [reflexivity|]. exists u, t. split; [apply in_or_app; right; left; reflexivity|]. repeat split; try assumption.
          intros v t' Iv Tv. apply in_app_or in Iv as [Iv|[<-|[]]].
          * specialize (M v t' Iv Tv). rewrite H, Hw in L. lia.
          * rewrite T in Tv. injection Tv as <-. apply N.le_refl.
      - cbn in G. subst seen. eexists. split; [reflexivity|]. exists u, t. split; [left; reflexivity|]. repeat split; try assumption.
        intros v t' [<-|[]] Tv. rewrite T in Tv. injection Tv as <-. apply N.le_refl. }
    destruct X as [st1 [-> G1]]. destruct (IH (seen ++ [u]) st1 V' G1) as [st' [R G']]. exists st'. split; [exact R|].
    rewrite <- app_assoc in G'. exact G'.
Qed.

(** Within one hour, whatever the network does to the order of the datagrams, however many are
    lost or doubled ([us]: what arrives, in the order of arrival): the receiver does not
    panic and ends up with an update that is at most 860 microseconds older than the newest that arrived. *)
Theorem C85_newest_wins : forall m c us, In c (all_pdus m) -> fixed_layout c -> Forall clean us ->
  exists st, receive_all c None (map (datagram_of m c) us) = Ok st /\ (us <> [] -> exists u, In u us /\ holds st u /\
    forall v, In v us -> instant v <= instant u + 860).
Proof.
  intros m c us I F V. destruct (receive_good m c I F us [] None V eq_refl) as [st [R G]]. exists st. split; [exact R|].
  intros N. cbn [app] in G. destruct st as [p|]; [|contradiction]. destruct G as [u [t [Iu [B [H [T M]]]]]].
  exists u. split; [exact Iu|]. split; [exists p; auto|]. intros v Iv. rewrite Forall_forall in V.
  assert (K : forall w tw, In w us -> calculate_dis_timestamp m (at1 w) (at2 w) (at3 w) = Ok tw ->
    (Z.abs (168 * Z.of_N (uval tw) - 100 * Z.of_N (instant w)) <= 168 * 256)%Z).
  { intros w tw Iw Tw. destruct (V w Iw) as [V1 [E2 E3]]. rewrite E2, E3 in Tw.
    destruct (C34_timestamp m _ _ _ V1 V1 V1) as [t0 [E0 [_ A]]]. rewrite E0 in Tw. injection Tw as <-. exact A. }
  destruct (V v Iv) as [V1 [E2 E3]]. destruct (C34_timestamp m _ _ _ V1 V1 V1) as [tv [Ev _]].
  assert (Tv : calculate_dis_timestamp m (at1 v) (at2 v) (at3 v) = Ok tv) by (rewrite E2, E3; exact Ev).
  apply (bound (uval t) _ (uval tv)); [apply K; assumption | apply K; assumption | eapply M; eassumption].
Qed.
(** So if one update is a millisecond newer than all others, exactly that one is kept, in
    any order of arrival. *)
Theorem C85_final : forall m c us u, In c (all_pdus m) -> fixed_layout c -> Forall clean us -> In u us ->
  (forall v, In v us -> v = u \/ instant v + 1000 <= instant u) ->
  exists st, receive_all c None (map (datagram_of m c) us) = Ok st /\ holds st u.
Proof.
  intros m c us u I F V Iu L. destruct (C85_newest_wins m c us I F V) as [st [R N]]. exists st. split; [exact R|].
  destruct N as [w [Iw [H M]]]; [intros E; rewrite E in Iu; exact Iu|].
  destruct (L w Iw) as [->|X]; [exact H|]. specialize (M u Iu). lia.
Qed.
(** Datagrams of other types (whole headers, at least) in between change nothing. *)
Theorem C85_others_ignored : forall c ds st, Forall (fun d => (12 <= length d)%nat) ds ->
  receive_all c st ds = receive_all c st (filter (fun d => wire_type d =? code (cls_type c)) ds).
Proof.
  intros c ds. induction ds as [|d ds IH]; intros st F; [reflexivity|]. inversion F as [|? ? L F']; subst. cbn [filter receive_all].
  destruct (N.eqb_spec (wire_type d) (code (cls_type c))) as [E|E].
  - cbn [receive_all]. destruct (consider c st d); [apply IH, F' | reflexivity].
  - unfold consider. destruct (Prop_Pdu.C05_type_check c d L) as [h [_ [_ [R _]]]].
    rewrite (R E). apply IH, F'.
Qed.
(** Across the full hour the receiver stops: after an update made at [n] microseconds past the
    hour it ignores every update of the next hour before about the same time ([vs]), though
    all of them are newer. *)
Theorem C85_rollover_refuted : forall m c u vs, In c (all_pdus m) -> fixed_layout c -> clean u -> Forall clean vs ->
  Forall (fun v => instant v + 1000 <= instant u) vs ->
  exists st, receive_all c None (map (datagram_of m c) (u :: vs)) = Ok st /\ holds st u.
Proof.
  intros m c u vs I F V Vs L. apply (C85_final m c (u :: vs) u I F (Forall_cons _ V Vs)); [left; reflexivity|].
  intros v [<-|Iv]; [left; reflexivity | right]. rewrite Forall_forall in L. apply L, Iv.
Qed.
(** And within the hour an update constructed while the clock passes a full minute is ignored
    (the clock is read three times), though it is newer. *)
Definition before_minute : reading := at_time 10 59 999999999.
Definition after_minute : reading := at_time 11 0 0.
Theorem C85_torn_refuted : forall m c b b', In c (all_pdus m) -> fixed_layout c ->
  let u := at_once before_minute b in let v := mk_update before_minute after_minute after_minute b' in
  instant u < micros_of after_minute /\
  exists st, receive_all c None (map (datagram_of m c) [u; v]) = Ok st /\ holds st u.
Proof.
  intros m c b b' I F u v. split; [vm_compute; reflexivity|].
  assert (V : valid_reading before_minute) by (repeat split; vm_compute; reflexivity).
  assert (W : valid_reading after_minute) by (repeat split; vm_compute; reflexivity).
  destruct (datagram_decodes m c u I F V V V) as [t [p [T [D [B H]]]]].
  destruct (datagram_decodes m c v I F V W W) as [t' [p' [T' [D' [B' H']]]]].
  cbn [map receive_all]. unfold consider. rewrite D, D', H, H'.
  assert (X : uval t' < uval t).
  { destruct (C34_torn_read_refuted m) as [x [y [Ex [Ey L]]]]. unfold u, v, at_once, before_minute, after_minute in T, T'. cbn [at1 at2 at3] in T, T'.
    rewrite Ex in T. rewrite Ey in T'. injection T as <-. injection T' as <-. lia. }
  apply N.ltb_lt in X. rewrite X. exists (Some p). split; [reflexivity|]. exists p. auto.
Qed.

(** The hypotheses are met: three Acknowledge PDUs arriving out of order, one of them twice. *)
Example C85_example : let c := AcknowledgePdu in let b := body_default (cls_fields c) in
  let us := [at_once (at_time 1 0 0) b; at_once (at_time 3 0 0) b; at_once (at_time 2 0 0) b; at_once (at_time 3 0 0) b] in
  In c (all_pdus Checked) /\ fixed_layout c /\ Forall clean us /\
  (forall v, In v us -> v = at_once (at_time 3 0 0) b \/ instant v + 1000 <= instant (at_once (c := c) (at_time 3 0 0) b)) /\
  match receive_all c None (map (datagram_of Checked c) us) with
  | Ok (Some p) => uval (timestamp (header p)) = 107142864 | _ => False end.
Proof.
  cbv zeta. split; [apply (nth_error_In _ 35); reflexivity|]. split; [split; reflexivity|]. split.
  - repeat (apply Forall_cons; [repeat split; vm_compute; reflexivity|]). apply Forall_nil.
  - split.
    + intros v [<-|[<-|[<-|[<-|[]]]]]; [right | left; reflexivity | right | left; reflexivity]; vm_compute; discriminate.
    + vm_compute. reflexivity.
Qed.

Definition Prop_Stale_theorems : True :=
  let _ := @C85_newest_wins in let _ := @C85_final in let _ := @C85_rollover_refuted in let _ := @C85_torn_refuted in let _ := @C85_others_ignored in
  let _ := @C85_example in I.
Print Assumptions Prop_Stale_theorems.
