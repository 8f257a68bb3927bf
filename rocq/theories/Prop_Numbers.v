(** * What decoding makes of the numbers sent (C76). *)
From Verif Require Import Base BaseFacts EnumModel Enums EnumFacts Header PduMacro
  DataTypes Bitflags Pdus PduFields Spec Wire WireMaps SpecFaults.

(** ** The numbers *)
Definition fits {T} (v : T) (e : entry T) : Prop := en_put e v < 256 ^ N.of_nat (en_width e).
Definition kept {T} (v : T) (e : entry T) : Prop := en_norm e (en_put e v) = en_put e v.
Lemma num_fits {T} off w name (f : T -> N) v : f v < 256 ^ N.of_nat w -> fits v (num off w name f).
Proof. exact (fun x => x). Qed.
Lemma cod_fits {T} off w s name (f : T -> N) v : f v < 256 ^ N.of_nat w -> fits v (cod off w s name f).
Proof. exact (fun x => x). Qed.
Lemma flg_fits {T} off w s name (f : T -> N) v : f v < 256 ^ N.of_nat w -> fits v (flg off w s name f).
Proof. exact (fun x => x). Qed.
Lemma lost_fits {T} off w name (f : T -> N) v : fits v (lost off w name f).
Proof. unfold fits, lost. cbn [en_put en_width]. apply N.neq_0_lt_0, N.pow_nonzero. discriminate. Qed.
Lemma cod_kept {T} off w s name (g : T -> enum s) v : kept v (cod off w s name (fun v => code (g v))).
Proof. unfold kept, cod, known. cbn [en_norm en_put]. destruct (g v) as [n H]. cbn [code]. unfold memb in H. now rewrite H. Qed.
Ltac each_entry tac := repeat (apply Forall_cons; [tac|]); apply Forall_nil.
Ltac fits_tac := first [ apply num_fits, (uint_lt _ _) | apply cod_fits; refine (enum_fits _ _) | apply flg_fits, (uint_lt _ _) | apply lost_fits ].
Ltac kept_tac := first [ reflexivity | refine (cod_kept _ _ _ _ _ _) ].
Lemma map_fits m x p : In x (wire_maps m) -> Forall (fits p) (datagram_entries x).
Proof.
  intros Ix. unfold datagram_entries. apply Forall_app. split; [each_entry fits_tac|].
  assert (F : Forall (fun x => forall p, Forall (fits p) (pm_entries x)) (wire_maps m)).
  { unfold wire_maps. repeat (apply Forall_cons; [intros q; cbn [pm_entries pm_class] in *; each_entry fits_tac|]). apply Forall_nil. }
  rewrite Forall_forall in F. apply F, Ix.
Qed.
(** What decoding makes of the number of a valid enumeration is that number; only flag values
    with undeclared bits change (C21). *)
Theorem C76_numbers_kept : forall m x p, In x (wire_maps m) ->
  ~ In (cls_name (pm_class x)) ["StopFreezePdu"; "StopFreezeReliablePdu"; "ArealObjectStatePdu"]%string ->
  Forall (fun e => en_norm e (en_put e p) = en_put e p) (datagram_entries x).
Proof.
  intros m x p Ix N. unfold datagram_entries. apply Forall_app. split; [each_entry kept_tac|].
  assert (F : Forall (fun x => ~ In (cls_name (pm_class x)) ["StopFreezePdu"; "StopFreezeReliablePdu"; "ArealObjectStatePdu"]%string ->
     forall p, Forall (kept p) (pm_entries x)) (wire_maps m)).
  { unfold wire_maps. repeat (apply Forall_cons;
      [intros K; first [ exfalso; apply K; cbn; tauto | clear K; intros q; cbn [pm_entries pm_class] in *; each_entry kept_tac ]|]). apply Forall_nil. }
  rewrite Forall_forall in F. apply F; assumption.
Qed.


Print Assumptions C76_numbers_kept.
