(** * The lists of a received datagram can be recovered by the caller: C74.

    [recoveries], [reads_back] are defined in [SpecRecover]. *)
From Verif Require Import Base BaseFacts EnumModel Enums EnumFacts Fixed Header PduMacro PduMacroFacts DataTypes DataTypesFacts Bitflags Pdus PduFields
  Spec ClassFacts PduProofs Wire WireMaps WireProofs SpecFaults SpecDatum DatumFacts RecordFacts SpecLayout LayoutFacts Prop_Pdu Prop_Records Prop_Layout SpecSpecial Prop_Specs Prop_Special Prop_Aggregate WireClass SpecialExtent SpecRecover.

Definition elem_rt {A} (good : A -> Prop) (w : A -> bytes) (r : reader A) : Prop :=
  forall x rest, good x -> r (w x ++ rest) = Ok (x, rest).
Lemma elem_fixed {A} n (w : A -> bytes) r : fixed_rw n w r -> elem_rt any_value w r.
Proof. intros F x rest _. exact (fx_rt n w r x rest F). Qed.
Lemma elem_be k : elem_rt any_value (@be k) (get_uint k).
Proof. intros x rest _. unfold be. rewrite big_endian_eq. apply get_put_uint. Qed.
Lemma elem_coded (e : enum_spec) w : e_bytes e = w -> elem_rt any_value (@coded e w) (enum_deserialize e).
Proof.
  intros <- x rest _. unfold coded. rewrite big_endian_eq. assert (R := enum_rt_gen e x rest).
  unfold put_uint in R. rewrite as_uint_val in R by apply enum_fits. exact R.
Qed.
Lemma elem_datum : elem_rt datum_filled VariableDatumRecord_serialize mended_datum.
Proof.
  intros v rest H. unfold mended_datum. rewrite (C24_decoding v rest H). cbv zeta. cbn [VariableDatumRecord_datum_id VariableDatumRecord_length_bits VariableDatumRecord_value].
  unfold datum_filled in H. rewrite <- H, Nat2N.id. f_equal. f_equal.
  - rewrite skipn_app, repeat_length, Nat.sub_diag, skipn_all2 by (rewrite repeat_length; lia). destruct v; reflexivity.
  - rewrite skipn_app, repeat_length, Nat.sub_diag, skipn_all2 by (rewrite repeat_length; lia). reflexivity.
Qed.
Lemma elem_axis : elem_rt regular_axis GridAxisDescriptor_serialize GridAxisDescriptor_deserialize.
Proof.
  intros v rest H. apply axis_rt. unfold regular_axis in H. unfold axis_matches. destruct (GridAxisDescriptor_data v); [|contradiction]. auto.
Qed.
Lemma elem_attribute : elem_rt counted_AttributeRecordSet AttributeRecordSet_serialize AttributeRecordSet_deserialize.
Proof. intros v rest H. apply AttributeRecordSet_rt, H. Qed.
Lemma elem_system : elem_rt counted_EmissionSystemData ElectromagneticEmissionSystemData_serialize ElectromagneticEmissionSystemData_deserialize.
Proof. intros v rest H. apply EmissionSystemData_rt, H. Qed.

Lemma reads_cons {c} (p : pdu c) l ls (w : sl_type l -> bytes) tail rest :
  elem_rt (sl_good l) w (sl_read l) -> Forall (sl_good l) (sl_list l p) ->
  reads_back (fun l => N.of_nat (length (sl_list l p))) p ls tail rest ->
  reads_back (fun l => N.of_nat (length (sl_list l p))) p (l :: ls) (each w (sl_list l p) ++ tail) rest.
Proof.
  intros E F R. exists tail. split; [|exact R]. rewrite Nat2N.id. unfold each.
  apply (repeat_read_concat_P _ (sl_good l)); [|exact F]. intros x r G. apply E, G.
Qed.
Lemma reads_count {c} (p : pdu c) n n' : forall ls bs rest, Forall (fun l => n l = n' l) ls -> reads_back n p ls bs rest -> reads_back n' p ls bs rest.
Proof.
  induction ls as [|l ls IH]; intros bs rest F R; [exact R|]. destruct R as [left [R1 R2]]. exists left.
  rewrite <- (Forall_inv F). split; [exact R1 | exact (IH _ _ (Forall_inv_tail F) R2)].
Qed.

Definition recovers (v : recovery) : Prop := exists tail : pdu (rv_class v) -> bytes,
  (forall p buf p' out, serialize (rv_class v) p buf = Ok (ROk tt, p', buf ++ out) -> forall rest,
     exists q, deserialize (rv_class v) (out ++ rest) = Ok (ROk q, tail p ++ rest) /\
       Forall (fun l => sl_announced l q = sl_announced l p') (rv_lists v)) /\
  (forall p, Forall (fun l => Forall (sl_good l) (sl_list l p)) (rv_lists v) -> forall rest,
     reads_back (fun l => N.of_nat (length (sl_list l p))) p (rv_lists v) (tail p ++ rest) (rv_rest v p ++ rest)).
Lemma tail_of l p buf p' out : In l (layouts Checked) -> serialize (pl_class l) p buf = Ok (ROk tt, p', buf ++ out) ->
  skipn (pl_end l) out = pl_tail l p /\ (pl_end l <= length out)%nat.
Proof.
  intros I S. destruct (C64_datagram Checked l _ _ _ _ I S) as [E [_ L]]. apply app_inv_head in E. subst out.
  unfold laid_out in *. rewrite map_app, concat_app in L. rewrite app_assoc. rewrite <- L.
  rewrite skipn_app, skipn_all, Nat.sub_diag. split; [reflexivity | rewrite (app_length _ (pl_tail l p)); lia].
Qed.
Lemma ordinary_recovers c map e tail (ls : list (sent_list c)) p buf p' out rest :
  In (mk_pdu_layout c map e tail) (layouts Checked) -> N.of_nat e = default_size c -> ordinary c ->
  (forall q, Forall (fun l => sl_announced l (clear_lists q) = sl_announced l q) ls) ->
  serialize c p buf = Ok (ROk tt, p', buf ++ out) ->
  exists q, deserialize c (out ++ rest) = Ok (ROk q, tail p ++ rest) /\ Forall (fun l => sl_announced l q = sl_announced l p') ls.
Proof.
  intros I E O A S. exists (clear_lists p'). split; [|apply A].
  destruct (tail_of (mk_pdu_layout c map e tail) p buf p' out I S) as [T _]. cbn [pl_end pl_tail] in T.
  assert (C := layout_class Checked _ I). cbn [pl_class] in C.
  destruct (C12_list_roundtrip_exact Checked c p buf p' _ C O S) as [_ [fx [li [Eo [L D]]]]]. apply app_inv_head in Eo. subst out.
  rewrite <- app_assoc, D. f_equal. f_equal. rewrite <- T. f_equal.
  assert (Lf : length fx = e) by (unfold lenN in L; lia).
  rewrite <- Lf, skipn_app, skipn_all, Nat.sub_diag. reflexivity.
Qed.

Ltac elem_tac := first [exact elem_datum | exact elem_axis | exact elem_attribute | exact elem_system | apply elem_be
  | apply elem_coded; reflexivity | eapply elem_fixed; solve [eauto with fx nocore]].
Ltac reads_tac G := 
  lazymatch goal with
  | |- reads_back _ _ (?l :: ?ls) _ _ =>
      apply (reads_cons _ l ls _ _ _); [elem_tac | exact (Forall_inv G) | let G' := fresh "G" in assert (G' := Forall_inv_tail G); reads_tac G']
  | |- reads_back _ _ [] _ _ => reflexivity
  end.
Ltac rec_tac i lists tail :=
  unfold lists, recovers; cbn [rv_class rv_lists rv_rest];
  exists tail; split;
  [ intros; eapply ordinary_recovers;
    [apply (nth_error_In _ i); reflexivity | vm_compute; reflexivity | vm_compute; reflexivity
    | let p := fresh "p" in intros p; repeat (apply Forall_cons; [reflexivity|]); apply Forall_nil | eassumption]
  | let p := fresh "p" in let G := fresh "G" in let rest := fresh "rest" in
    intros p G rest; unfold tail; rewrite <- ?app_assoc; reads_tac G].
Lemma ElectromagneticEmissionsPdu_rec : recovers ElectromagneticEmissionsPdu_lists.
Proof. rec_tac 0%nat ElectromagneticEmissionsPdu_lists ElectromagneticEmissionsPdu_tail. Qed.
Lemma UnderwaterAcousticPdu_rec : recovers UnderwaterAcousticPdu_lists.
Proof. rec_tac 2%nat UnderwaterAcousticPdu_lists UnderwaterAcousticPdu_tail. Qed.
Lemma IFFPdu_rec : recovers IFFPdu_lists.
Proof. rec_tac 3%nat IFFPdu_lists IFFPdu_tail. Qed.
Lemma SupplementalEmissionPdu_rec : recovers SupplementalEmissionPdu_lists.
Proof. rec_tac 4%nat SupplementalEmissionPdu_lists SupplementalEmissionPdu_tail. Qed.
Lemma EntityStateUpdatePdu_rec : recovers EntityStateUpdatePdu_lists.
Proof. rec_tac 8%nat EntityStateUpdatePdu_lists EntityStateUpdatePdu_tail. Qed.
Lemma AttributePdu_rec : recovers AttributePdu_lists.
Proof. rec_tac 9%nat AttributePdu_lists AttributePdu_tail. Qed.
Lemma IsGroupOfPdu_rec : recovers IsGroupOfPdu_lists.
Proof. rec_tac 11%nat IsGroupOfPdu_lists IsGroupOfPdu_tail. Qed.
Lemma ServiceRequestPdu_rec : recovers ServiceRequestPdu_lists.
Proof. rec_tac 16%nat ServiceRequestPdu_lists ServiceRequestPdu_tail. Qed.
Lemma ResupplyOfferPdu_rec : recovers ResupplyOfferPdu_lists.
Proof. rec_tac 17%nat ResupplyOfferPdu_lists ResupplyOfferPdu_tail. Qed.
Lemma ResupplyReceivedPdu_rec : recovers ResupplyReceivedPdu_lists.
Proof. rec_tac 18%nat ResupplyReceivedPdu_lists ResupplyReceivedPdu_tail. Qed.
Lemma MinefieldStatePdu_rec : recovers MinefieldStatePdu_lists.
Proof. rec_tac 22%nat MinefieldStatePdu_lists MinefieldStatePdu_tail. Qed.
Lemma MinefieldQueryPdu_rec : recovers MinefieldQueryPdu_lists.
Proof. rec_tac 23%nat MinefieldQueryPdu_lists MinefieldQueryPdu_tail. Qed.
Lemma MinefieldDataPdu_rec : recovers MinefieldDataPdu_lists.
Proof. rec_tac 24%nat MinefieldDataPdu_lists MinefieldDataPdu_tail. Qed.
Lemma MinefieldResponseNackPdu_rec : recovers MinefieldResponseNackPdu_lists.
Proof. rec_tac 25%nat MinefieldResponseNackPdu_lists MinefieldResponseNackPdu_tail. Qed.
Lemma SignalPdu_rec : recovers SignalPdu_lists.
Proof. rec_tac 27%nat SignalPdu_lists SignalPdu_tail. Qed.
Lemma IntercomSignalPdu_rec : recovers IntercomSignalPdu_lists.
Proof. rec_tac 29%nat IntercomSignalPdu_lists IntercomSignalPdu_tail. Qed.
Lemma IntercomControlPdu_rec : recovers IntercomControlPdu_lists.
Proof. rec_tac 30%nat IntercomControlPdu_lists IntercomControlPdu_tail. Qed.
Lemma ActionRequestPdu_rec : recovers ActionRequestPdu_lists.
Proof. rec_tac 36%nat ActionRequestPdu_lists ActionRequestPdu_tail. Qed.
Lemma ActionResponsePdu_rec : recovers ActionResponsePdu_lists.
Proof. rec_tac 37%nat ActionResponsePdu_lists ActionResponsePdu_tail. Qed.
Lemma DataQueryPdu_rec : recovers DataQueryPdu_lists.
Proof. rec_tac 38%nat DataQueryPdu_lists DataQueryPdu_tail. Qed.
Lemma SetDataPdu_rec : recovers SetDataPdu_lists.
Proof. rec_tac 39%nat SetDataPdu_lists SetDataPdu_tail. Qed.
Lemma DataPdu_rec : recovers DataPdu_lists.
Proof. rec_tac 40%nat DataPdu_lists DataPdu_tail. Qed.
Lemma EventReportPdu_rec : recovers EventReportPdu_lists.
Proof. rec_tac 41%nat EventReportPdu_lists EventReportPdu_tail. Qed.
Lemma CommentPdu_rec : recovers CommentPdu_lists.
Proof. rec_tac 42%nat CommentPdu_lists CommentPdu_tail. Qed.
Lemma ActionRequestReliablePdu_rec : recovers ActionRequestReliablePdu_lists.
Proof. rec_tac 48%nat ActionRequestReliablePdu_lists ActionRequestReliablePdu_tail. Qed.
Lemma ActionResponseReliablePdu_rec : recovers ActionResponseReliablePdu_lists.
Proof. rec_tac 49%nat ActionResponseReliablePdu_lists ActionResponseReliablePdu_tail. Qed.
Lemma DataQueryReliablePdu_rec : recovers DataQueryReliablePdu_lists.
Proof. rec_tac 50%nat DataQueryReliablePdu_lists DataQueryReliablePdu_tail. Qed.
Lemma SetDataReliablePdu_rec : recovers SetDataReliablePdu_lists.
Proof. rec_tac 51%nat SetDataReliablePdu_lists SetDataReliablePdu_tail. Qed.
Lemma DataReliablePdu_rec : recovers DataReliablePdu_lists.
Proof. rec_tac 52%nat DataReliablePdu_lists DataReliablePdu_tail. Qed.
Lemma EventReportReliablePdu_rec : recovers EventReportReliablePdu_lists.
Proof. rec_tac 53%nat EventReportReliablePdu_lists EventReportReliablePdu_tail. Qed.
Lemma CommentReliablePdu_rec : recovers CommentReliablePdu_lists.
Proof. rec_tac 54%nat CommentReliablePdu_lists CommentReliablePdu_tail. Qed.
Lemma RecordQueryReliablePdu_rec : recovers RecordQueryReliablePdu_lists.
Proof. rec_tac 55%nat RecordQueryReliablePdu_lists RecordQueryReliablePdu_tail. Qed.
Lemma EnvironmentalProcessPdu_rec : recovers EnvironmentalProcessPdu_lists.
Proof. rec_tac 57%nat EnvironmentalProcessPdu_lists EnvironmentalProcessPdu_tail. Qed.
Lemma GriddedDataPdu_rec : recovers GriddedDataPdu_lists.
Proof. rec_tac 58%nat GriddedDataPdu_lists GriddedDataPdu_tail. Qed.
Lemma LinearObjectStatePdu_rec : recovers LinearObjectStatePdu_lists.
Proof. rec_tac 60%nat LinearObjectStatePdu_lists LinearObjectStatePdu_tail. Qed.
Lemma ArealObjectStatePdu_rec : recovers ArealObjectStatePdu_lists.
Proof.
  unfold ArealObjectStatePdu_lists, recovers. cbn [rv_class rv_lists rv_rest]. exists ArealObjectStatePdu_tail. split.
  - intros p buf p' out S rest. destruct (C21_areal_object_roundtrip p buf p' out rest S) as [q [D [K _]]].
    destruct (tail_of (mk_pdu_layout ArealObjectStatePdu ArealObjectStatePdu_map 48 ArealObjectStatePdu_tail) p buf p' out (nth_error_In (layouts Checked) 61 eq_refl) S) as [T L]. cbn [pl_end pl_tail] in T, L.
    exists q. split.
    + rewrite D, skipn_app, T. replace (48 - length out)%nat with 0%nat by lia. reflexivity.
    + apply Forall_cons; [|apply Forall_nil]. cbn [sl_announced]. destruct K as [_ K].
      apply (f_equal (fun b => uval (ArealObjectStatePdu_number_of_points (mk_pdu (c := ArealObjectStatePdu) (header q) b)))) in K. exact K.
  - intros p G rest. unfold ArealObjectStatePdu_tail. rewrite <- ?app_assoc. reads_tac G.
Qed.
Lemma DetonationPdu_rec : recovers DetonationPdu_lists.
Proof. rec_tac 63%nat DetonationPdu_lists DetonationPdu_tail. Qed.
Lemma DirectedEnergyFirePdu_rec : recovers DirectedEnergyFirePdu_lists.
Proof. rec_tac 64%nat DirectedEnergyFirePdu_lists DirectedEnergyFirePdu_tail. Qed.
Lemma EntityDamageStatusPdu_rec : recovers EntityDamageStatusPdu_lists.
Proof. rec_tac 65%nat EntityDamageStatusPdu_lists EntityDamageStatusPdu_tail. Qed.
Lemma all_rec : Forall recovers recoveries.
Proof.
  unfold recoveries.
  apply Forall_cons; [exact ElectromagneticEmissionsPdu_rec|].
  apply Forall_cons; [exact UnderwaterAcousticPdu_rec|].
  apply Forall_cons; [exact IFFPdu_rec|].
  apply Forall_cons; [exact SupplementalEmissionPdu_rec|].
  apply Forall_cons; [exact EntityStateUpdatePdu_rec|].
  apply Forall_cons; [exact AttributePdu_rec|].
  apply Forall_cons; [exact IsGroupOfPdu_rec|].
  apply Forall_cons; [exact ServiceRequestPdu_rec|].
  apply Forall_cons; [exact ResupplyOfferPdu_rec|].
  apply Forall_cons; [exact ResupplyReceivedPdu_rec|].
  apply Forall_cons; [exact MinefieldStatePdu_rec|].
  apply Forall_cons; [exact MinefieldQueryPdu_rec|].
  apply Forall_cons; [exact MinefieldDataPdu_rec|].
  apply Forall_cons; [exact MinefieldResponseNackPdu_rec|].
  apply Forall_cons; [exact SignalPdu_rec|].
  apply Forall_cons; [exact IntercomSignalPdu_rec|].
  apply Forall_cons; [exact IntercomControlPdu_rec|].
  apply Forall_cons; [exact ActionRequestPdu_rec|].
  apply Forall_cons; [exact ActionResponsePdu_rec|].
  apply Forall_cons; [exact DataQueryPdu_rec|].
  apply Forall_cons; [exact SetDataPdu_rec|].
  apply Forall_cons; [exact DataPdu_rec|].
  apply Forall_cons; [exact EventReportPdu_rec|].
  apply Forall_cons; [exact CommentPdu_rec|].
  apply Forall_cons; [exact ActionRequestReliablePdu_rec|].
  apply Forall_cons; [exact ActionResponseReliablePdu_rec|].
  apply Forall_cons; [exact DataQueryReliablePdu_rec|].
  apply Forall_cons; [exact SetDataReliablePdu_rec|].
  apply Forall_cons; [exact DataReliablePdu_rec|].
  apply Forall_cons; [exact EventReportReliablePdu_rec|].
  apply Forall_cons; [exact CommentReliablePdu_rec|].
  apply Forall_cons; [exact RecordQueryReliablePdu_rec|].
  apply Forall_cons; [exact EnvironmentalProcessPdu_rec|].
  apply Forall_cons; [exact GriddedDataPdu_rec|].
  apply Forall_cons; [exact LinearObjectStatePdu_rec|].
  apply Forall_cons; [exact ArealObjectStatePdu_rec|].
  apply Forall_cons; [exact DetonationPdu_rec|].
  apply Forall_cons; [exact DirectedEnergyFirePdu_rec|].
  apply Forall_cons; [exact EntityDamageStatusPdu_rec|].
  apply Forall_nil.
Qed.

(** ** C74 *)

(** Which classes: those with lists behind their fixed fields. *)
Theorem C74_classes : forall m,
  map (fun v => cls_name (rv_class v)) recoveries =
  map cls_name (filter (fun c => negb (mem_string (cls_name c) ["EntityStatePdu"; "AggregateStatePdu"; "TransmitterPdu"]%string) && negb (Nat.eqb (length (list_fields c)) 0)) (all_pdus m)) /\
  Forall (fun v => map sl_name (rv_lists v) = list_fields (rv_class v) \/ In (cls_name (rv_class v)) ["MinefieldDataPdu"; "GriddedDataPdu"]%string) recoveries.
Proof.
  intros m. split; [destruct m; vm_compute; reflexivity|].
  unfold recoveries. repeat (apply Forall_cons; [first [left; vm_compute; reflexivity | right; vm_compute; tauto]|]). apply Forall_nil.
Qed.

(** The number of elements of each list as known to the caller. *)
Theorem C74_lists_recovered : forall v p buf p' out rest, In v recoveries ->
  serialize (rv_class v) p buf = Ok (ROk tt, p', buf ++ out) ->
  Forall (fun l => Forall (sl_good l) (sl_list l p)) (rv_lists v) ->
  exists q left, deserialize (rv_class v) (out ++ rest) = Ok (ROk q, left) /\
    reads_back (fun l => N.of_nat (length (sl_list l p))) p (rv_lists v) left (rv_rest v p ++ rest).
Proof.
  intros v p buf p' out rest I S G. assert (A := all_rec). rewrite Forall_forall in A. destruct (A v I) as [tail [D R]].
  destruct (D _ _ _ _ S rest) as [q [Dq _]]. exists q, (tail p ++ rest). split; [exact Dq | exact (R p G rest)].
Qed.
(** The number of elements of each list taken from the decoded PDU: the announced numbers
    arrive unchanged, so if the sender announced the right ones every list is read back. *)
Theorem C74_announced : forall v p buf p' out rest, In v recoveries ->
  serialize (rv_class v) p buf = Ok (ROk tt, p', buf ++ out) ->
  Forall (fun l => Forall (sl_good l) (sl_list l p)) (rv_lists v) ->
  Forall (fun l => sl_announced l p' = N.of_nat (length (sl_list l p))) (rv_lists v) ->
  exists q left, deserialize (rv_class v) (out ++ rest) = Ok (ROk q, left) /\
    reads_back (fun l => sl_announced l q) p (rv_lists v) left (rv_rest v p ++ rest).
Proof.
  intros v p buf p' out rest I S G N. assert (A := all_rec). rewrite Forall_forall in A. destruct (A v I) as [tail [D R]].
  destruct (D _ _ _ _ S rest) as [q [Dq Q]]. exists q, (tail p ++ rest). split; [exact Dq|].
  apply (reads_count p (fun l => N.of_nat (length (sl_list l p)))); [|exact (R p G rest)].
  rewrite Forall_forall in *. intros l Il. rewrite (Q l Il), (N l Il). reflexivity.
Qed.
Lemma iff_size (p : pdu IFFPdu) : declared_size p = 88 + 24 * N.of_nat (length (IFFPdu_iff_parameters p)).
Proof.
  assert (V : forall l, c_len (vec_codec IFFFundamentalParameterData_codec) l = 24 * N.of_nat (length l)).
  { induction l as [|x l IH]; [reflexivity|]. cbn [length]. change (c_len (vec_codec IFFFundamentalParameterData_codec) (x :: l)) with (24 + c_len (vec_codec IFFFundamentalParameterData_codec) l). rewrite IH. lia. }
  rewrite <- V. unfold declared_size. destruct p as [h b]. cbn [body]. unfold IFFPdu_iff_parameters. cbn [body].
  transitivity (12 + (6 + (6 + (12 + (6 + (1 + (1 + (16 + (4 + (20 + (4 + (c_len (vec_codec IFFFundamentalParameterData_codec) (IFFPdu_iff_parameters (mk_pdu (c := IFFPdu) h b)) + 0)))))))))))); [|unfold IFFPdu_iff_parameters; cbn [body]; lia].
  repeat (destruct b as [? b]). reflexivity.
Qed.
(** The number of IFF parameter records is derived from the length in the header: no
    requirement on the sender at all. *)
Theorem C74_iff_parameters : forall p buf p' out rest,
  serialize IFFPdu p buf = Ok (ROk tt, p', buf ++ out) ->
  exists q left, deserialize IFFPdu (out ++ rest) = Ok (ROk q, left) /\
    repeat_read (N.to_nat ((uval (header_length (header q)) - 88) / 24)) IFFFundamentalParameterData_deserialize left =
      Ok (IFFPdu_iff_parameters p, rest).
Proof.
  intros p buf p' out rest S.
  assert (I : In IFFPdu_lists recoveries) by (apply (nth_error_In _ 2); reflexivity).
  destruct (serialize_spec Checked IFFPdu ltac:(apply (nth_error_In _ 3); reflexivity) _ _ _ _ S) as [fl [Eo [St Sz]]].
  destruct (C74_announced IFFPdu_lists p buf p' out rest I S) as [q [left [D R]]].
  - apply Forall_cons; [|apply Forall_nil]. apply Forall_forall. intros x _. exact Logic.I.
  - apply Forall_cons; [|apply Forall_nil]. cbn [sl_announced sl_list].
    destruct St as [_ [_ [_ [_ [_ [_ [_ Lh]]]]]]]. destruct Sz as [Sz _]. rewrite Lh. rewrite iff_size in Sz. unfold as_u16. rewrite as_uint_val by (rewrite iff_size; apply (N.le_lt_trans _ _ 65536 Sz); reflexivity). rewrite iff_size. rewrite N.add_comm, N.add_sub, N.mul_comm. apply N.div_mul. discriminate.
  - destruct R as [mid [R1 R2]]. cbn [rv_lists IFFPdu_lists reads_back sl_announced sl_read sl_list rv_rest app] in *. 
    exists q, left. split; [exact D|]. subst mid. refine (eq_trans R1 _). reflexivity.
Qed.
(** A Comment PDU with one variable datum of 12 bits and one fixed datum, followed by other
    bytes: what is left by [deserialize] is read as announced. *)
Definition comment_example : pdu CommentPdu :=
  mk_pdu (c := CommentPdu) (header (pdu_default CommentPdu (as_u32 0)))
    (EntityId_default, (EntityId_default, (as_uint 4 1, (as_uint 4 1,
      ([mk_FixedDatumRecord (as_uint 4 7) (as_uint 4 9)], ([mk_VariableDatumRecord (as_uint 4 5) (as_uint 4 12) [as_uint 1 10; as_uint 1 11]], tt)))))).
Example C74_example :
  match serialize CommentPdu comment_example [] with
  | Ok (ROk tt, p', out) =>
      match deserialize CommentPdu (out ++ [B 77]) with
      | Ok (ROk q, lists) =>
          match repeat_read (N.to_nat (uval (CommentPdu_number_of_fixed_datum_records q))) FixedDatumRecord_deserialize lists with
          | Ok (fs, mid) => 
              match repeat_read (N.to_nat (uval (CommentPdu_number_of_variable_datum_records q))) mended_datum mid with
              | Ok (vs, rest) => Some (map (fun x => uval (FixedDatumRecord_datum_value x)) fs,
                  map (fun x => map (@uval 1) (VariableDatumRecord_value x)) vs, map (@uval 1) rest, length lists)
              | _ => None
              end
          | _ => None
          end
      | _ => None
      end
  | _ => None
  end = Some ([9], [[10; 11]], [77], 25%nat).
Proof. vm_compute. reflexivity. Qed.
Example C74_example_hypotheses : In CommentPdu_lists recoveries /\
  Forall (fun l => Forall (sl_good l) (sl_list l comment_example)) (rv_lists CommentPdu_lists) /\
  Forall (fun l => sl_announced l comment_example = N.of_nat (length (sl_list l comment_example))) (rv_lists CommentPdu_lists).
Proof.
  split; [apply (nth_error_In _ 23); reflexivity|]. split.
  - repeat (apply Forall_cons; [repeat (apply Forall_cons; [first [exact I | reflexivity]|]); apply Forall_nil|]). apply Forall_nil.
  - repeat (apply Forall_cons; [reflexivity|]). apply Forall_nil.
Qed.

(** Entity states: [deserialize] reads the capabilities from where the marking starts (C28),
    so a caller who knows how many bytes the marking has skips that many bytes and finds the
    articulation parameters. *)
Theorem C74_entity_state : forall p buf p' out rest,
  serialize EntityStatePdu p buf = Ok (ROk tt, p', buf ++ out) ->
  uval (EntityStatePdu_number_of_articulation_parameters p) = N.of_nat (length (EntityStatePdu_articulation_parameter p)) ->
  exists q left, deserialize EntityStatePdu (out ++ rest) = Ok (ROk q, left) /\
    repeat_read (N.to_nat (uval (EntityStatePdu_number_of_articulation_parameters q))) VariableParameter_deserialize
      (skipn (length (EntityMarking_entity_marking_string (EntityStatePdu_entity_marking p))) left) =
      Ok (EntityStatePdu_articulation_parameter p, rest).
Proof.
  intros p buf p' out rest S N. destruct (C28_entity_state_roundtrip p buf p' out rest S) as [q [D [[_ K] _]]].
  destruct (tail_of (mk_pdu_layout EntityStatePdu EntityStatePdu_map 129 EntityStatePdu_tail) p buf p' out (nth_error_In (layouts Checked) 5 eq_refl) S) as [T L].
  cbn [pl_end pl_tail] in T, L. exists q, (skipn 133 (out ++ rest)). split; [exact D|].
  assert (Q : EntityStatePdu_number_of_articulation_parameters q = EntityStatePdu_number_of_articulation_parameters p).
  { apply (f_equal (fun b => EntityStatePdu_number_of_articulation_parameters (mk_pdu (c := EntityStatePdu) (header q) b))) in K.
    destruct (serialize_spec Checked EntityStatePdu ltac:(apply (nth_error_In _ 5); reflexivity) _ _ _ _ S) as [_ [_ [_ [_ [_ [Eb _]]]]]].
    transitivity (EntityStatePdu_number_of_articulation_parameters p'); [exact K|].
    unfold EntityStatePdu_number_of_articulation_parameters. rewrite Eb. reflexivity. }
  rewrite Q, N, Nat2N.id.
  assert (E : skipn (length (EntityMarking_entity_marking_string (EntityStatePdu_entity_marking p))) (skipn 133 (out ++ rest)) =
    each VariableParameter_serialize (EntityStatePdu_articulation_parameter p) ++ rest).
  { assert (O : out = firstn 129 out ++ EntityStatePdu_tail p) by (rewrite <- T; symmetry; apply firstn_skipn).
    rewrite O, <- app_assoc. unfold EntityStatePdu_tail.
    set (s := EntityMarking_entity_marking_string (EntityStatePdu_entity_marking p)).
    assert (Lc : length (coded 4 (EntityStatePdu_entity_capabilities p)) = 4%nat) by (unfold coded; apply big_endian_length).
    set (cp := coded 4 (EntityStatePdu_entity_capabilities p)) in *. set (a := each _ _).
    rewrite PduProofs.skipn_add. rewrite <- !app_assoc.
    assert (Lf : length (firstn 129 out) = 129%nat) by (apply firstn_length_le, L).
    replace (firstn 129 out ++ s ++ cp ++ a ++ rest) with ((firstn 129 out ++ s ++ cp) ++ a ++ rest) by (rewrite <- !app_assoc; reflexivity).
    rewrite skipn_app. rewrite skipn_all2 by (rewrite !app_length; lia). rewrite !app_length, Lf, Lc.
    replace (length s + 133 - (129 + (length s + 4)))%nat with 0%nat by lia. reflexivity. }
  rewrite E. unfold each. apply (repeat_read_concat _ VariableParameter_deserialize VariableParameter_serialize).
  intros x r. eapply fx_rt. eauto with fx nocore.
Qed.
(** An entity state with an 11 byte marking and one articulation parameter; the first bytes
    that [deserialize] leaves are the rest of the marking and the capabilities. *)
Definition entity_example : pdu EntityStatePdu :=
  mk_pdu (c := EntityStatePdu) (header (pdu_default EntityStatePdu (as_u32 0)))
    (EntityId_default, (enum_default ForceId_spec, (as_uint 1 1, (EntityType_default, (EntityType_default, (LinearVelocity_default,
     (WorldCoordinate_default, (EulerAngles_default, (as_uint 4 0, (DeadReckoningParameters_default,
     (mk_EntityMarking (enum_default EntityMarkingCharacterSet_spec) (repeat (as_uint 1 65) 11),
     (enum_default EntityCapabilities_spec, ([VariableParameter_default], tt))))))))))))).
Example C74_entity_state_example :
  match serialize EntityStatePdu entity_example [] with
  | Ok (ROk tt, _, out) =>
      match deserialize EntityStatePdu (out ++ [B 77]) with
      | Ok (ROk q, more) => Some (uval (EntityStatePdu_number_of_articulation_parameters q), map (@uval 1) (firstn 11 more), length more)
      | _ => None
      end
  | _ => None
  end = Some (1, [65; 65; 65; 65; 65; 65; 65; 0; 0; 0; 0], 28%nat).
Proof. vm_compute. reflexivity. Qed.

Lemma be4_number bs i : (4 <= length (skipn i bs))%nat -> be4_at bs i = number (firstn 4 (skipn i bs)).
Proof.
  intros L. unfold be4_at. replace (byte_at bs i) with (byte_at bs (i + 0)) by (f_equal; lia). rewrite <- !byte_at_skipn.
  destruct (skipn i bs) as [|a [|b [|c [|d l]]]]; cbn [length] in L; try lia.
  unfold byte_at. cbn [nth firstn]. unfold number. cbn [fold_left]. lia.
Qed.
(** The length of the marking need not be known: of a datagram received alone, what remains
    after the decoded number of 16 byte parameters is taken off its end is the number of
    marking bytes. With it the marking and the capabilities, which [deserialize] gets wrong
    (C28), can be read off the datagram. *)
Theorem C74_entity_state_datagram : forall p buf p' out,
  serialize EntityStatePdu p buf = Ok (ROk tt, p', buf ++ out) ->
  uval (EntityStatePdu_number_of_articulation_parameters p) = N.of_nat (length (EntityStatePdu_articulation_parameter p)) ->
  exists q left, deserialize EntityStatePdu out = Ok (ROk q, left) /\
    let n := N.to_nat (uval (EntityStatePdu_number_of_articulation_parameters q)) in
    let k := (length left - 16 * n)%nat in
    repeat_read n VariableParameter_deserialize (skipn k left) = Ok (EntityStatePdu_articulation_parameter p, []) /\
    slice 129 k out = EntityMarking_entity_marking_string (EntityStatePdu_entity_marking p) /\
    be4_at out (129 + k) = code (EntityStatePdu_entity_capabilities p).
Proof.
  intros p buf p' out S N.
  destruct (tail_of (mk_pdu_layout EntityStatePdu EntityStatePdu_map 129 EntityStatePdu_tail) p buf p' out (nth_error_In (layouts Checked) 5 eq_refl) S) as [T L].
  cbn [pl_end pl_tail] in T, L.
  destruct (C28_entity_state_roundtrip p buf p' out [] S) as [q [D [[_ K] _]]].
  destruct (C74_entity_state p buf p' out [] S N) as [q2 [left [D2 R]]]. rewrite D in D2. injection D2 as <- <-.
  rewrite app_nil_r in *. exists q, (skipn 133 out). split; [exact D|].
  assert (Q : EntityStatePdu_number_of_articulation_parameters q = EntityStatePdu_number_of_articulation_parameters p).
  { apply (f_equal (fun b => EntityStatePdu_number_of_articulation_parameters (mk_pdu (c := EntityStatePdu) (header q) b))) in K.
    destruct (serialize_spec Checked EntityStatePdu ltac:(apply (nth_error_In _ 5); reflexivity) _ _ _ _ S) as [_ [_ [_ [_ [_ [Eb _]]]]]].
    transitivity (EntityStatePdu_number_of_articulation_parameters p'); [exact K|].
    unfold EntityStatePdu_number_of_articulation_parameters. rewrite Eb. reflexivity. }
  cbv zeta.
  set (s := EntityMarking_entity_marking_string (EntityStatePdu_entity_marking p)) in *.
  assert (Lc : length (coded 4 (EntityStatePdu_entity_capabilities p)) = 4%nat) by (unfold coded; apply big_endian_length).
  assert (La : forall l, length (each VariableParameter_serialize l) = (16 * length l)%nat).
  { intros l. unfold each. induction l as [|x l IH]; [reflexivity|].
    cbn [map List.concat length]. rewrite app_length, IH, (fx_len _ _ _ _ VariableParameter_fixed). lia. }
  assert (Lo : length (skipn 129 out) = (length s + 4 + 16 * length (EntityStatePdu_articulation_parameter p))%nat).
  { rewrite T. unfold EntityStatePdu_tail. fold s. rewrite !app_length, Lc, La. lia. }
  rewrite skipn_length in Lo.
  assert (Kk : (length (skipn 133 out) - 16 * N.to_nat (uval (EntityStatePdu_number_of_articulation_parameters q)))%nat = length s).
  { rewrite Q, N, Nat2N.id, skipn_length. lia. }
  rewrite Kk. split; [exact R|]. split.
  - unfold slice. rewrite T. unfold EntityStatePdu_tail. fold s. rewrite <- ?app_assoc. rewrite firstn_app, firstn_all, Nat.sub_diag. cbn [firstn]. apply app_nil_r.
  - assert (C4 : skipn (129 + length s) out = coded 4 (EntityStatePdu_entity_capabilities p) ++ each VariableParameter_serialize (EntityStatePdu_articulation_parameter p)).
    { rewrite Nat.add_comm, <- PduProofs.skipn_add, T. unfold EntityStatePdu_tail. fold s. rewrite <- ?app_assoc.
      rewrite skipn_app, skipn_all, Nat.sub_diag. reflexivity. }
    rewrite be4_number by (rewrite C4, app_length, Lc; lia). rewrite C4, firstn_app, Lc, firstn_all2 by lia.
    cbn [Nat.sub firstn]. rewrite app_nil_r. unfold coded.
    apply number_big_endian. exact (enum_fits _ (EntityStatePdu_entity_capabilities p)).
Qed.
(** Aggregate states: the four bytes behind the fixed part are decoded as the number of
    variable data (C45). A caller who puts these four bytes back in front of what is left
    finds the lists, then the number that was sent, then the variable data. *)
Theorem C74_aggregate_state : forall p buf p' out rest,
  serialize AggregateStatePdu p buf = Ok (ROk tt, p', buf ++ out) ->
  Forall datum_filled (AggregateStatePdu_variable_datum_list p) ->
  exists q left data, deserialize AggregateStatePdu (out ++ rest) = Ok (ROk q, left) /\
    reads_back (fun l => N.of_nat (length (sl_list l p))) p aggregate_lists
      (big_endian 4 (uval (AggregateStatePdu_number_of_variable_datum_records q)) ++ left)
      (big_endian 4 (uval (AggregateStatePdu_number_of_variable_datum_records p)) ++ data) /\
    repeat_read (length (AggregateStatePdu_variable_datum_list p)) mended_datum data = Ok (AggregateStatePdu_variable_datum_list p, rest) /\
    uval (AggregateStatePdu_number_of_dis_aggregates q) = uval (AggregateStatePdu_number_of_dis_aggregates p) /\
    uval (AggregateStatePdu_number_of_dis_entities q) = uval (AggregateStatePdu_number_of_dis_entities p) /\
    uval (AggregateStatePdu_number_of_silent_aggregate_types q) = uval (AggregateStatePdu_number_of_silent_aggregate_types p) /\
    uval (AggregateStatePdu_number_of_silent_entity_types q) = uval (AggregateStatePdu_number_of_silent_entity_types p).
Proof.
  intros p buf p' out rest S G. destruct (C45_aggregate_roundtrip p buf p' out rest S) as [q [D [[_ K] [_ [_ [_ [_ [_ [_ U]]]]]]]]].
  destruct (tail_of (mk_pdu_layout AggregateStatePdu AggregateStatePdu_map 132 AggregateStatePdu_tail) p buf p' out (nth_error_In (layouts Checked) 10 eq_refl) S) as [T L].
  cbn [pl_end pl_tail] in T, L.
  assert (X : skipn 132 (out ++ rest) = AggregateStatePdu_tail p ++ rest).
  { rewrite skipn_app, T. replace (132 - length out)%nat with 0%nat by lia. reflexivity. }
  assert (L4 : (4 <= length (AggregateStatePdu_tail p ++ rest))%nat).
  { unfold AggregateStatePdu_tail, be. rewrite !app_length, big_endian_length. lia. }
  assert (F : big_endian 4 (uval (AggregateStatePdu_number_of_variable_datum_records q)) ++ skipn 136 (out ++ rest) = AggregateStatePdu_tail p ++ rest).
  { rewrite <- X. change 136%nat with (4 + 132)%nat. rewrite <- PduProofs.skipn_add, X, U.
    rewrite <- (firstn_skipn 4 (AggregateStatePdu_tail p ++ rest)) at 2. f_equal.
    assert (B4 := big_endian_number (firstn 4 (AggregateStatePdu_tail p ++ rest))). rewrite firstn_length_le in B4 by exact L4.
    rewrite <- B4. f_equal. rewrite <- X. apply be4_number. rewrite X. exact L4. }
  exists q, (skipn 136 (out ++ rest)), (each VariableDatumRecord_serialize (AggregateStatePdu_variable_datum_list p) ++ rest).
  split; [exact D|]. split.
  { rewrite F. unfold AggregateStatePdu_tail. rewrite <- !app_assoc.
    assert (A : Forall (fun l => Forall (sl_good l) (sl_list l p)) aggregate_lists).
    { repeat (apply Forall_cons; [apply Forall_forall; intros x _; exact I|]). apply Forall_nil. }
    unfold aggregate_lists in *. reads_tac A. }
  split.
  { unfold each. apply (repeat_read_concat_P _ datum_filled); [|exact G]. intros x r Gx. apply elem_datum, Gx. }
  destruct (serialize_spec Checked AggregateStatePdu ltac:(apply (nth_error_In _ 10); reflexivity) _ _ _ _ S) as [_ [_ [_ [_ [_ [Eb _]]]]]].
  assert (W : forall (f : values (cls_fields AggregateStatePdu) -> N), (forall b, f (reset_fields ["aggregate_id_list"; "entity_id_list"; "padding"; "silent_aggregate_system_list";
      "silent_entity_system_list"; "number_of_variable_datum_records"; "variable_datum_list"]%string (cls_fields AggregateStatePdu) b) = f b) ->
    (forall b, f (prep_body (cls_fields AggregateStatePdu) b) = f b) -> f (body q) = f (body p)).
  { intros f R1 R2. apply (f_equal f) in K. rewrite !R1 in K. rewrite K, Eb. apply R2. }
  split; [|split; [|split]].
  - exact (W (fun b => uval (AggregateStatePdu_number_of_dis_aggregates (mk_pdu (c := AggregateStatePdu) (header q) b))) (fun _ => eq_refl) (fun _ => eq_refl)).
  - exact (W (fun b => uval (AggregateStatePdu_number_of_dis_entities (mk_pdu (c := AggregateStatePdu) (header q) b))) (fun _ => eq_refl) (fun _ => eq_refl)).
  - exact (W (fun b => uval (AggregateStatePdu_number_of_silent_aggregate_types (mk_pdu (c := AggregateStatePdu) (header q) b))) (fun _ => eq_refl) (fun _ => eq_refl)).
  - exact (W (fun b => uval (AggregateStatePdu_number_of_silent_entity_types (mk_pdu (c := AggregateStatePdu) (header q) b))) (fun _ => eq_refl) (fun _ => eq_refl)).
Qed.

(** What the theorems above rest on (one traversal for all of them; not part of the model). *)
Definition Prop_Recover_theorems : True :=
  let _ := @C74_classes in
  let _ := @C74_lists_recovered in
  let _ := @C74_announced in
  let _ := @C74_iff_parameters in
  let _ := @C74_entity_state in
  let _ := @C74_entity_state_datagram in
  let _ := @C74_aggregate_state in
  I.
Print Assumptions Prop_Recover_theorems.
