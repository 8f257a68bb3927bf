(** * Complete layouts (proofs only). *)
From Verif Require Import Base BaseFacts EnumModel Enums EnumFacts Fixed Header HeaderFacts PduMacro PduMacroFacts
  DataTypes DataTypesFacts Bitflags BitflagsFacts Pdus PdusFacts PduFields Spec RecordFacts ClassFacts PduProofs
  Wire WireMaps WireProofs WireFacts WireClass SpecLayout TailFacts.

Lemma laid_slice {T} (es : list (entry T)) v bs : forall a b, tiles a b es -> Forall (sent bs v) es -> slice a (b - a) bs = laid_out es v.
Proof.
  induction es as [|e es IH]; intros a b H F.
  - cbn in H. subst b. rewrite Nat.sub_diag. reflexivity.
  - destruct H as [<- H]. assert (K := tiles_le _ _ _ H). inversion F as [|x l E1 E2 EQ]; subst.
    replace (b - en_off e)%nat with (en_width e + (b - (en_off e + en_width e)))%nat by lia.
    rewrite slice_split, (IH _ _ H E2). unfold laid_out. cbn [map List.concat]. f_equal. exact E1.
Qed.
Lemma big_endian_length w n : length (big_endian w n) = w.
Proof. rewrite big_endian_eq. apply be_encode_length. Qed.
Lemma laid_length {T} (es : list (entry T)) v : forall a b, tiles a b es -> length (laid_out es v) = (b - a)%nat.
Proof.
  induction es as [|e es IH]; intros a b H.
  - cbn in H. subst b. rewrite Nat.sub_diag. reflexivity.
  - destruct H as [<- H]. assert (K := tiles_le _ _ _ H). unfold laid_out in *. cbn [map List.concat].
    rewrite app_length, big_endian_length, (IH _ _ H). lia.
Qed.
Lemma layouts_maps m : map (fun l => mk_pdu_map (pl_class l) (pl_map l) (pl_end l)) (layouts m) = wire_maps m.
Proof. reflexivity. Qed.
Lemma layout_map m l : In l (layouts m) -> In (mk_pdu_map (pl_class l) (pl_map l) (pl_end l)) (wire_maps m).
Proof. intros I. rewrite <- layouts_maps. exact (in_map _ _ _ I). Qed.
Lemma layout_class m l : In l (layouts m) -> In (pl_class l) (all_pdus m).
Proof. intros I. exact (map_class m _ (layout_map m l I)). Qed.

(** The automatic length field is in the map, not in the tail. *)
Definition same_tail (l : pdu_layout) : Prop := forall p p' : pdu (pl_class l), body p' = prep_body (cls_fields (pl_class l)) (body p) -> pl_tail l p' = pl_tail l p.
Lemma all_same_tail m : Forall same_tail (layouts m).
Proof.
  unfold layouts. repeat (apply Forall_cons; [intros p p' E; destruct p as [h b], p' as [h' b']; cbn in E; subst b'; reflexivity|]). apply Forall_nil.
Qed.

Lemma datagram m l : In l (layouts m) -> forall p buf p' out,
  serialize (pl_class l) p buf = Ok (ROk tt, p', buf ++ out) ->
  out = PduHeader_serialize (header p') ++ laid_out (pl_map l) p' ++ pl_tail l p /\
  length (laid_out (pl_map l) p') = (pl_end l - 12)%nat.
Proof.
  intros I p buf p' out S.
  destruct (serialize_spec m _ (layout_class m l I) _ _ _ _ S) as [fl [Eo [_ [_ [_ [Eb Wf]]]]]]. apply app_inv_head in Eo.
  assert (Ti := all_tiles m). rewrite Forall_forall in Ti. specialize (Ti _ (layout_map m l I)). cbn [pm_entries pm_end] in Ti.
  assert (Le := laid_length _ p' _ _ Ti). split; [|exact Le].
  assert (Se := map_sent m _ (layout_map m l I) p buf p' out S). cbn [pm_entries] in Se.
  assert (La := laid_slice _ p' out _ _ Ti Se).
  assert (To := all_tail_ok m). rewrite Forall_forall in To. specialize (To _ I p' _ Wf). destruct To as [h [Ef Lh]].
  assert (Sa := all_same_tail m). rewrite Forall_forall in Sa. specialize (Sa _ I p p' Eb). rewrite Sa in Ef. clear Sa.
  subst out. subst fl. unfold slice in La. f_equal.
  assert (H12 : length (PduHeader_serialize (header p')) = 12%nat) by apply header_ser_length.
  rewrite skipn_app, H12, Nat.sub_diag in La. rewrite skipn_all2 in La by lia. cbn [skipn app] in La.
  rewrite firstn_app, Lh, Nat.sub_diag in La. cbn [firstn] in La. rewrite app_nil_r, firstn_all2 in La by lia. rewrite La. reflexivity.
Qed.
