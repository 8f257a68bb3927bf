(** * From wire maps to whole PDUs (proofs only). *)
From Verif Require Import Base BaseFacts EnumModel Enums EnumFacts Fixed Header HeaderFacts PduMacro PduMacroFacts
  DataTypes Bitflags Pdus PduFields Spec RecordFacts ClassFacts PduProofs Wire WireMaps WireProofs WireFacts.

Lemma maps_classes m : map pm_class (wire_maps m) = all_pdus m.
Proof. reflexivity. Qed.
Lemma map_class m x : In x (wire_maps m) -> In (pm_class x) (all_pdus m).
Proof. intros I. rewrite <- maps_classes. apply in_map, I. Qed.

Lemma map_sent m x : In x (wire_maps m) -> forall p buf p' out,
  serialize (pm_class x) p buf = Ok (ROk tt, p', buf ++ out) -> Forall (sent out p') (pm_entries x).
Proof.
  intros I p buf p' out S. assert (W := all_wpdu m). rewrite Forall_forall in W. destruct (W _ I) as [L [[WS _] E]].
  destruct (serialize_spec m _ (map_class m x I) _ _ _ _ S) as [fl [Eo [_ [_ [_ [Eb Wf]]]]]].
  apply app_inv_head in Eo. rewrite E, Eo. rewrite <- (app_nil_r fl). apply sent_place; [apply header_ser_length|].
  apply WS. exact Wf.
Qed.
Lemma map_received m x : In x (wire_maps m) -> forall bs p rest,
  deserialize (pm_class x) bs = Ok (ROk p, rest) -> Forall (received bs p) (pm_entries x).
Proof.
  intros I bs p rest D. assert (W := all_wpdu m). rewrite Forall_forall in W. destruct (W _ I) as [L [[_ WD] E]].
  destruct (Nat.ltb_spec (length bs) 12) as [H|H]; [rewrite deserialize_short in D by exact H; discriminate|].
  destruct (deserialize_cases (pm_class x) bs H) as [h [_ [_ T]]]. rewrite T in D.
  destruct (_ =? _); [|discriminate]. unfold deserialize_without_header in D.
  destruct (body_deserialize _ _ _) as [[b r]|] eqn:B; [|discriminate]. injection D as <- _.
  rewrite E. apply received_place. cbn [body]. eapply WD, B.
Qed.

(** ** Slices *)
Lemma slice_split off a b l : slice off (a + b) l = slice off a l ++ slice (off + a) b l.
Proof.
  unfold slice. rewrite (Nat.add_comm off a), <- skipn_add. generalize (skipn off l). clear. intros l. revert l.
  induction a as [|a IH]; intros l; [reflexivity|]. destruct l as [|x l]; [now rewrite skipn_nil, !firstn_nil|].
  cbn [Nat.add firstn skipn app]. now rewrite IH.
Qed.
Lemma slice_length off w (l : bytes) : (off + w <= length l)%nat -> length (slice off w l) = w.
Proof. intros H. unfold slice. rewrite firstn_length, skipn_length. lia. Qed.
Lemma tiles_le {T} (es : list (entry T)) : forall a b, tiles a b es -> (a <= b)%nat.
Proof. induction es as [|e es IH]; intros a b H; cbn in H; [lia|]. destruct H as [_ H]. apply IH in H. lia. Qed.
Lemma tiles_slices {T} (es : list (entry T)) (A D : bytes) : forall a b, tiles a b es -> (b <= length A)%nat -> (b <= length D)%nat ->
  (slice a (b - a) A = slice a (b - a) D <-> Forall (fun e => slice (en_off e) (en_width e) A = slice (en_off e) (en_width e) D) es).
Proof.
  induction es as [|e es IH]; intros a b H LA LD.
  - cbn in H. subst b. rewrite Nat.sub_diag. split; [constructor | reflexivity].
  - destruct H as [<- H]. assert (K := tiles_le _ _ _ H). specialize (IH _ _ H LA LD).
    replace (b - en_off e)%nat with (en_width e + (b - (en_off e + en_width e)))%nat by lia.
    rewrite !slice_split. split.
    + intros E. apply app_eq_app in E. assert (L1 : length (slice (en_off e) (en_width e) A) = en_width e) by (apply slice_length; lia).
      assert (L2 : length (slice (en_off e) (en_width e) D) = en_width e) by (apply slice_length; lia).
      assert (G : slice (en_off e) (en_width e) A = slice (en_off e) (en_width e) D /\
                  slice (en_off e + en_width e) (b - (en_off e + en_width e)) A = slice (en_off e + en_width e) (b - (en_off e + en_width e)) D).
      { destruct E as [l [[E1 E2]|[E1 E2]]]; (destruct l as [|z l]; [rewrite app_nil_r in E1; cbn in E2; split; congruence|]);
          exfalso; apply (f_equal (@length _)) in E1; rewrite app_length in E1; cbn [length] in E1; lia. }
      constructor; [apply G | apply IH, G].
    + intros F. inversion F as [|x l E1 E2 EQ]; subst. rewrite E1. f_equal. apply IH, E2.
Qed.

(** ** Numbers *)
Lemma number_lt bs : number bs < 256 ^ N.of_nat (length bs).
Proof. rewrite number_eq. apply be_decode_lt. Qed.
Lemma big_endian_number bs : big_endian (length bs) (number bs) = bs.
Proof. rewrite big_endian_eq, number_eq. apply be_encode_decode. Qed.
Lemma number_big_endian w n : n < 256 ^ N.of_nat w -> number (big_endian w n) = n.
Proof. intros H. rewrite big_endian_eq, number_eq, be_decode_encode. now apply N.mod_small. Qed.

(** ** Shape of the entries *)
Definition bounded {T} (e : entry T) : Prop :=
  forall n, n < 256 ^ N.of_nat (en_width e) -> en_norm e n < 256 ^ N.of_nat (en_width e).
Definition faithful {T} (e : entry T) : Prop := forall v, en_put e v = en_get e v.
Definition sig {T} (e : entry T) : nat * (N -> N) := (en_width e, en_norm e).
Definition bnd (x : nat * (N -> N)) : Prop := forall n, n < 256 ^ N.of_nat (fst x) -> snd x n < 256 ^ N.of_nat (fst x).
Lemma id_bnd w : bnd (w, fun n => n).
Proof. intros n H. exact H. Qed.
Lemma known_bnd w e : e_bytes e = w -> bnd (w, known e).
Proof.
  intros <- n H. cbn [fst snd] in *. unfold known. destruct (existsb _ _); [exact H|]. apply (enum_fits e (enum_default e)).
Qed.
Lemma mask_bnd w d : bnd (w, fun n => if N.land n d =? n then n else 0).
Proof. intros n H. cbn [fst snd] in *. destruct (_ =? _); [exact H | apply pow256_pos]. Qed.
Lemma bounded_sig {T} (es : list (entry T)) : Forall bnd (map sig es) -> Forall bounded es.
Proof. induction es as [|e es IH]; intros F; [constructor|]. inversion F; subst. constructor; [assumption | apply IH; assumption]. Qed.
Ltac bounded_tac M :=
  apply bounded_sig; cbv [map sig M num cod flg lost en_width en_norm];
  repeat (apply Forall_cons; [first [apply id_bnd | apply known_bnd; reflexivity | apply mask_bnd]|]); apply Forall_nil.
Lemma all_bounded m : Forall (fun x => Forall bounded (pm_entries x)) (wire_maps m).
Proof.
  unfold wire_maps.
  repeat (apply Forall_cons; [cbn [pm_entries]; match goal with
    | |- Forall _ (?h _) => bounded_tac h | |- Forall _ ?h => bounded_tac h end|]); apply Forall_nil.
Qed.

Ltac faithful_tac := repeat (apply Forall_cons; [intros ?; reflexivity|]); apply Forall_nil.
Lemma all_faithful m : Forall (fun x => fixed_layout (pm_class x) -> Forall faithful (pm_entries x)) (wire_maps m).
Proof.
  unfold wire_maps.
  repeat (apply Forall_cons; [cbn [pm_entries pm_class]; intros [O L];
    first [ exfalso; discriminate O | exfalso; discriminate L
          | match goal with |- Forall _ (?h _) => unfold h | |- Forall _ ?h => unfold h end; faithful_tac ]|]); apply Forall_nil.
Qed.
Fixpoint tilesb (a b : nat) (l : list (nat * nat)) : bool :=
  match l with [] => Nat.eqb a b | (o, w) :: l' => Nat.eqb o a && tilesb (a + w) b l' end.
Lemma tilesb_ok {T} (es : list (entry T)) b : forall a, tilesb a b (map (fun e => (en_off e, en_width e)) es) = true -> tiles a b es.
Proof.
  induction es as [|e es IH]; intros a H; cbn in H; [apply Nat.eqb_eq, H|].
  apply andb_prop in H. destruct H as [E H]. apply Nat.eqb_eq in E. split; [exact E | apply IH, H].
Qed.
Lemma all_tiles m : Forall (fun x => tiles 12 (pm_end x) (pm_entries x)) (wire_maps m).
Proof.
  unfold wire_maps. repeat (apply Forall_cons; [apply tilesb_ok; vm_compute; reflexivity|]); apply Forall_nil.
Qed.
Lemma all_ends m : Forall (fun x => ordinary (pm_class x) -> N.of_nat (pm_end x) = default_size (pm_class x)) (wire_maps m).
Proof.
  unfold wire_maps. repeat (apply Forall_cons; [intros O; first [discriminate O | reflexivity]|]); apply Forall_nil.
Qed.

(** ** Re-encoding *)
Lemma place_body {c} (L : list (entry (values (cls_fields c)))) (p q : pdu c) e : body p = body q ->
  In e (place (fun s => s) 12 body L) -> en_put e p = en_put e q /\ en_get e p = en_get e q.
Proof. intros E I. apply in_map_iff in I. destruct I as [e0 [<- _]]. cbn [en_put en_get]. rewrite E. split; reflexivity. Qed.

Lemma reencode m x : In x (wire_maps m) -> fixed_layout (pm_class x) -> forall bs p rest p' out,
  deserialize (pm_class x) bs = Ok (ROk p, rest) -> serialize (pm_class x) p [] = Ok (ROk tt, p', out) ->
  (slice 12 (pm_end x - 12) out = slice 12 (pm_end x - 12) bs <->
   Forall (fun e => let n := number (slice (en_off e) (en_width e) bs) in en_norm e n = n) (pm_entries x)).
Proof.
  intros I F bs p rest p' out D S.
  assert (Ic := map_class m x I).
  assert (SE := map_sent m x I p [] p' out S). assert (RE := map_received m x I _ _ _ D).
  destruct (fixed_serialize m _ Ic F p []) as [p1 [o1 [E1 [Eb [_ [Lo _]]]]]]. rewrite E1 in S. cbn [app] in S. injection S as -> ->.
  assert (Bo := all_bounded m). assert (Fa := all_faithful m). assert (Ti := all_tiles m). assert (En := all_ends m). assert (Wp := all_wpdu m).
  rewrite Forall_forall in Bo, Fa, Ti, En, Wp. specialize (Bo _ I). specialize (Fa _ I F). specialize (Ti _ I). specialize (En _ I (proj1 F)).
  destruct (Wp _ I) as [L [_ EL]].
  assert (Lb : (pm_end x <= length bs)%nat).
  { destruct (fixed_consumes m _ Ic F _ _ _ D) as [pre [-> Lp]]. rewrite app_length. unfold lenN in Lp. lia. }
  assert (Lo' : (pm_end x <= length out)%nat) by (unfold lenN in Lo; lia).
  rewrite (tiles_slices _ out bs _ _ Ti Lo' Lb). rewrite Forall_forall in SE, RE, Bo, Fa. rewrite !Forall_forall.
  assert (In_bounds : forall e, In e (pm_entries x) -> (en_off e + en_width e <= pm_end x)%nat).
  { clear - Ti. revert Ti. generalize 12%nat. induction (pm_entries x) as [|a l IH]; intros k T e Ie; [destruct Ie|].
    destruct T as [<- T]. destruct Ie as [<-|Ie]; [apply tiles_le in T; exact T | apply (IH _ T), Ie]. }
  assert (Key : forall e, In e (pm_entries x) ->
    (slice (en_off e) (en_width e) out = slice (en_off e) (en_width e) bs <->
     en_norm e (number (slice (en_off e) (en_width e) bs)) = number (slice (en_off e) (en_width e) bs))).
  { intros e Ie. assert (Hs := SE _ Ie). assert (Hr := RE _ Ie). unfold sent in Hs. unfold received in Hr.
    assert (Ls : length (slice (en_off e) (en_width e) bs) = en_width e) by (apply slice_length; specialize (In_bounds _ Ie); lia).
    assert (Hn := number_lt (slice (en_off e) (en_width e) bs)). rewrite Ls in Hn.
    assert (Hb := Bo _ Ie _ Hn).
    assert (Hp : en_put e p' = en_norm e (number (slice (en_off e) (en_width e) bs))).
    { rewrite EL in Ie. rewrite (proj1 (place_body L p' p e Eb Ie)), <- Hr. apply Fa. rewrite EL. exact Ie. }
    rewrite Hs, Hp. split; intros E.
    - apply (f_equal number) in E. rewrite number_big_endian in E by exact Hb. exact E.
    - rewrite E. rewrite <- Ls at 1. apply big_endian_number. }
  split; intros H e Ie; apply (Key e Ie), H, Ie.
Qed.
