(** * Decoding of the ordinary classes is determined by the wire maps (proofs only). *)
From Verif Require Import Base BaseFacts EnumModel Enums EnumFacts Fixed Header HeaderFacts HeaderProofs PduMacro PduMacroFacts
  DataTypes Bitflags Pdus PdusFacts PduFields Spec RecordFacts ClassFacts PduProofs
  Wire WireMaps WireProofs WireFacts WireClass SpecFaults Prop_Wire Prop_Faults SpecLayout TailFacts LayoutFacts.

Lemma all_faithful_ordinary m : Forall (fun x => ordinary (pm_class x) -> Forall faithful (pm_entries x)) (wire_maps m).
Proof.
  unfold wire_maps.
  repeat (apply Forall_cons; [cbn [pm_entries pm_class]; intros O;
    first [ exfalso; discriminate O
          | match goal with |- Forall _ (?h _) => unfold h | |- Forall _ ?h => unfold h end; faithful_tac ]|]); apply Forall_nil.
Qed.
Lemma cleared_size m c : In c (all_pdus m) -> ordinary c -> forall p : pdu c, declared_size (clear_lists p) = default_size c.
Proof.
  revert c. by_class.
  all_classes ltac:(intros O; vm_compute in O; first [discriminate O | intros p; reflexivity]).
Qed.
Lemma header_entries_inj c (p q : pdu c) : Forall (fun e => en_get e p = en_get e q) (@header_entries c) -> header p = header q.
Proof.
  intros F. unfold header_entries, cod, num in F.
  inversion F as [|? ? A1 F1]; subst. inversion F1 as [|? ? A2 F2]; subst. inversion F2 as [|? ? A3 F3]; subst. inversion F3 as [|? ? A4 F4]; subst.
  inversion F4 as [|? ? A5 F5]; subst. inversion F5 as [|? ? A6 F6]; subst. inversion F6 as [|? ? A7 F7]; subst. inversion F7 as [|? ? A8 _]; subst.
  cbn [en_get] in *. apply enum_eq in A1, A3, A4. apply uint_eq in A2, A5, A6, A7, A8.
  destruct (header p) as [v1 v2 v3 v4 v5 v6 [v7] v8], (header q) as [w1 w2 w3 w4 w5 w6 [w7] w8]. cbn in *. congruence.
Qed.
Lemma stamped_eq t f len h h1 h2 : stamped t f len h h1 -> stamped t f len h h2 -> h1 = h2.
Proof.
  intros (A1 & A2 & A3 & A4 & A5 & A6 & A7 & A8) (B1 & B2 & B3 & B4 & B5 & B6 & B7 & B8).
  destruct h1, h2. cbn in *. congruence.
Qed.
Lemma cleared_serialize m c : In c (all_pdus m) -> ordinary c -> forall p : pdu c, clear_lists p = p ->
  exists p' out, serialize c p [] = Ok (ROk tt, p', [] ++ out) /\ body p' = body p /\
    stamped (cls_type c) (cls_family c) (as_u16 (default_size c)) (header p) (header p').
Proof.
  intros I O p E. assert (P := all_prep_ok m c I). assert (Ds := cleared_size m c I O p). rewrite E in Ds.
  destruct (serialize_cases c p [] P) as [[L _]|[L [h' [St S]]]].
  { assert (K := default_size_small m c I). lia. }
  destruct (ordinary_ser_total m c I O (prep_body (cls_fields c) (body p))) as [fl W]. rewrite W in S. rewrite Ds in St.
  eexists _, _. split; [exact S|]. cbn [body header]. split; [apply (no_auto_prep m c I O) | exact St].
Qed.
Lemma tiles_in {T} (es : list (entry T)) e : forall a b, tiles a b es -> In e es -> (a <= en_off e /\ en_off e + en_width e <= b)%nat.
Proof.
  induction es as [|x es IH]; intros a b H I; [destruct I|]. destruct H as [<- H]. assert (K := tiles_le _ _ _ H).
  destruct I as [<-|I]; [lia|]. specialize (IH _ _ H I). lia.
Qed.
Lemma maps_complete m l : In l (layouts m) -> ordinary (pl_class l) -> forall p q : pdu (pl_class l),
  clear_lists p = p -> clear_lists q = q ->
  Forall (fun e => en_get e p = en_get e q) (header_entries ++ pl_map l) -> p = q.
Proof.
  intros I O p q Cp Cq F. apply Forall_app in F. destruct F as [FH FM]. apply header_entries_inj in FH.
  assert (Ic := layout_class m l I). assert (Im := layout_map m l I).
  destruct (cleared_serialize m _ Ic O p Cp) as [p1 [o1 [S1 [B1 St1]]]].
  destruct (cleared_serialize m _ Ic O q Cq) as [q1 [o2 [S2 [B2 St2]]]].
  destruct (datagram m l I _ _ _ _ S1) as [E1 L1]. destruct (datagram m l I _ _ _ _ S2) as [E2 L2].
  assert (H1 : header p1 = header q1) by (rewrite FH in St1; exact (stamped_eq _ _ _ _ _ _ St1 St2)).
  assert (M : laid_out (pl_map l) p1 = laid_out (pl_map l) q1).
  { assert (Fa := all_faithful_ordinary m). rewrite Forall_forall in Fa. specialize (Fa _ Im O). cbn [pm_entries] in Fa. rewrite Forall_forall in Fa, FM.
    assert (Wp := all_wpdu m). rewrite Forall_forall in Wp. destruct (Wp _ Im) as [L [_ EL]]. cbn [pm_entries pm_class] in EL.
    unfold laid_out. f_equal. apply map_ext_in. intros e Ie. f_equal.
    assert (Ie' := Ie). rewrite EL in Ie'.
    transitivity (en_put e p); [exact (proj1 (place_body L p1 p e B1 Ie'))|].
    transitivity (en_get e p); [exact (Fa e Ie p)|]. transitivity (en_get e q); [exact (FM e Ie)|].
    transitivity (en_put e q); [symmetry; exact (Fa e Ie q) | symmetry; exact (proj1 (place_body L q1 q e B2 Ie'))]. }
  rewrite H1, M in E1. set (A := PduHeader_serialize (header q1) ++ laid_out (pl_map l) q1) in *.
  assert (E1' : o1 = A ++ pl_tail l p) by (unfold A; rewrite <- app_assoc; exact E1).
  assert (E2' : o2 = A ++ pl_tail l q) by (unfold A; rewrite <- app_assoc; exact E2).
  assert (En := all_ends m). rewrite Forall_forall in En. specialize (En _ Im O). cbn [pm_end pm_class] in En.
  assert (G := default_size_ge m _ Ic).
  assert (LA : lenN A = default_size (pl_class l)).
  { unfold A, lenN. rewrite app_length, header_ser_length, L2. lia. }
  destruct (ordinary_roundtrip m _ Ic O _ _ _ _ S1) as [_ [x1 [X1 [_ R1]]]]. cbn [app] in X1. subst x1.
  destruct (ordinary_roundtrip m _ Ic O _ _ _ _ S2) as [_ [x2 [X2 [_ R2]]]]. cbn [app] in X2. subst x2.
  specialize (R1 []). specialize (R2 []). rewrite !app_nil_r in R1, R2. rewrite E1' in R1. rewrite E2' in R2.
  assert (T : wire_type A = code (cls_type (pl_class l))).
  { assert (LA' : (12 <= length A)%nat) by (unfold lenN in LA; lia). 
    destruct (Nat.ltb_spec (length (A ++ pl_tail l q)) 12) as [K|K]; [rewrite app_length in K; lia|].
    destruct (deserialize_cases (pl_class l) _ K) as [h [_ [_ D]]]. rewrite D in R2.
    destruct (N.eqb_spec (wire_type (A ++ pl_tail l q)) (code (cls_type (pl_class l)))) as [Q|Q]; [|discriminate R2].
    rewrite <- Q. unfold wire_type, byte_at. rewrite app_nth1 by lia. reflexivity. }
  destruct (ordinary_local m _ Ic O A LA T) as [r Hr]. rewrite Hr in R1, R2. injection R1 as R1 _. injection R2 as R2 _.
  assert (Eb : body p = body q).
  { transitivity (body r).
    - transitivity (body (clear_lists p)); [now rewrite Cp|]. rewrite R1. unfold clear_lists. cbn [body]. rewrite B1. reflexivity.
    - transitivity (body (clear_lists q)); [|now rewrite Cq]. rewrite R2. unfold clear_lists. cbn [body]. rewrite B2. reflexivity. }
  destruct p, q. cbn in *. congruence.
Qed.

(** Decoded lists are empty. *)
Definition unread_field (names : list string) (f : field) : Prop :=
  mem_string (f_name f) names = true -> f_len_attr f = None /\ forall bs, c_des (f_codec f) bs = Ok (f_default f, bs).
Lemma decoded_reset names fs : Forall (unread_field names) fs -> forall env bs v rest,
  body_deserialize env fs bs = Ok (v, rest) -> reset_fields names fs v = v.
Proof.
  induction 1 as [|f fs U _ IH]; intros env bs v rest D; cbn [body_deserialize reset_fields] in *; [destruct v; reflexivity|].
  apply bind_inv in D. destruct D as [x [b [Dx D]]]. apply bind_inv in D. destruct D as [xs [b' [Ds D]]]. injection D as <- <-.
  cbn [fst snd]. rewrite (IH _ _ _ _ Ds). f_equal. destruct (mem_string (f_name f) names) eqn:M; [|reflexivity].
  destruct (U M) as [A S]. unfold field_deserialize in Dx. rewrite A, S in Dx. injection Dx as <- _. reflexivity.
Qed.
Lemma all_unread m c : In c (all_pdus m) -> ordinary c -> Forall (unread_field (list_fields c)) (cls_fields c).
Proof.
  revert c. by_class.
  all_classes ltac:(intros O; vm_compute in O; first [discriminate O |
    repeat (apply Forall_cons; [intros M; first [vm_compute in M; discriminate M | split; [reflexivity | intros bs; reflexivity]]|]); apply Forall_nil]).
Qed.
Lemma decoded_cleared m c : In c (all_pdus m) -> ordinary c -> forall bs p rest,
  deserialize c bs = Ok (ROk p, rest) -> clear_lists p = p.
Proof.
  intros I O bs p rest D.
  destruct (Nat.ltb_spec (length bs) 12) as [H|H]; [rewrite deserialize_short in D by exact H; discriminate|].
  destruct (deserialize_cases c bs H) as [h [_ [_ T]]]. rewrite T in D.
  destruct (_ =? _); [|discriminate]. unfold deserialize_without_header in D.
  destruct (body_deserialize _ _ _) as [[b r]|] eqn:B; [|discriminate]. injection D as <- _.
  unfold clear_lists. cbn [header body]. rewrite (decoded_reset _ _ (all_unread m c I O) _ _ _ _ B). reflexivity.
Qed.

Lemma wire_type_firstn n bs : (3 <= n)%nat -> wire_type (firstn n bs) = wire_type bs.
Proof. intros H. do 3 (destruct n as [|n]; [lia|]). destruct bs as [|a [|b [|c bs]]]; reflexivity. Qed.
Lemma decode_spec m l : In l (layouts m) -> ordinary (pl_class l) -> forall bs p rest,
  deserialize (pl_class l) bs = Ok (ROk p, rest) <->
  wire_type bs = code (cls_type (pl_class l)) /\ (pl_end l <= length bs)%nat /\ rest = skipn (pl_end l) bs /\
  Forall (received bs p) (header_entries ++ pl_map l) /\ clear_lists p = p.
Proof.
  intros I O bs. assert (Ic := layout_class m l I). assert (Im := layout_map m l I).
  assert (En := all_ends m). rewrite Forall_forall in En. specialize (En _ Im O). cbn [pm_end pm_class] in En.
  assert (G := default_size_ge m _ Ic).
  assert (Fwd : forall p rest, deserialize (pl_class l) bs = Ok (ROk p, rest) ->
    wire_type bs = code (cls_type (pl_class l)) /\ (pl_end l <= length bs)%nat /\ rest = skipn (pl_end l) bs /\
    Forall (received bs p) (header_entries ++ pl_map l) /\ clear_lists p = p).
  { intros p rest D.
    assert (NP : ~ exists e, deserialize (pl_class l) bs = Panic e) by (intros [e E]; rewrite E in D; discriminate).
    assert (NP' := fun K => NP (proj2 (ordinary_panic m _ Ic O bs) K)). unfold lenN in NP'.
    assert (L12 : (12 <= length bs)%nat) by (destruct (Nat.ltb_spec (length bs) 12) as [K|K]; [exfalso; apply NP'; left; exact K | exact K]).
    destruct (deserialize_cases (pl_class l) bs L12) as [h [_ [_ E]]].
    assert (T : wire_type bs = code (cls_type (pl_class l))).
    { rewrite E in D. destruct (N.eqb_spec (wire_type bs) (code (cls_type (pl_class l)))) as [T|T]; [exact T | discriminate D]. }
    assert (Le : (pl_end l <= length bs)%nat).
    { destruct (Nat.ltb_spec (length bs) (pl_end l)) as [K|K]; [|exact K]. exfalso. apply NP'. right. split; [exact T|].
      change (pm_end (mk_pdu_map (pl_class l) (pl_map l) (pl_end l))) with (pl_end l) in En. lia. }
    split; [exact T|]. split; [exact Le|].
    assert (Lp : lenN (firstn (pl_end l) bs) = default_size (pl_class l)) by (unfold lenN; rewrite firstn_length; lia).
    assert (Tp : wire_type (firstn (pl_end l) bs) = code (cls_type (pl_class l))).
    { rewrite <- T. apply wire_type_firstn. lia. }
    destruct (ordinary_local m _ Ic O _ Lp Tp) as [r Hr]. specialize (Hr (skipn (pl_end l) bs)). rewrite firstn_skipn in Hr.
    rewrite Hr in D. injection D as <- <-. split; [reflexivity|]. split.
    - apply Forall_app. split; [exact (header_received _ _ _ _ Hr) | exact (map_received m _ Im _ _ _ Hr)].
    - exact (decoded_cleared m _ Ic O _ _ _ Hr). }
  intros p rest. split; [apply Fwd|]. intros [T [L [-> [R C]]]].
  assert (Lp : lenN (firstn (pl_end l) bs) = default_size (pl_class l)) by (unfold lenN; rewrite firstn_length; lia).
  assert (Tp : wire_type (firstn (pl_end l) bs) = code (cls_type (pl_class l))).
  { rewrite <- T. apply wire_type_firstn. lia. }
  destruct (ordinary_local m _ Ic O _ Lp Tp) as [r Hr]. specialize (Hr (skipn (pl_end l) bs)). rewrite firstn_skipn in Hr.
  rewrite Hr. do 3 f_equal. destruct (Fwd _ _ Hr) as [_ [_ [_ [R' C']]]].
  apply (maps_complete m l I O r p C' C). rewrite Forall_forall in *. intros e Ie. rewrite (R' e Ie), (R e Ie). reflexivity.
Qed.
