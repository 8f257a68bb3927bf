(** * The layouts of the standard (C78). Tables in [SpecIeee]. *)
From Verif Require Import Base BaseFacts EnumModel Enums EnumFacts Fixed Header HeaderFacts HeaderProofs PduMacro PduMacroFacts
  DataTypes DataTypesFacts Bitflags Pdus PduFields PdusFacts ClassFacts RecordFacts PduProofs Spec SpecDatum SpecSpecial Wire WireMaps WireFacts WireProofs WireClass
  Prop_Header Prop_Pdu Prop_Specs Prop_Special Prop_Needed Prop_Wire SpecRecords Prop_Types SpecLayout Prop_Layout Prop_Recover SpecialExtent LayoutFacts DecodeSpecial SpecExercise Prop_Relays SpecIeee.

Definition api_place (f : placed) : string * nat * nat := let '(_, api, off, w) := f in (api, off, w).
Definition map_place {T} (e : entry T) : string * nat * nat := (en_name e, en_off e, en_width e).
(** The part of the standard's layout that lies before octet [n]. *)
Definition before (n : nat) (l : list placed) : list placed := filter (fun f : placed => let '(_, _, off, _) := f in Nat.ltb off n) l.
Theorem C78_layouts : forall m x, In x (wire_maps m) -> exists l, assoc (cls_name (pm_class x)) ieee_layouts = Some l /\
  map map_place (pm_entries x) = map api_place (before (pm_end x) (ieee_fields l)) /\
  (cls_name (pm_class x) <> "EntityStatePdu"%string -> octets l = pm_end x).
Proof.
  intros m x H. cbv [wire_maps] in H.
  repeat (destruct H as [<-|H]; [eexists; split; [vm_compute; reflexivity|]; split; [vm_compute; reflexivity | first [intros _; vm_compute; reflexivity | intros N; exfalso; apply N; reflexivity]]|]).
  destruct H.
Qed.

(** Every field of the standard's layout, at the standard's octets, is sent from and received
    into the API field listed beside it (EntityState: up to its marking, octet 129). *)
Lemma placed_entry m x l name api off w : In x (wire_maps m) -> assoc (cls_name (pm_class x)) ieee_layouts = Some l ->
  In (name, api, off, w) (ieee_fields l) -> (off < pm_end x)%nat ->
  exists e, In e (pm_entries x) /\ en_name e = api /\ en_off e = off /\ en_width e = w.
Proof.
  intros H A I L. destruct (C78_layouts m x H) as [l' [A' [E _]]]. rewrite A in A'. injection A' as <-.
  assert (J : In (api, off, w) (map map_place (pm_entries x))).
  { rewrite E. apply in_map_iff. exists (name, api, off, w). split; [reflexivity|]. unfold before. apply filter_In. split; [exact I|].
    now apply Nat.ltb_lt. }
  apply in_map_iff in J as [e [P J]]. unfold map_place in P. injection P as <- <- <-. exists e. auto.
Qed.
Lemma place_end l : forall n name api off w, In (name, api, off, w) (place n l) ->
  (off + w <= fold_right (fun (g : string * string * nat) k => snd g + k) n l)%nat.
Proof.
  assert (G : forall l n, (n <= fold_right (fun (g : string * string * nat) k => snd g + k) n l)%nat) by (clear; induction l as [|a l IH]; intros n; cbn [fold_right]; [lia | specialize (IH n); lia]).
  assert (Sh : forall l a n, fold_right (fun (g : string * string * nat) k => snd g + k)%nat (n + a)%nat l = (a + fold_right (fun (g : string * string * nat) k => snd g + k)%nat n l)%nat).
  { clear. induction l as [|b l IH]; intros a n; cbn [fold_right]; [lia | rewrite IH; lia]. }
  induction l as [|[[nm a] v] l IH]; intros n name api off w H; [destruct H|]. cbn [place fold_right snd] in *.
  destruct H as [H|H].
  - injection H as <- <- <- <-. specialize (G l n). lia.
  - specialize (IH _ _ _ _ _ H). rewrite Sh in IH. lia.
Qed.
Lemma placed_before m x l name api off w : In x (wire_maps m) -> assoc (cls_name (pm_class x)) ieee_layouts = Some l ->
  In (name, api, off, w) (ieee_fields l) -> (0 < w)%nat -> (cls_name (pm_class x) = "EntityStatePdu"%string -> (off < 129)%nat) -> (off < pm_end x)%nat.
Proof.
  intros H A I W L. destruct (C78_layouts m x H) as [l' [A' [_ E]]]. rewrite A in A'. injection A' as <-.
  destruct (string_dec (cls_name (pm_class x)) "EntityStatePdu") as [N|N].
  - specialize (L N). assert (Q : pm_end x = 129%nat); [|lia]. clear - H N. cbv [wire_maps] in H.
    repeat (destruct H as [<-|H]; [first [reflexivity | discriminate N]|]). destruct H.
  - rewrite <- (E N). apply place_end in I. unfold octets. lia.
Qed.
Lemma ieee_widths m x l name api off w : In x (wire_maps m) -> assoc (cls_name (pm_class x)) ieee_layouts = Some l ->
  In (name, api, off, w) (ieee_fields l) -> (0 < w)%nat.
Proof.
  intros _ A I. assert (G : Forall (fun p => Forall (fun f : placed => (0 < snd f)%nat) (ieee_fields (snd p))) ieee_layouts).
  { apply Forall_forall. intros p Hp. apply Forall_forall. intros f Hf.
    assert (B : forallb (fun p => forallb (fun f : placed => Nat.ltb 0 (snd f)) (ieee_fields (snd p))) ieee_layouts = true) by (vm_compute; reflexivity).
    rewrite forallb_forall in B. specialize (B p Hp). rewrite forallb_forall in B. specialize (B f Hf). now apply Nat.ltb_lt in B. }
  rewrite Forall_forall in G. assert (Ia : In (cls_name (pm_class x), l) ieee_layouts).
  { clear - A. induction ieee_layouts as [|[k v] t IH]; [discriminate|]. cbn [assoc] in A. destruct (String.eqb _ k) eqn:E.
    - injection A as ->. apply String.eqb_eq in E. rewrite E. now left.
    - right. now apply IH. }
  specialize (G _ Ia). cbn [snd] in G. rewrite Forall_forall in G. exact (G _ I).
Qed.
Theorem C78_encode : forall m x l p buf p' out, In x (wire_maps m) -> assoc (cls_name (pm_class x)) ieee_layouts = Some l ->
  serialize (pm_class x) p buf = Ok (ROk tt, p', buf ++ out) ->
  forall name api off w, In (name, api, off, w) (ieee_fields l) -> (cls_name (pm_class x) = "EntityStatePdu"%string -> (off < 129)%nat) ->
  exists e, In e (pm_entries x) /\ en_name e = api /\ slice off w out = big_endian w (en_put e p').
Proof.
  intros m x l p buf p' out H A S name api off w I L.
  destruct (placed_entry m x l name api off w H A I) as [e [J [<- [<- <-]]]]; [exact (placed_before m x l _ _ _ _ H A I (ieee_widths m x l _ _ _ _ H A I) L)|].
  exists e. split; [exact J|]. split; [reflexivity|]. assert (F := C43_encode m x p buf p' out H S). rewrite Forall_forall in F. exact (F e J).
Qed.
Theorem C78_decode : forall m x l bs p rest, In x (wire_maps m) -> assoc (cls_name (pm_class x)) ieee_layouts = Some l ->
  deserialize (pm_class x) bs = Ok (ROk p, rest) ->
  forall name api off w, In (name, api, off, w) (ieee_fields l) -> (cls_name (pm_class x) = "EntityStatePdu"%string -> (off < 129)%nat) ->
  exists e, In e (pm_entries x) /\ en_name e = api /\ en_get e p = en_norm e (number (slice off w bs)).
Proof.
  intros m x l bs p rest H A D name api off w I L.
  destruct (placed_entry m x l name api off w H A I) as [e [J [<- [<- <-]]]]; [exact (placed_before m x l _ _ _ _ H A I (ieee_widths m x l _ _ _ _ H A I) L)|].
  exists e. split; [exact J|]. split; [reflexivity|]. assert (F := C43_decode m x bs p rest H D). rewrite Forall_forall in F. exact (F e J).
Qed.

(** ** EntityState behind octet 129 *)

(** The standard's format of the rest of an EntityState: eleven octets of marking, four of
    capabilities, the variable parameter records of sixteen octets each. *)
Definition standard_rest (p : pdu EntityStatePdu) (out : bytes) : Prop :=
  length out = (144 + 16 * length (EntityStatePdu_articulation_parameter p))%nat /\
  slice 129 11 out = EntityMarking_entity_marking_string (EntityStatePdu_entity_marking p) /\
  number (slice 140 4 out) = code (EntityStatePdu_entity_capabilities p) /\
  skipn 144 out = each VariableParameter_serialize (EntityStatePdu_articulation_parameter p).
Lemma parameters_length l : length (each VariableParameter_serialize l) = (16 * length l)%nat.
Proof.
  induction l as [|v l IH]; [reflexivity|]. unfold each in *. cbn [map List.concat]. rewrite app_length, IH. cbn [length].
  destruct (fc_ser _ _ _ VariableParameter_fc v) as [b [W [L _]]]. injection W as <-. rewrite L. lia.
Qed.
Theorem C78_entity_state_sent : forall p buf p' out, serialize EntityStatePdu p buf = Ok (ROk tt, p', buf ++ out) ->
  (standard_rest p out <-> length (EntityMarking_entity_marking_string (EntityStatePdu_entity_marking p)) = 11%nat).
Proof.
  intros p buf p' out S.
  destruct (tail_of (mk_pdu_layout EntityStatePdu EntityStatePdu_map 129 EntityStatePdu_tail) p buf p' out (nth_error_In (layouts Checked) 5 eq_refl) S) as [T L].
  cbn [pl_end pl_tail] in T, L. unfold EntityStatePdu_tail in T.
  assert (Lt := f_equal (@length byte) T). rewrite skipn_length, !app_length, parameters_length in Lt. unfold coded in Lt at 1. rewrite big_endian_length in Lt.
  split.
  - intros [K _]. lia.
  - intros K. unfold standard_rest. split; [lia|].
    set (s := EntityMarking_entity_marking_string (EntityStatePdu_entity_marking p)) in *.
    assert (Lc : length (coded 4 (EntityStatePdu_entity_capabilities p)) = 4%nat) by (unfold coded; apply big_endian_length).
    set (cp := coded 4 (EntityStatePdu_entity_capabilities p)) in *. set (a := each _ _) in *.
    split; [unfold slice; rewrite T, firstn_app, K, Nat.sub_diag, firstn_O, app_nil_r; apply firstn_all2; lia|].
    assert (T2 : skipn 140 out = cp ++ a).
    { change 140%nat with (11 + 129)%nat. rewrite <- PduProofs.skipn_add, T, skipn_app, skipn_all2, K; [reflexivity | lia]. }
    split.
    + unfold slice. rewrite T2, firstn_app, Lc, Nat.sub_diag, firstn_O, app_nil_r, firstn_all2 by lia. unfold cp, coded.
      apply number_big_endian. assert (X := enum_fits EntityCapabilities_spec (EntityStatePdu_entity_capabilities p)). exact X.
    + change 144%nat with (4 + 140)%nat. rewrite <- PduProofs.skipn_add, T2, skipn_app, skipn_all2, Lc; [reflexivity | lia].
Qed.

(** An EntityState received from a peer that keeps to the standard ([k] variable parameter
    records): the marking is replaced by the decimal number of octets that follow the
    character set (15 without variable parameter records), the capabilities are those whose code the
    first four characters of the marking spell (so none at all unless the marking begins with
    a zero octet), the variable parameter records are lost; everything before octet 129 is
    received as sent ([C78_decode]). *)
Theorem C78_entity_state_received : forall bs k, wire_type bs = 1 -> length bs = (144 + 16 * k)%nat ->
  exists p, deserialize EntityStatePdu bs = Ok (ROk p, skipn 133 bs) /\
    decimal_of (15 + 16 * N.of_nat k) (EntityMarking_entity_marking_string (EntityStatePdu_entity_marking p)) /\
    (k = 0%nat -> EntityMarking_entity_marking_string (EntityStatePdu_entity_marking p) = [B 49; B 53]) /\
    code (EntityStatePdu_entity_capabilities p) = known EntityCapabilities_spec (be4_at bs 129) /\
    (byte_at bs 129 <> 0 -> code (EntityStatePdu_entity_capabilities p) = 0) /\
    EntityStatePdu_articulation_parameter p = [].
Proof.
  intros bs k T L. destruct (C28_entity_state_decode bs T) as [_ D]. destruct (D ltac:(lia)) as [p [D1 [_ [Mk [Cp Ar]]]]].
  exists p. split; [exact D1|]. replace (N.of_nat (length bs) - 129) with (15 + 16 * N.of_nat k) in Mk by lia. split; [exact Mk|].
  split; [|split; [exact Cp|split; [|exact Ar]]].
  - intros ->. apply (decimal_unique _ _ _ Mk). split; [reflexivity|]. split; [intros b [<-|[<-|[]]]; vm_compute; split; discriminate|].
    split; [discriminate|]. intros b E. injection E as <-. discriminate.
  - intros Nz. rewrite Cp. unfold known. replace (existsb _ _) with false; [reflexivity|]. symmetry. apply not_true_is_false. intros X.
    apply existsb_exists in X as [n [I E]]. apply N.eqb_eq in E. subst n.
    assert (G : forall j, In j (e_codes EntityCapabilities_spec) -> j <= 12).
    { apply Forall_forall. cbn [e_codes EntityCapabilities_spec]. repeat constructor; lia. }
    specialize (G _ I). unfold be4_at in G. lia.
Qed.

(** ** Records in lists *)

(** Record types whose layout is not the standard's. *)
Definition nonstandard_records : list string := ["AcousticBeamData"; "LinearSegmentParameter"]%string.
Theorem C78_records : forall r l, In r fixed_records -> assoc (rt_name r) ieee_records = Some l ->
  (map map_place (rt_map r) = map api_place (place 0 l) <-> ~ In (rt_name r) nonstandard_records).
Proof.
  intros r l H. cbv [fixed_records] in H.
  repeat (destruct H as [<-|H]; [intros A; vm_compute in A; first [ discriminate A | injection A as <-;
    first [ split; [intros _; vm_compute; intuition discriminate | intros _; vm_compute; reflexivity]
          | split; [intros E; vm_compute in E; discriminate E | intros N; exfalso; apply N; vm_compute; intuition] ] ]|]).
  destruct H.
Qed.
Theorem C78_records_bytes : forall r l name api off w, In r fixed_records -> assoc (rt_name r) ieee_records = Some l ->
  ~ In (rt_name r) nonstandard_records -> In (name, api, off, w) (place 0 l) ->
  exists e, In e (rt_map r) /\ en_name e = api /\
    (forall v, slice off w (rt_serialize r v) = big_endian w (en_put e v)) /\
    (forall bs v rest, rt_deserialize r bs = Ok (v, rest) -> en_get e v = en_norm e (number (slice off w bs))).
Proof.
  intros r l name api off w H A N I. assert (E := proj2 (C78_records r l H A) N).
  assert (J : In (api, off, w) (map map_place (rt_map r))) by (rewrite E; apply in_map_iff; exists (name, api, off, w); now split).
  apply in_map_iff in J as [e [P J]]. unfold map_place in P. injection P as <- <- <-.
  destruct (C22_layout r H) as [_ [Sn Rc]]. exists e. split; [exact J|]. split; [reflexivity|]. split.
  - intros v. specialize (Sn v). rewrite Forall_forall in Sn. exact (Sn e J).
  - intros bs v rest D. specialize (Rc bs v rest D). rewrite Forall_forall in Rc. exact (Rc e J).
Qed.
Theorem C78_variable_records : (forall t, In t variable_types -> exists l, assoc (vt_name t) ieee_records = Some l /\
  map map_place (vt_map t) = map api_place (place 0 l)) /\
  (exists l, assoc "GridAxisDescriptor"%string ieee_records = Some l /\ map map_place GridAxisDescriptor_head = map api_place (place 0 l)).
Proof.
  split; [|eexists; split; vm_compute; reflexivity]. intros t H. cbv [variable_types] in H.
  repeat (destruct H as [<-|H]; [eexists; split; vm_compute; reflexivity|]). destruct H.
Qed.
(** The two nonstandard records: 25 bytes instead of 24, 66 instead of 64, whatever the
    value; so a conforming peer misreads every later element of such a list. *)
Theorem C78_records_refuted :
  (forall v, length (AcousticBeamData_serialize v) = 25%nat) /\ (forall v, length (LinearSegmentParameter_serialize v) = 66%nat) /\
  option_map (fun l => fold_right (fun (g : string * string * nat) n => snd g + n)%nat 0%nat l) (assoc "AcousticBeamData"%string ieee_records) = Some 24%nat /\
  option_map (fun l => fold_right (fun (g : string * string * nat) n => snd g + n)%nat 0%nat l) (assoc "LinearSegmentParameter"%string ieee_records) = Some 64%nat.
Proof.
  assert (G : forall r, In r fixed_records -> forall v, length (rt_serialize r v) = rt_size r) by (intros r H v; apply (C22_records r H)).
  split; [|split; [|split; reflexivity]].
  - exact (G (mk_record_type "AcousticBeamData"%string AcousticBeamData 25 AcousticBeamData_serialize AcousticBeamData_deserialize None AcousticBeamData_map) ltac:(apply (nth_error_In _ 1); reflexivity)).
  - exact (G (mk_record_type "LinearSegmentParameter"%string LinearSegmentParameter 66 LinearSegmentParameter_serialize LinearSegmentParameter_deserialize (Some LinearSegmentParameter_codec) LinearSegmentParameter_map) ltac:(apply (nth_error_In _ 28); reflexivity)).
Qed.
Example C78_records_covered : length ieee_records = 24%nat /\
  length (filter (fun r => match assoc (rt_name r) ieee_records with Some _ => true | None => false end) fixed_records) = 16%nat.
Proof. split; vm_compute; reflexivity. Qed.

(** Concrete cases. *)
Example C78_fire_layout : assoc "FirePdu"%string ieee_layouts <> None /\
  match assoc "FirePdu"%string ieee_layouts with
  | Some l => (length (ieee_fields l), octets l, nth_error (ieee_fields l) 13)
  | None => (0, 0, None)
  end%nat = (31, 96, Some ("Location in World Coordinates, X-coordinate", "location_in_world_coordinates.x", 40, 8))%string%nat.
Proof. split; [discriminate | reflexivity]. Qed.
Example C78_all_classes_listed : forall m, length ieee_layouts = 66%nat /\ NoDup (map fst ieee_layouts) /\
  forall c, In c (all_pdus m) -> In (cls_name c) (map fst ieee_layouts).
Proof.
  intros m. split; [reflexivity|]. split.
  - assert (B : forall l : list string, (fix nd l := match l with [] => true | a :: l' => negb (existsb (String.eqb a) l') && nd l' end) l = true -> NoDup l).
    { induction l as [|a l IH]; intros H; [constructor|]. apply andb_prop in H as [H1 H2]. constructor; [|now apply IH].
      intros I. apply negb_true_iff in H1. assert (X : existsb (String.eqb a) l = true); [|congruence].
      apply existsb_exists. exists a. split; [exact I | apply String.eqb_refl]. }
    apply B. vm_compute. reflexivity.
  - rewrite <- (proj1 (C43_maps m)). intros c Hc. apply in_map_iff in Hc as [x [<- Hx]]. destruct (C78_layouts m x Hx) as [l [A _]].
    clear - A. induction ieee_layouts as [|[k v] t IH]; [discriminate|]. cbn [assoc] in A. cbn [map fst]. destruct (String.eqb _ k) eqn:E.
    + left. symmetry. now apply String.eqb_eq.
    + right. now apply IH.
Qed.
(** A fresh EntityState (empty marking) is not in the standard's format; one with a marking
    of eleven octets is. *)
Example C78_marking : forall ts,
  let fresh := pdu_new EntityStatePdu ts in
  let named := mk_pdu (c := EntityStatePdu) (header fresh)
    (let '(a, (b, (c, (d, (e, (f, (g, (h, (i, (j, (k, t))))))))))) := body fresh in
     (a, (b, (c, (d, (e, (f, (g, (h, (i, (j, (mk_EntityMarking (EntityMarking_entity_marking_character_set k) (repeat (B 65) 11), t)))))))))))) in
  (exists p' out, serialize EntityStatePdu fresh [] = Ok (ROk tt, p', [] ++ out) /\ ~ standard_rest fresh out) /\
  (exists p' out, serialize EntityStatePdu named [] = Ok (ROk tt, p', [] ++ out) /\ standard_rest named out).
Proof.
  intros ts fresh named.
  assert (G : forall p, EntityStatePdu_articulation_parameter p = [] -> exists p' out, serialize EntityStatePdu p [] = Ok (ROk tt, p', [] ++ out)).
  { intros p A. destruct (es_serialize p A) as [h [_ E]]. eexists _, _. exact E. }
  split.
  - destruct (G fresh eq_refl) as [p' [out S]]. exists p', out. split; [exact S|]. intros R. apply (C78_entity_state_sent _ _ _ _ S) in R. discriminate R.
  - destruct (G named eq_refl) as [p' [out S]]. exists p', out. split; [exact S|]. apply (C78_entity_state_sent _ _ _ _ S). reflexivity.
Qed.

(** What the theorems above rest on (one traversal for all of them; not part of the model). *)
Definition Prop_Ieee_theorems : True :=
  let _ := @C78_layouts in
  let _ := @C78_encode in
  let _ := @C78_decode in
  let _ := @C78_entity_state_sent in
  let _ := @C78_entity_state_received in
  let _ := @C78_records in
  let _ := @C78_records_bytes in
  let _ := @C78_variable_records in
  let _ := @C78_records_refuted in
  let _ := @C78_fire_layout in
  let _ := @C78_all_classes_listed in
  let _ := @C78_marking in
  I.
Print Assumptions Prop_Ieee_theorems.
