(** * Corrupted bytes and changed fields (C61). Vocabulary in [SpecFaults]. *)
From Verif Require Import Base BaseFacts EnumModel Enums EnumFacts Fixed Header HeaderFacts HeaderProofs PduMacro PduMacroFacts
  DataTypes Pdus PdusFacts ClassFacts Spec PduProofs Wire WireMaps WireFacts WireProofs WireClass Prop_Wire SpecFaults.

Lemma maps_in m x : In x (wire_maps m) -> In (pm_class x) (all_pdus m).
Proof. intros I. rewrite <- maps_classes. apply (in_map (fun x => pm_class x)), I. Qed.
Lemma known_eq e n : known e n = known_or_default e n.
Proof. reflexivity. Qed.
Lemma nth_skip {A} i j (l : list A) d : nth j (skipn i l) d = nth (i + j) l d.
Proof. revert l. induction i as [|i IH]; intros l; [reflexivity|]. destruct l; cbn [skipn Nat.add nth]; [destruct j; reflexivity | apply IH]. Qed.

(** ** The header in the wire maps *)
Lemma header_received c bs p rest : deserialize c bs = Ok (ROk p, rest) -> Forall (received bs p) (@header_entries c).
Proof.
  intros D. destruct (Nat.lt_ge_cases (length bs) 12) as [L|L]; [rewrite deserialize_short in D by exact L; discriminate|].
  destruct (deserialize_cases c bs L) as [h [H [_ E]]]. rewrite E in D. destruct (_ =? _); [|discriminate].
  apply without_header_header in D. rewrite <- D in H. clear E D h.
  destruct (header_decode bs L) as [h [H' [A1 [A2 [A3 [A4 [A5 [A6 [A7 A8]]]]]]]]].
  assert (Eh : h = header p) by congruence. rewrite Eh in *. clear Eh H H' h.
  rewrite <- known_version, <- known_eq in A1. rewrite <- known_type, <- known_eq in A3. rewrite <- known_family, <- known_eq in A4.
  do 12 (destruct bs as [|? bs]; [cbn [length] in L; lia|]).
  unfold be4_at, be2_at, byte_at in A5, A6. unfold byte_at in A1, A2, A3, A4, A7, A8. cbn [nth Nat.add] in *.
  unfold header_entries, received, slice, cod, num, number.
  repeat (constructor; [cbn [en_off en_width en_norm en_get skipn firstn fold_left]; rewrite ?N.mul_0_r, ?N.add_0_l|]); [..|constructor];
    try assumption; lia.
Qed.
Lemma B_byte n : n < 256 -> B (n mod 256) = B n.
Proof. intros H. f_equal. now apply N.mod_small. Qed.
Lemma header_sent m c : In c (all_pdus m) -> forall p buf p' out, serialize c p buf = Ok (ROk tt, p', buf ++ out) ->
  Forall (sent out p') (@header_entries c).
Proof.
  intros I p buf p' out S. destruct (serialize_spec m c I p buf p' _ S) as [fields [E _]]. apply app_inv_head in E. rewrite E, header_layout.
  assert (V := enum_fits _ (protocol_version (header p'))). assert (T := enum_fits _ (pdu_type (header p'))).
  assert (F := enum_fits _ (protocol_family (header p'))).
  unfold header_entries, sent, slice, cod, num, be4, be2.
  repeat (constructor; [cbn [en_off en_width en_put skipn firstn app]|]); [..|constructor].
  - cbn [big_endian app]. rewrite B_mod. reflexivity.
  - symmetry. apply big_endian_1.
  - cbn [big_endian app]. rewrite B_mod. reflexivity.
  - cbn [big_endian app]. rewrite B_mod. reflexivity.
  - cbn [big_endian app]. rewrite !N.div_div by discriminate. rewrite !B_mod. reflexivity.
  - cbn [big_endian app]. rewrite !B_mod. reflexivity.
  - symmetry. apply big_endian_1.
  - symmetry. apply big_endian_1.
Qed.

(** Every byte of the mapped part belongs to exactly one number; the map is right for encoding
    and for decoding. *)
Theorem C61_maps : forall m x, In x (wire_maps m) ->
  tiles 0 (pm_end x) (datagram_entries x) /\
  (forall p buf p' out, serialize (pm_class x) p buf = Ok (ROk tt, p', buf ++ out) -> Forall (sent out p') (datagram_entries x)) /\
  (forall bs p rest, deserialize (pm_class x) bs = Ok (ROk p, rest) -> Forall (received bs p) (datagram_entries x)).
Proof.
  intros m x I. split; [|split].
  - assert (T := proj1 (proj2 (C43_maps m)) x I). unfold datagram_entries, header_entries. cbn [app tiles num cod en_off en_width Nat.add].
    repeat (split; [reflexivity|]). exact T.
  - intros p buf p' out S. apply Forall_app. split; [exact (header_sent m _ (maps_in m x I) p buf p' out S) | exact (C43_encode m x p buf p' out I S)].
  - intros bs p rest D. apply Forall_app. split; [exact (header_received _ bs p rest D) | exact (C43_decode m x bs p rest I D)].
Qed.

(** ** Slices *)
Lemma nth_error_skip {A} i (l : list A) j : nth_error (skipn i l) j = nth_error l (i + j).
Proof. revert l. induction i as [|i IH]; intros [|a l]; cbn [skipn Nat.add nth_error]; try reflexivity; [destruct j; reflexivity | apply IH]. Qed.
Lemma nth_error_first {A} w (l : list A) j : nth_error (firstn w l) j = if Nat.ltb j w then nth_error l j else None.
Proof.
  revert l j. induction w as [|w IH]; intros l j; [destruct j; reflexivity|].
  destruct l as [|a l]; [destruct (Nat.ltb j (S w)); destruct j; reflexivity|]. destruct j as [|j]; [reflexivity|]. cbn [firstn nth_error]. rewrite IH. reflexivity.
Qed.
Lemma nth_error_slice off w bs j : nth_error (slice off w bs) j = if Nat.ltb j w then nth_error bs (off + j) else None.
Proof. unfold slice. rewrite nth_error_first, nth_error_skip. reflexivity. Qed.
Lemma list_ext {A} (l l' : list A) : (forall j, nth_error l j = nth_error l' j) -> l = l'.
Proof.
  revert l'. induction l as [|a l IH]; intros [|b l'] H; [reflexivity | discriminate (H 0%nat) | discriminate (H 0%nat)|].
  f_equal; [assert (X := H 0%nat); cbn in X; congruence | apply IH; intros j; exact (H (S j))].
Qed.
Lemma slice_same {T} (e : entry T) bs bs' : (forall j, covers e j -> nth_error bs j = nth_error bs' j) ->
  slice (en_off e) (en_width e) bs = slice (en_off e) (en_width e) bs'.
Proof.
  intros H. apply list_ext. intros j. rewrite !nth_error_slice. destruct (Nat.ltb_spec j (en_width e)) as [L|L]; [|reflexivity].
  apply H. unfold covers. lia.
Qed.

(** Decoding, any class: a number depends on its own bytes only. *)
Theorem C61_fields_independent : forall m x bs bs' p p' rest rest', In x (wire_maps m) ->
  deserialize (pm_class x) bs = Ok (ROk p, rest) -> deserialize (pm_class x) bs' = Ok (ROk p', rest') ->
  forall e, In e (datagram_entries x) -> (forall j, covers e j -> nth_error bs j = nth_error bs' j) -> en_get e p = en_get e p'.
Proof.
  intros m x bs bs' p p' rest rest' I D D' e E H. destruct (C61_maps m x I) as [_ [_ R]].
  assert (R1 := proj1 (Forall_forall _ _) (R _ _ _ D) e E). assert (R2 := proj1 (Forall_forall _ _) (R _ _ _ D') e E).
  unfold received in R1, R2. rewrite R1, R2, (slice_same e bs bs' H). reflexivity.
Qed.

Lemma tiles_cover {T} to j (es : list (entry T)) : forall from, tiles from to es -> (from <= j < to)%nat -> exists e, In e es /\ covers e j.
Proof.
  induction es as [|e es IH]; cbn [tiles]; intros f T' J; [lia|]. destruct T' as [O T'].
  destruct (Nat.lt_ge_cases j (f + en_width e)) as [L|L]; [exists e; split; [now left | unfold covers; lia]|].
  destruct (IH _ T' ltac:(lia)) as [e' [E' C']]. exists e'. split; [now right | exact C'].
Qed.
(** Encoding, any class: a byte depends on the number it belongs to only. *)
Theorem C61_bytes_independent : forall m x p q buf buf' p' q' out out', In x (wire_maps m) ->
  serialize (pm_class x) p buf = Ok (ROk tt, p', buf ++ out) -> serialize (pm_class x) q buf' = Ok (ROk tt, q', buf' ++ out') ->
  forall j, (j < pm_end x)%nat -> (forall e, In e (datagram_entries x) -> covers e j -> en_put e p' = en_put e q') ->
  nth_error out j = nth_error out' j.
Proof.
  intros m x p q buf buf' p' q' out out' I S S' j J H. destruct (C61_maps m x I) as [T [W _]].
  destruct (tiles_cover _ j _ _ T ltac:(lia)) as [e [E C]].
  assert (W1 := proj1 (Forall_forall _ _) (W _ _ _ _ S) e E). assert (W2 := proj1 (Forall_forall _ _) (W _ _ _ _ S') e E).
  unfold sent in W1, W2. rewrite (H e E C), <- W2 in W1. unfold covers in C.
  assert (X := f_equal (fun l => nth_error l (j - en_off e)) W1). cbv beta in X. rewrite !nth_error_slice in X.
  destruct (Nat.ltb_spec (j - en_off e) (en_width e)) as [L|L]; [|lia]. now replace (en_off e + (j - en_off e))%nat with j in X by lia.
Qed.

(** ** One corrupted byte *)
Lemma number_inj bs bs' : length bs = length bs' -> number bs = number bs' -> bs = bs'.
Proof.
  intros L E. rewrite !number_eq in E. rewrite <- (be_encode_decode bs), <- (be_encode_decode bs'). rewrite L, E. reflexivity.
Qed.
Lemma corrupted_wire_type i bs bs' : corrupted_at i bs bs' -> i <> 2%nat -> wire_type bs' = wire_type bs.
Proof.
  intros [L [H _]] N. unfold wire_type, byte_at.
  assert (X := H 2%nat ltac:(congruence)). assert (Y : nth 2 bs' (B 0) = nth 2 bs (B 0)).
  { rewrite <- !nth_default_eq. unfold nth_default. rewrite X. reflexivity. }
  rewrite Y. reflexivity.
Qed.
Lemma type_not_other m c : In c (all_pdus m) -> code (cls_type c) <> 0.
Proof.
  intros I E. assert (F : forallb (fun c => negb (code (cls_type c) =? 0)) (all_pdus m) = true) by (destruct m; vm_compute; reflexivity).
  rewrite forallb_forall in F. specialize (F c I). rewrite E in F. discriminate F.
Qed.

(** A class with fixed extent: unless the type byte is hit, a corrupted datagram is still
    decoded; only the number the byte belongs to can change, integer and float numbers do
    change; a byte beyond the fixed part changes nothing. *)
Theorem C61_one_byte : forall m x bs bs' i p rest, In x (wire_maps m) -> ordinary (pm_class x) ->
  deserialize (pm_class x) bs = Ok (ROk p, rest) -> corrupted_at i bs bs' -> i <> 2%nat ->
  exists p', deserialize (pm_class x) bs' = Ok (ROk p', skipn (pm_end x) bs') /\
    ((pm_end x <= i)%nat -> p' = p) /\
    ((i < pm_end x)%nat -> skipn (pm_end x) bs' = rest) /\
    (forall e, In e (datagram_entries x) -> ~ covers e i -> en_get e p' = en_get e p) /\
    (forall e, In e (datagram_entries x) -> covers e i -> (forall n, en_norm e n = n) -> en_get e p' <> en_get e p).
Proof.
  intros m x bs bs' i p rest I O D C N. assert (Ic := maps_in m x I).
  assert (En := proj2 (proj2 (C43_maps m)) x I O). destruct (C61_maps m x I) as [Ti [_ R]].
  destruct (ordinary_consumes m _ Ic O _ _ _ D) as [pre [E L]]. unfold lenN in L.
  assert (Lp : length pre = pm_end x) by lia.
  assert (K : wire_type bs = code (cls_type (pm_class x))).
  { destruct (Nat.lt_ge_cases (length bs) 12) as [Q|Q]; [rewrite deserialize_short in D by exact Q; discriminate|].
    destruct (deserialize_cases (pm_class x) bs Q) as [h [_ [_ W]]]. rewrite W in D.
    destruct (N.eqb_spec (wire_type bs) (code (cls_type (pm_class x)))) as [K|]; [exact K | discriminate]. }
  assert (K' := corrupted_wire_type i bs bs' C N). rewrite K in K'. assert (C' := C). destruct C' as [Lc [Hc Hi]].
  assert (Ge := default_size_ge m _ Ic).
  assert (Lb : (pm_end x <= length bs)%nat) by (rewrite E, app_length; lia).
  assert (L' : lenN (firstn (pm_end x) bs') = default_size (pm_class x)) by (unfold lenN; rewrite firstn_length; lia).
  assert (T' : wire_type (firstn (pm_end x) bs') = code (cls_type (pm_class x))).
  { rewrite <- K'. unfold wire_type, byte_at. assert (Y : nth 2 (firstn (pm_end x) bs') (B 0) = nth 2 bs' (B 0)).
    { rewrite <- !nth_default_eq. unfold nth_default. rewrite nth_error_first. destruct (Nat.ltb_spec 2 (pm_end x)); [reflexivity | lia]. }
    rewrite Y. reflexivity. }
  destruct (ordinary_local m _ Ic O _ L' T') as [p' P']. specialize (P' (skipn (pm_end x) bs')). rewrite firstn_skipn in P'.
  exists p'. split; [exact P'|]. split; [|split; [|split]].
  - intros B. assert (F : firstn (pm_end x) bs' = pre).
    { apply list_ext. intros j. rewrite nth_error_first. destruct (Nat.ltb_spec j (pm_end x)) as [J|J].
      - rewrite Hc by lia. rewrite E. apply nth_error_app1. lia.
      - symmetry. apply nth_error_None. lia. }
    assert (T0 : wire_type pre = code (cls_type (pm_class x))) by (rewrite <- F; exact T').
    destruct (ordinary_local m _ Ic O pre L T0) as [q Q].
    assert (Q1 := Q rest). rewrite <- E, D in Q1. assert (Q2 := Q (skipn (pm_end x) bs')). rewrite <- F, firstn_skipn, P' in Q2. congruence.
  - intros B. replace rest with (skipn (pm_end x) bs) by (rewrite E, <- Lp, skipn_app, skipn_all, Nat.sub_diag; reflexivity).
    apply list_ext. intros j. rewrite !nth_error_skip. apply Hc. lia.
  - intros e Ie Ce. apply (C61_fields_independent m x bs' bs p' p _ rest I P' D e Ie). intros j Cj. apply Hc. intros ->. exact (Ce Cj).
  - intros e Ie Ce Hn G. assert (R1 := proj1 (Forall_forall _ _) (R _ _ _ D) e Ie). assert (R2 := proj1 (Forall_forall _ _) (R _ _ _ P') e Ie).
    unfold received in R1, R2. rewrite Hn in R1, R2. rewrite R1, R2 in G.
    apply number_inj in G; [|unfold slice; rewrite !firstn_length, !skipn_length; lia].
    apply Hi. unfold covers in Ce. assert (X := f_equal (fun l => nth_error l (i - en_off e)) G). cbv beta in X. rewrite !nth_error_slice in X.
    destruct (Nat.ltb_spec (i - en_off e) (en_width e)) as [Z|Z]; [|lia]. now replace (en_off e + (i - en_off e))%nat with i in X by lia.
Qed.

(** Any class: a corrupted type byte is noticed. *)
Theorem C61_type_byte : forall m c bs bs' p rest, In c (all_pdus m) ->
  deserialize c bs = Ok (ROk p, rest) -> corrupted_at 2 bs bs' ->
  exists got, deserialize c bs' = Ok (RErr (InvalidHeader (cls_type c) got), skipn 12 bs') /\ got <> cls_type c.
Proof.
  intros m c bs bs' p rest I D [L [H Hi]].
  destruct (Nat.lt_ge_cases (length bs) 12) as [Q|Q]; [rewrite deserialize_short in D by exact Q; discriminate|].
  destruct (deserialize_cases c bs Q) as [h [_ [_ W]]]. rewrite W in D.
  destruct (N.eqb_spec (wire_type bs) (code (cls_type c))) as [K|]; [|discriminate]. clear D W.
  destruct (deserialize_cases c bs' ltac:(lia)) as [h' [_ [T W]]].
  assert (Z := type_not_other m c I).
  assert (Ne : byte_at bs' 2 <> byte_at bs 2).
  { intros E. apply Hi. unfold byte_at in E. apply uint_eq in E.
    rewrite (nth_error_nth' bs' (B 0)) by lia. rewrite (nth_error_nth' bs (B 0)) by lia. f_equal. exact E. }
  assert (Nw : wire_type bs' <> code (cls_type c)).
  { rewrite <- K in *. unfold wire_type in *. destruct (N.leb_spec (byte_at bs 2) 72), (N.leb_spec (byte_at bs' 2) 72); lia. }
  rewrite W. rewrite (proj2 (N.eqb_neq _ _) Nw). exists (pdu_type h'). split; [reflexivity|]. intros E. apply Nw. rewrite <- T, E. reflexivity.
Qed.

(** Spelled out for one class: corrupting byte 93 changes
    the range and nothing else. *)
Example C61_fire : let bs := PduHeader_serialize (header (pdu_new FirePdu (as_uint 4 5))) ++ repeat (B 7) 84 in
  let bs' := firstn 93 bs ++ [B 9] ++ skipn 94 bs in
  match deserialize FirePdu bs, deserialize FirePdu bs' with
  | Ok (ROk p, []), Ok (ROk p', []) =>
      (map (fun e => en_get e p) FirePdu_map, map (fun e => en_get e p') FirePdu_map)
  | _, _ => ([], [])
  end = (let l := map (fun e => en_norm e (number (repeat (B 7) (en_width e)))) FirePdu_map in
         (l, firstn 30 l ++ [0x07090707])).
Proof. vm_compute. reflexivity. Qed.

(** What the theorems above rest on (one traversal for all of them; not part of the model). *)
Definition Prop_Faults_theorems : True :=
  let _ := @C61_maps in
  let _ := @C61_fields_independent in
  let _ := @C61_bytes_independent in
  let _ := @C61_one_byte in
  let _ := @C61_type_byte in
  I.
Print Assumptions Prop_Faults_theorems.
