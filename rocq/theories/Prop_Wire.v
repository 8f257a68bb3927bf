(** * Field offsets on the wire: C43, and the byte-level half of C19.

    [wire_maps m] (in [WireMaps]) lists for each of the 66 classes every field at its byte
    offset; [sent], [received], [slice], [number], [big_endian], [tiles] are defined in [Wire]. *)
From Verif Require Import Base BaseFacts EnumModel Enums Header PduMacro DataTypes Bitflags Pdus PduFields Spec
  ClassFacts PduProofs Wire WireMaps WireProofs WireFacts WireClass.

(** ** C43: every field sits at its offset, big-endian *)

(** There is one map per class; the entries follow each other without gap or overlap from
    byte 12 on; and for all classes without special fields they cover the whole PDU up to
    its lists. *)
Theorem C43_maps : forall m,
  map (fun x => pm_class x) (wire_maps m) = all_pdus m /\
  (forall x, In x (wire_maps m) -> tiles 12 (pm_end x) (pm_entries x)) /\
  (forall x, In x (wire_maps m) -> ordinary (pm_class x) -> N.of_nat (pm_end x) = default_size (pm_class x)).
Proof.
  intros m. split; [apply maps_classes|]. assert (T := all_tiles m). assert (E := all_ends m).
  rewrite Forall_forall in T, E. split; [exact T | exact E].
Qed.
(** Encoding: the bytes emitted by any successful [serialize] hold every field at its place. *)
Theorem C43_encode : forall m x p buf p' out,
  In x (wire_maps m) -> serialize (pm_class x) p buf = Ok (ROk tt, p', buf ++ out) ->
  Forall (sent out p') (pm_entries x).
Proof. intros m x p buf p' out I. apply (map_sent m x I). Qed.
(** Decoding arbitrary bytes: every field of the result is the number at its place (an
    unknown enumeration code is replaced by the default, flags with undeclared bits by 0). *)
Theorem C43_decode : forall m x bs p rest,
  In x (wire_maps m) -> deserialize (pm_class x) bs = Ok (ROk p, rest) ->
  Forall (received bs p) (pm_entries x).
Proof. intros m x bs p rest I. apply (map_received m x I). Qed.

(** The claim spelled out for one class. *)
Theorem C43_fire : forall bs p rest, deserialize FirePdu bs = Ok (ROk p, rest) ->
  uval (SimulationAddress_site_id (EntityId_simulation_address (FirePdu_firing_entity_id p))) = number (slice 12 2 bs) /\
  uval (WorldCoordinate_x (FirePdu_location_in_world_coordinates p)) = number (slice 40 8 bs) /\
  uval (FirePdu_range p) = number (slice 92 4 bs).
Proof.
  intros bs p rest D.
  assert (I : In (mk_pdu_map FirePdu FirePdu_map 96) (wire_maps Checked)) by (apply (nth_error_In _ 62); reflexivity).
  assert (F := C43_decode Checked (mk_pdu_map FirePdu FirePdu_map 96) bs p rest I D). cbn [pm_entries] in F. rewrite Forall_forall in F.
  assert (G := fun k e (H : nth_error FirePdu_map k = Some e) => F e (nth_error_In _ _ H)).
  split; [|split]; [exact (G 0%nat _ eq_refl) | exact (G 13%nat _ eq_refl) | exact (G 30%nat _ eq_refl)].
Qed.
Example C43_example :
  match deserialize FirePdu (map B ([7; 1; 2; 2; 0; 0; 0; 0; 0; 96; 0; 0] ++ map N.of_nat (seq 0 100))) with
  | Ok (ROk p, rest) => Some (uval (FirePdu_range p), map uval rest)
  | _ => None
  end = Some (0x50515253, map N.of_nat (seq 84 16)).
Proof. vm_compute. reflexivity. Qed.

(** ** C19, second half: re-encoding a decoded PDU reproduces the body bytes exactly iff
    every enumeration field carried a known code (flag-carrying classes are excluded by
    [fixed_layout]; other fields always agree). *)
Theorem C19_reencode_exact_iff : forall m x bs p rest p' out,
  In x (wire_maps m) -> fixed_layout (pm_class x) ->
  deserialize (pm_class x) bs = Ok (ROk p, rest) -> serialize (pm_class x) p [] = Ok (ROk tt, p', out) ->
  (slice 12 (pm_end x - 12) out = slice 12 (pm_end x - 12) bs <->
   Forall (fun e => let n := number (slice (en_off e) (en_width e) bs) in en_norm e n = n) (pm_entries x)).
Proof. intros m x bs p rest p' out I F. apply (reencode m x I F). Qed.
(** An unknown country code 0xFFFF in byte 66 of a Fire PDU comes back as 0. *)
Example C19_example :
  match deserialize FirePdu (map B ([7; 1; 2; 2; 0; 0; 0; 0; 0; 96; 0; 0] ++ repeat 255 84)) with
  | Ok (ROk p, _) =>
      match serialize FirePdu p [] with Ok (ROk tt, _, out) => Some (map uval (slice 64 6 out)) | _ => None end
  | _ => None
  end = Some [0; 255; 0; 0; 255; 255].
Proof. vm_compute. reflexivity. Qed.

(** What the theorems above rest on (one traversal for all of them; not part of the model). *)
Definition Prop_Wire_theorems : True :=
  let _ := @C43_maps in
  let _ := @C43_encode in
  let _ := @C43_decode in
  let _ := @C43_fire in
  let _ := @C19_reencode_exact_iff in
  I.
Print Assumptions Prop_Wire_theorems.
