(** * All lists of a received minefield data datagram can be recovered by a caller who knows
    which of the optional lists were sent: C74 (continued). *)
From Verif Require Import Base BaseFacts EnumModel Enums EnumFacts Fixed Header PduMacro PduMacroFacts DataTypes DataTypesFacts Bitflags Pdus PduFields
  Spec ClassFacts PduProofs Wire WireMaps WireProofs SpecFaults SpecDatum DatumFacts RecordFacts SpecLayout LayoutFacts Prop_Pdu Prop_Records Prop_Layout SpecSpecial Prop_Specs Prop_Special SpecRecover Prop_Recover.

(** An entry of an optional list is written without a mark of its presence; the caller reads
    entries that are present. *)
Definition as_present {A} (r : reader A) : reader (option A) := let* x := r in ret (Some x).
Definition is_present {A} (o : option A) : Prop := o <> None.

(** The lists before the vertices. The optional ones have one entry per mine, if they were
    sent at all. *)
Definition minefield_lists : list (sent_list MinefieldDataPdu) := [
  mk_sent_list "sensor_types"%string (MinefieldSensorTypes) MinefieldDataPdu_sensor_types (enum_deserialize MinefieldSensorTypes_spec)
    any_value (fun p => uval (MinefieldDataPdu_number_of_sensor_types p));
  mk_sent_list "mine_location"%string (EntityCoordinateVector) MinefieldDataPdu_mine_location (EntityCoordinateVector_deserialize)
    any_value (fun p => uval (MinefieldDataPdu_number_of_mines_in_this_pdu p));
  mk_sent_list "ground_burial_depth_offset"%string (option f32) MinefieldDataPdu_ground_burial_depth_offset (as_present (get_uint 4))
    is_present (fun p => uval (MinefieldDataPdu_number_of_mines_in_this_pdu p));
  mk_sent_list "water_burial_depth_offset"%string (option f32) MinefieldDataPdu_water_burial_depth_offset (as_present (get_uint 4))
    is_present (fun p => uval (MinefieldDataPdu_number_of_mines_in_this_pdu p));
  mk_sent_list "snow_burial_depth_offset"%string (option f32) MinefieldDataPdu_snow_burial_depth_offset (as_present (get_uint 4))
    is_present (fun p => uval (MinefieldDataPdu_number_of_mines_in_this_pdu p));
  mk_sent_list "mine_orientation"%string (option EulerAngles) MinefieldDataPdu_mine_orientation (as_present (EulerAngles_deserialize))
    is_present (fun p => uval (MinefieldDataPdu_number_of_mines_in_this_pdu p));
  mk_sent_list "thermal_contrast"%string (option f32) MinefieldDataPdu_thermal_contrast (as_present (get_uint 4))
    is_present (fun p => uval (MinefieldDataPdu_number_of_mines_in_this_pdu p));
  mk_sent_list "reflectance"%string (option f32) MinefieldDataPdu_reflectance (as_present (get_uint 4))
    is_present (fun p => uval (MinefieldDataPdu_number_of_mines_in_this_pdu p));
  mk_sent_list "mine_emplacement_time"%string (option ClockTime) MinefieldDataPdu_mine_emplacement_time (as_present (ClockTime_deserialize))
    is_present (fun p => uval (MinefieldDataPdu_number_of_mines_in_this_pdu p));
  mk_sent_list "mine_entity_id"%string (option u16) MinefieldDataPdu_mine_entity_id (as_present (get_uint 2))
    is_present (fun p => uval (MinefieldDataPdu_number_of_mines_in_this_pdu p));
  mk_sent_list "fusing"%string (option u16) MinefieldDataPdu_fusing (as_present (get_uint 2))
    is_present (fun p => uval (MinefieldDataPdu_number_of_mines_in_this_pdu p));
  mk_sent_list "scalar_detection_coefficient"%string (option u8) MinefieldDataPdu_scalar_detection_coefficient (as_present (get_uint 1))
    is_present (fun p => uval (MinefieldDataPdu_number_of_mines_in_this_pdu p));
  mk_sent_list "paint_scheme"%string (option u8) MinefieldDataPdu_paint_scheme (as_present (get_uint 1))
    is_present (fun p => uval (MinefieldDataPdu_number_of_mines_in_this_pdu p));
  mk_sent_list "number_of_trip_wires"%string (option u8) MinefieldDataPdu_number_of_trip_wires (as_present (get_uint 1))
    is_present (fun p => uval (MinefieldDataPdu_number_of_mines_in_this_pdu p));
  mk_sent_list "number_of_vertices"%string (option u8) MinefieldDataPdu_number_of_vertices (as_present (get_uint 1))
    is_present (fun p => uval (MinefieldDataPdu_number_of_mines_in_this_pdu p))].
(** The vertices: for each mine as many as its entry in the list of numbers of vertices says. *)
Fixpoint read_vertices (numbers : list (option u8)) : reader (list (option (list EntityCoordinateVector))) :=
  match numbers with
  | [] => ret []
  | n :: numbers' =>
      let* v := repeat_read (match n with Some k => N.to_nat (uval k) | None => 0%nat end) EntityCoordinateVector_deserialize in
      let* vs := read_vertices numbers' in
      ret (Some v :: vs)
  end.
(** The entries of the two lists belong together. *)
Definition vertices_counted (n : option u8) (v : option (list EntityCoordinateVector)) : Prop :=
  match n, v with Some k, Some l => uval k = N.of_nat (length l) | _, _ => False end.

Lemma elem_present {A} (w : A -> bytes) r : elem_rt any_value w r -> elem_rt is_present (maybe w) (as_present r).
Proof. intros E [x|] rest G; [|destruct (G eq_refl)]. unfold as_present, maybe, bind. rewrite (E x rest I). reflexivity. Qed.
Lemma vertices_rt : forall ns vs rest, Forall2 vertices_counted ns vs ->
  read_vertices ns (each (maybe (each EntityCoordinateVector_serialize)) vs ++ rest) = Ok (vs, rest).
Proof.
  induction ns as [|n ns IH]; intros vs rest F; inversion F as [|n' v ns' vs' G F']; subst; [reflexivity|].
  destruct n as [k|], v as [v|]; try contradiction. cbn [vertices_counted] in G. cbn [read_vertices]. rewrite G, Nat2N.id.
  unfold each at 1. cbn [map List.concat maybe]. rewrite <- app_assoc. fold (each (maybe (each EntityCoordinateVector_serialize)) vs').
  refine (eq_trans (bind_ok _ _ _ _ _ _ _ (_ : _ = Ok (v, each (maybe (each EntityCoordinateVector_serialize)) vs' ++ rest))) _).
  - unfold each at 1. apply (repeat_read_concat _ EntityCoordinateVector_deserialize EntityCoordinateVector_serialize).
    intros x r. eapply fx_rt. eauto with fx nocore.
  - cbv beta. refine (eq_trans (bind_ok _ _ _ _ _ _ _ (IH _ _ F')) _). reflexivity.
Qed.

Theorem C74_minefield_data : forall p buf p' out rest (sent : string -> bool),
  serialize MinefieldDataPdu p buf = Ok (ROk tt, p', buf ++ out) ->
  Forall (fun l => Forall (sl_good l) (sl_list l p) /\
                   N.of_nat (length (sl_list l p)) = (if sent (sl_name l) then sl_announced l p else 0)) minefield_lists ->
  Forall2 vertices_counted (MinefieldDataPdu_number_of_vertices p) (MinefieldDataPdu_vertices p) ->
  exists q left more, deserialize MinefieldDataPdu (out ++ rest) = Ok (ROk q, left) /\
    reads_back (fun l => if sent (sl_name l) then sl_announced l q else 0) p minefield_lists left more /\
    read_vertices (MinefieldDataPdu_number_of_vertices p) more = Ok (MinefieldDataPdu_vertices p, rest).
Proof.
  intros p buf p' out rest sent S G V.
  assert (O : ordinary MinefieldDataPdu) by (vm_compute; reflexivity).
  destruct (C12_list_roundtrip_exact Checked MinefieldDataPdu p buf p' _ (layout_class Checked _ (nth_error_In (layouts Checked) 24 eq_refl)) O S) as [Eb _].
  destruct (ordinary_recovers MinefieldDataPdu MinefieldDataPdu_map 44 MinefieldDataPdu_tail minefield_lists p buf p' out rest
    (nth_error_In (layouts Checked) 24 eq_refl) ltac:(vm_compute; reflexivity) O
    ltac:(intros q; unfold minefield_lists; repeat (apply Forall_cons; [reflexivity|]); apply Forall_nil) S) as [q [D Q]].
  exists q, (MinefieldDataPdu_tail p ++ rest), (each (maybe (each EntityCoordinateVector_serialize)) (MinefieldDataPdu_vertices p) ++ rest).
  split; [exact D|]. split; [|apply vertices_rt, V].
  apply (reads_count p (fun l => N.of_nat (length (sl_list l p)))).
  { assert (A : Forall (fun l => sl_announced l p' = sl_announced l p) minefield_lists).
    { unfold minefield_lists. repeat (apply Forall_cons; [cbn [sl_announced]; unfold MinefieldDataPdu_number_of_sensor_types, MinefieldDataPdu_number_of_mines_in_this_pdu; rewrite Eb; reflexivity|]). apply Forall_nil. }
    rewrite Forall_forall in *. intros l Il. destruct (G l Il) as [_ N]. rewrite N, (Q l Il), (A l Il). reflexivity. }
  assert (G' : Forall (fun l => Forall (sl_good l) (sl_list l p)) minefield_lists).
  { rewrite Forall_forall in *. intros l Il. exact (proj1 (G l Il)). }
  clear G Q. unfold MinefieldDataPdu_tail. rewrite <- !app_assoc. unfold minefield_lists in *.
  Ltac opt_tac G := 
  lazymatch goal with
  | |- reads_back _ _ (?l :: ?ls) _ _ =>
      apply (reads_cons _ l ls _ _ _); [first [elem_tac | apply elem_present; elem_tac] | exact (Forall_inv G) | let G' := fresh "G" in assert (G' := Forall_inv_tail G); opt_tac G']
  | |- reads_back _ _ [] _ _ => reflexivity
  end.
  opt_tac G'.
Qed.

(** Two mines with locations, fusing and vertices (two of the first mine, none of the second),
    and no other optional list: the bytes left by [deserialize]. *)
Definition minefield_example : pdu MinefieldDataPdu :=
  mk_pdu (c := MinefieldDataPdu) (header (pdu_default MinefieldDataPdu (as_u32 0)))
    (MinefieldIdentifier_default, (EntityId_default, (as_uint 2 0, (as_uint 1 0, (as_uint 1 0, (as_uint 1 0, (as_uint 1 2, (as_uint 1 0, (as_uint 1 0,
     (as_uint 4 0, (EntityType_default, ([], ([EntityCoordinateVector_default; EntityCoordinateVector_default],
     ([], ([], ([], ([], ([], ([], ([], ([], ([Some (as_uint 2 258); Some (as_uint 2 772)], ([], ([], ([],
     ([Some (as_uint 1 2); Some (as_uint 1 0)],
     ([Some [EntityCoordinateVector_default; EntityCoordinateVector_default]; Some []], tt))))))))))))))))))))))))))).
Example C74_minefield_example :
  (match serialize MinefieldDataPdu minefield_example [] with
   | Ok (ROk tt, _, out) =>
       match deserialize MinefieldDataPdu (out ++ [B 77]) with
       | Ok (ROk q, more) => Some (uval (MinefieldDataPdu_number_of_mines_in_this_pdu q), length more, map (@uval 1) (firstn 6 (skipn 24 more)))
       | _ => None
       end
   | _ => None
   end = Some (2, 55%nat, [1; 2; 3; 4; 2; 0])) /\
  (let sent := fun s => mem_string s ["sensor_types"; "mine_location"; "fusing"; "number_of_vertices"]%string in
   Forall (fun l => Forall (sl_good l) (sl_list l minefield_example) /\
                    N.of_nat (length (sl_list l minefield_example)) = (if sent (sl_name l) then sl_announced l minefield_example else 0)) minefield_lists) /\
  Forall2 vertices_counted (MinefieldDataPdu_number_of_vertices minefield_example) (MinefieldDataPdu_vertices minefield_example).
Proof.
  split; [vm_compute; reflexivity|]. split.
  - cbv zeta. unfold minefield_lists. repeat (apply Forall_cons; [split; [repeat (apply Forall_cons; [first [exact I | discriminate]|]); apply Forall_nil | reflexivity]|]). apply Forall_nil.
  - repeat (apply Forall2_cons; [reflexivity|]). apply Forall2_nil.
Qed.

(** ** Gridded data *)

(** A grid data record carries its two codes in two bytes each; the crate's own [deserialize]
    reads one byte each (C30). The caller drops the two high bytes first. *)
Definition mended_grid : reader GridDataRecord := fun bs =>
  match bs with
  | _ :: b1 :: _ :: b3 :: rest => GridDataRecord_deserialize (b1 :: b3 :: rest)
  | _ => Panic Underflow
  end.
(** A record of representation 2 (32 bit values) whose number of values is right. (The other
    two representations end with padding that takes all that follows.) *)
Definition grid_of_floats (v : GridDataRecord) : Prop :=
  code (GridDataRecord_data_representation v) = 2 /\
  match GridDataRecord_data v with Type2 n _ d => uval n = N.of_nat (length d) | _ => False end.

Lemma put_code_high c : c < 256 -> put_u16 (as_u16 c) = [as_u8 0; as_u8 c].
Proof.
  intros H. unfold put_u16, put_uint, as_u16. rewrite as_uint_val by (cbn; lia). cbn [be_encode].
  change (256 ^ N.of_nat 1) with 256. change (256 ^ N.of_nat 0) with 1. rewrite N.div_small, N.div_1_r by exact H. reflexivity.
Qed.
Lemma elem_grid : elem_rt grid_of_floats GridDataRecord_serialize mended_grid.
Proof.
  intros v rest [R D]. unfold GridDataRecord_serialize.
  assert (C1 : code (GridDataRecord_sample_type v) < 256) by exact (enum_fits GriddedDataSampleType_spec (GridDataRecord_sample_type v)).
  rewrite !put_code_high by (try exact C1; rewrite R; reflexivity). cbn [app mended_grid].
  unfold GridDataRecord_deserialize.
  assert (E : forall (e : enum_spec) (x : enum e) r, e_bytes e = 1%nat -> enum_deserialize e (as_u8 (code x) :: r) = Ok (x, r)).
  { intros e x r W. assert (T := enum_rt_gen e x r). assert (F := enum_fits e x). rewrite W in F, T. refine (eq_trans _ T). f_equal.
    unfold put_uint. rewrite as_uint_val by exact F. cbn [be_encode app]. change (256 ^ N.of_nat 0) with 1. rewrite N.div_1_r. reflexivity. }
  refine (eq_trans (bind_ok _ _ _ _ _ _ _ (E GriddedDataSampleType_spec _ _ eq_refl)) _). cbv beta.
  refine (eq_trans (bind_ok _ _ _ _ _ _ _ (E GriddedDataDataRepresentation_spec _ _ eq_refl)) _). cbv beta.
  rewrite R. cbn [N.eqb]. destruct v as [st dr [n d p|s o n d p|n p d]]; cbn [GridDataRecord_data GridDataRecord_sample_type GridDataRecord_data_representation] in *; try contradiction.
  change (2 =? 0) with false. change (2 =? 1) with false. cbv iota.
  refine (eq_trans (bind_ok _ _ _ _ _ _ _ (_ : _ = Ok (Type2 n p d, rest))) _); [|reflexivity].
  rewrite <- !app_assoc.
  refine (eq_trans (bind_ok _ _ _ _ _ _ _ (get_put_uint 2 _ _)) _). cbv beta.
  refine (eq_trans (bind_ok _ _ _ _ _ _ _ (get_put_uint 2 _ _)) _). cbv beta.
  refine (eq_trans (bind_ok _ _ _ _ _ _ _ (_ : _ = Ok (d, rest))) _); [|reflexivity].
  rewrite D, Nat2N.id. apply (repeat_read_concat _ get_f32 put_f32). intros x r. apply get_put_uint.
Qed.

(** Regular axes, then data records of representation 2 (how many is not announced: the caller
    must know it). *)
Theorem C74_gridded_data : forall p buf p' out rest,
  serialize GriddedDataPdu p buf = Ok (ROk tt, p', buf ++ out) ->
  Forall regular_axis (GriddedDataPdu_grid_axis_descriptors p) ->
  uval (GriddedDataPdu_number_of_grid_axes p) = N.of_nat (length (GriddedDataPdu_grid_axis_descriptors p)) ->
  Forall grid_of_floats (GriddedDataPdu_grid_data_list p) ->
  exists q left more, deserialize GriddedDataPdu (out ++ rest) = Ok (ROk q, left) /\
    repeat_read (N.to_nat (uval (GriddedDataPdu_number_of_grid_axes q))) GridAxisDescriptor_deserialize left =
      Ok (GriddedDataPdu_grid_axis_descriptors p, more) /\
    repeat_read (length (GriddedDataPdu_grid_data_list p)) mended_grid more = Ok (GriddedDataPdu_grid_data_list p, rest).
Proof.
  intros p buf p' out rest S A N G.
  assert (I : In GriddedDataPdu_lists recoveries) by (apply (nth_error_In _ 33); reflexivity).
  assert (O : ordinary GriddedDataPdu) by (vm_compute; reflexivity).
  assert (C : In GriddedDataPdu (all_pdus Checked)) by (apply (nth_error_In _ 58); reflexivity).
  destruct (C12_list_roundtrip_exact Checked GriddedDataPdu p buf p' _ C O S) as [Eb _].
  destruct (C74_announced GriddedDataPdu_lists p buf p' out rest I S) as [q [left [D R]]].
  - constructor; [exact A | constructor].
  - constructor; [|constructor]. cbn [sl_announced sl_list]. refine (eq_trans _ N). unfold GriddedDataPdu_number_of_grid_axes. rewrite Eb. reflexivity.
  - cbn [rv_class rv_lists GriddedDataPdu_lists] in D, R. cbn [reads_back] in R. destruct R as [more [R1 R2]]. cbn [sl_announced sl_read sl_list] in R1.
    exists q, left, more. split; [exact D|]. split; [exact R1|]. rewrite R2. cbn [rv_rest GriddedDataPdu_lists]. unfold each.
    apply (repeat_read_concat_P _ grid_of_floats); [|exact G]. intros x r Gx. apply elem_grid, Gx.
Qed.
Example C74_gridded_example :
  let v := mk_GridDataRecord (variant GriddedDataSampleType_spec 0 eq_refl) (variant GriddedDataDataRepresentation_spec 2 eq_refl)
    (Type2 (as_uint 2 2) (as_uint 2 0) [as_uint 4 16909060; as_uint 4 84281096]) in
  grid_of_floats v /\ map (@uval 1) (GridDataRecord_serialize v) = [0; 0; 0; 2; 0; 2; 0; 0; 1; 2; 3; 4; 5; 6; 7; 8].
Proof. split; [split; reflexivity | vm_compute; reflexivity]. Qed.

(** What the theorems above rest on (one traversal for all of them; not part of the model). *)
Definition Prop_RecoverMine_theorems : True :=
  let _ := @C74_minefield_data in
  let _ := @C74_gridded_data in
  I.
Print Assumptions Prop_RecoverMine_theorems.
