(** * Primitive codecs, enumerations, bit flags, fixed-size records and containers:
    C18, C21, C22, C40, C41. *)
From Verif Require Import Base BaseFacts EnumModel Enums EnumFacts Fixed Header PduMacro PduMacroFacts
  DataTypes DataTypesFacts Bitflags BitflagsFacts Pdus Spec RecordFacts ClassFacts PduProofs Wire WireMaps WireProofs WireFacts WireClass
  SpecEnums SpecRecords.

(** ** C41: primitive big-endian codecs *)

(** The codec [c] writes and reads [k]-byte big-endian numbers. *)
Definition big_endian_codec (k : nat) (c : codec (uint k)) : Prop :=
  (forall v, c_ser c v = Ok (big_endian k (uval v)) /\ length (big_endian k (uval v)) = k /\ c_len c v = N.of_nat k) /\
  (forall v rest, c_des c (big_endian k (uval v) ++ rest) = Ok (v, rest)) /\
  (forall bs, (k <= length bs)%nat -> exists v, c_des c bs = Ok (v, skipn k bs) /\ uval v = number (firstn k bs)) /\
  (forall bs, (length bs < k)%nat -> c_des c bs = Panic Underflow).
Lemma uint_big_endian k l : (forall v, l v = N.of_nat k) ->
  big_endian_codec k (mk_codec (fun v => Ok (put_uint v)) (get_uint k) l).
Proof.
  intros L. unfold big_endian_codec. cbn [c_ser c_des c_len]. split; [|split; [|split]].
  - intros v. rewrite big_endian_eq. split; [reflexivity|]. split; [apply be_encode_length | apply L].
  - intros v rest. rewrite big_endian_eq. apply get_put_uint.
  - intros bs H. destruct (put_get_uint k bs H) as [u [G [_ V]]]. exists u. split; [exact G|]. now rewrite number_eq.
  - apply get_uint_short.
Qed.
Theorem C41_primitives :
  big_endian_codec 1 u8_codec /\ big_endian_codec 2 u16_codec /\ big_endian_codec 4 u32_codec /\ big_endian_codec 8 u64_codec /\
  big_endian_codec 1 i8_codec /\ big_endian_codec 2 i16_codec /\ big_endian_codec 4 i32_codec /\ big_endian_codec 8 i64_codec /\
  big_endian_codec 4 f32_codec /\ big_endian_codec 8 f64_codec.
Proof. repeat split; try apply uint_big_endian; try reflexivity; apply uint_big_endian; reflexivity. Qed.
Example C41_example : match c_ser u32_codec (as_u32 0x01020304) with Ok b => map uval b | _ => [] end = [1; 2; 3; 4].
Proof. vm_compute. reflexivity. Qed.

(** ** C18: enumerations *)

(** The model's enumerations agree with the independently extracted table. *)
Definition row_of (e : enum_spec) : enum_row :=
  (e_name e, N.of_nat (e_bytes e), lenN (e_codes e), fold_right N.min (e_default e) (e_codes e),
   fold_right N.max 0 (e_codes e), fold_right N.add 0 (e_codes e), e_default e).
Theorem C18_table : map row_of all_enums = enum_table.
Proof. vm_compute. reflexivity. Qed.
(** Distinct variants have distinct codes, which fit the wire width (1, 2 or 4 bytes). *)
Theorem C18_codes : forall e, In e all_enums ->
  NoDup (e_codes e) /\ In (e_default e) (e_codes e) /\ (e_bytes e = 1 \/ e_bytes e = 2 \/ e_bytes e = 4)%nat /\
  (forall c, In c (e_codes e) -> c < 256 ^ N.of_nat (e_bytes e)).
Proof.
  intros e I.
  assert (F : Forall (fun e => nodup_by N.eqb (e_codes e) = true /\ existsb (Nat.eqb (e_bytes e)) [1; 2; 4]%nat = true) all_enums).
  { repeat (apply Forall_cons; [split; vm_compute; reflexivity|]). apply Forall_nil. }
  rewrite Forall_forall in F. destruct (F _ I) as [N W].
  split; [apply (nodup_check N.eqb N.eqb_refl), N|]. split; [apply memb_In, e_default_ok|]. split.
  - apply existsb_exists in W. destruct W as [x [X E]]. apply Nat.eqb_eq in E. rewrite E. cbn in X. intuition lia.
  - intros c C. assert (G := e_fits e). rewrite forallb_forall in G. apply N.ltb_lt, G, C.
Qed.
(** A value of an enumeration is determined by its code, and every listed code is a value. *)
Theorem C18_values : forall e,
  (forall x y : enum e, code x = code y -> x = y) /\ (forall n, In n (e_codes e) <-> exists x : enum e, code x = n).
Proof.
  intros e. split; [apply enum_eq|]. intros n. split.
  - intros H. apply memb_In in H. exists (mk_enum n H). reflexivity.
  - intros [x <-]. apply memb_In, code_ok.
Qed.
(** Decoding: known codes give their variant, unknown ones the default; exactly the wire
    width is consumed; too few bytes panic. *)
Theorem C18_decode : forall e,
  (forall (x : enum e) rest, enum_deserialize e (big_endian (e_bytes e) (code x) ++ rest) = Ok (x, rest)) /\
  (forall bs, (e_bytes e <= length bs)%nat -> exists x, enum_deserialize e bs = Ok (x, skipn (e_bytes e) bs) /\
     let n := number (firstn (e_bytes e) bs) in
     (In n (e_codes e) -> code x = n) /\ (~ In n (e_codes e) -> code x = e_default e)) /\
  (forall bs, (length bs < e_bytes e)%nat -> enum_deserialize e bs = Panic Underflow).
Proof.
  intros e. split; [|split].
  - intros x rest. rewrite big_endian_eq. assert (R := enum_rt_gen e x rest). unfold put_uint in R.
    rewrite as_uint_val in R by apply enum_fits. exact R.
  - intros bs H. destruct (enum_deserialize_spec e bs H) as [x [D C]]. exists x. split; [exact D|].
    cbn zeta in *. rewrite number_eq. rewrite C. split; intros K.
    + apply memb_In in K. now rewrite K.
    + destruct (memb _ _) eqn:M; [apply memb_In in M; contradiction | reflexivity].
  - apply (enum_exact e).
Qed.
(** The enumerations used as PDU fields are written in the width in which they are read. *)
Theorem C18_fields : forall f, In f enum_fields -> forall x : enum (ef_enum f),
  ef_serialize_field f x = big_endian (e_bytes (ef_enum f)) (code x) /\
  ef_field_len f x = N.of_nat (e_bytes (ef_enum f)).
Proof.
  assert (K : forall k e (x : enum e), e_bytes e = k -> put_uint (as_uint k (code x)) = big_endian k (code x)).
  { intros k e x <-. rewrite big_endian_eq. unfold put_uint. now rewrite as_uint_val by apply enum_fits. }
  assert (F : Forall (fun f => forall x : enum (ef_enum f),
     ef_serialize_field f x = big_endian (e_bytes (ef_enum f)) (code x) /\
     ef_field_len f x = N.of_nat (e_bytes (ef_enum f))) enum_fields).
  { repeat (apply Forall_cons; [intros x; split; [apply K; reflexivity | reflexivity]|]). apply Forall_nil. }
  rewrite Forall_forall in F. exact F.
Qed.
Example C18_example :
  In 25 (e_codes PduType_spec) /\ e_bytes Country_spec = 2%nat /\ ~ In 0xFFFF (e_codes Country_spec) /\
  match enum_deserialize Country_spec (map B [0xFF; 0xFF; 5]) with Ok (x, rest) => Some (code x, map uval rest) | _ => None end
  = Some (0, [5]).
Proof.
  split; [apply memb_In; vm_compute; reflexivity|]. split; [reflexivity|]. split; [|vm_compute; reflexivity].
  intros H. apply memb_In in H. vm_compute in H. discriminate.
Qed.

(** ** C21: bit flags *)

(** The declared bits (enums.rs). *)
Definition frozen_bits : list N := [0; 1; 2].
Definition object_bits : list N := [0; 8; 10; 11; 12; 13; 14].
Definition land_bits : list N :=
  [0; 1; 2; 3; 5; 6; 7; 9; 12; 13; 14; 15; 16; 17; 19; 21; 22; 23; 24; 25; 26; 27; 28; 29; 30; 31].
(** All bits of [n] are among [l]. *)
Definition only_declared (l : list N) (n : N) : Prop := forall i, N.testbit n i = true -> In i l.

Lemma declared_check d l w : (forallb (fun i => Bool.eqb (N.testbit d i) (memb i l)) (map N.of_nat (seq 0 w)) = true) ->
  forall n, n < 2 ^ N.of_nat w -> N.ldiff n d = 0 <-> only_declared l n.
Proof.
  intros F n H. rewrite forallb_forall in F.
  assert (Hi : forall i, N.testbit n i = true -> N.testbit d i = memb i l).
  { intros i T. apply eqb_prop, F. apply in_map_iff. exists (N.to_nat i). split; [lia|]. apply in_seq.
    destruct (N.ltb_spec i (N.of_nat w)); [lia|]. exfalso.
    rewrite <- (N.mod_small n (2 ^ N.of_nat w) H), N.mod_pow2_bits_high in T by assumption. discriminate. }
  split.
  - intros E i T. apply (f_equal (fun x => N.testbit x i)) in E. rewrite N.ldiff_spec, N.bits_0, T in E.
    rewrite (Hi i T) in E. destruct (memb i l) eqn:M; [apply memb_In, M | discriminate].
  - intros O. apply N.bits_inj. intros i. rewrite N.ldiff_spec, N.bits_0.
    destruct (N.testbit n i) eqn:T; [|reflexivity]. rewrite (Hi i T).
    apply O in T. apply memb_In in T. rewrite T. reflexivity.
Qed.

Theorem C21_from_bits :
  (forall b : u8, (exists f, FrozenBehavior_from_u8 b = Some f) <-> only_declared frozen_bits (uval b)) /\
  (forall b : u16, (exists f, ObjectStateAppearanceGeneral_from_u16 b = Some f) <-> only_declared object_bits (uval b)) /\
  (forall b : u32, (exists f, LandPlatformAppearance_from_u32 b = Some f) <-> only_declared land_bits (uval b)) /\
  (forall b f, FrozenBehavior_from_u8 b = Some f -> FrozenBehavior_as_u8 f = b) /\
  (forall b f, ObjectStateAppearanceGeneral_from_u16 b = Some f -> ObjectStateAppearanceGeneral_as_u16 f = b) /\
  (forall b f, LandPlatformAppearance_from_u32 b = Some f -> LandPlatformAppearance_as_u32 f = b).
Proof.
  assert (K : forall k d l (b : uint k), (N.ldiff (uval b) d = 0 <-> only_declared l (uval b)) ->
            (exists f : flags k d, flags_from_bits d b = Some f) <-> only_declared l (uval b)).
  { intros k d l b H. rewrite <- H. unfold flags_from_bits. destruct (N.eqb_spec (N.ldiff (uval b) d) 0) as [E|E].
    - split; [intros _; exact E | intros _; eexists; reflexivity].
    - split; [intros [f F]; discriminate | contradiction]. }
  assert (J : forall k d (b : uint k) f, flags_from_bits d b = Some f -> bits f = b).
  { intros k d b f. unfold flags_from_bits. destruct (_ =? _); [|discriminate]. intros [= <-]. reflexivity. }
  split; [|split; [|split; [|split; [|split]]]].
  - intros b. apply K. apply (declared_check _ _ 8); [reflexivity | apply (uint_lt 1)].
  - intros b. apply K. apply (declared_check _ _ 16); [vm_compute; reflexivity | apply (uint_lt 2)].
  - intros b. apply K. apply (declared_check _ _ 32); [vm_compute; reflexivity | apply (uint_lt 4)].
  - intros b f. apply J.
  - intros b f. apply J.
  - intros b f. apply J.
Qed.
(** Field decoding: the value itself when all its bits are declared, the empty set when not;
    hence encoding and decoding gives the value back exactly in the first case. *)
Theorem C21_field_decoding :
  (forall (b : u8) rest, exists f, c_des FrozenBehavior_codec (put_u8 b ++ rest) = Ok (f, rest) /\
     (only_declared frozen_bits (uval b) -> bits f = b) /\ (~ only_declared frozen_bits (uval b) -> uval (bits f) = 0)) /\
  (forall (b : u16) rest, exists f, c_des ObjectStateAppearanceGeneral_codec (put_u16 b ++ rest) = Ok (f, rest) /\
     (only_declared object_bits (uval b) -> bits f = b) /\ (~ only_declared object_bits (uval b) -> uval (bits f) = 0)) /\
  (forall v, c_ser FrozenBehavior_codec v = Ok (put_u8 (bits v)) /\ c_len FrozenBehavior_codec v = 1) /\
  (forall v, c_ser ObjectStateAppearanceGeneral_codec v = Ok (put_u16 (bits v)) /\ c_len ObjectStateAppearanceGeneral_codec v = 2).
Proof.
  assert (K : forall k d l (b : uint k), (N.ldiff (uval b) d = 0 <-> only_declared l (uval b)) ->
    let f := flags_or_default (flags_from_bits d b) in
    (only_declared l (uval b) -> bits f = b) /\ (~ only_declared l (uval b) -> uval (bits f) = 0)).
  { intros k d l b H f. rewrite <- H. unfold f, flags_from_bits. split; intros E.
    - rewrite E. reflexivity.
    - apply N.eqb_neq in E. rewrite E. cbn [flags_or_default flags_empty bits]. apply as_uint_val. apply pow256_pos. }
  split; [|split; [|split]].
  - intros b rest. exists (flags_or_default (flags_from_bits _ b)).
    split; [exact (bind_ok _ _ _ _ _ _ _ (get_put_uint _ b rest))|]. apply K.
    apply (declared_check _ _ 8); [reflexivity | apply (uint_lt 1)].
  - intros b rest. exists (flags_or_default (flags_from_bits _ b)).
    split; [exact (bind_ok _ _ _ _ _ _ _ (get_put_uint _ b rest))|]. apply K.
    apply (declared_check _ _ 16); [vm_compute; reflexivity | apply (uint_lt 2)].
  - intros v. split; reflexivity.
  - intros v. split; reflexivity.
Qed.
Example C21_example : (exists f, FrozenBehavior_from_u8 (as_u8 5) = Some f) /\ FrozenBehavior_from_u8 (as_u8 9) = None.
Proof. split; [eexists; vm_compute; reflexivity | vm_compute; reflexivity]. Qed.

(** ** C22: fixed-size record types *)
Theorem C22_records : forall r, In r fixed_records ->
  (forall v, length (rt_serialize r v) = rt_size r) /\
  (forall v rest, rt_deserialize r (rt_serialize r v ++ rest) = Ok (v, rest)) /\
  (forall bs, length bs = rt_size r -> exists v, forall rest, rt_deserialize r (bs ++ rest) = Ok (v, rest)) /\
  (forall bs, (length bs < rt_size r)%nat -> rt_deserialize r bs = Panic Underflow) /\
  (forall c, rt_field r = Some c ->
     (forall v, c_ser c v = Ok (rt_serialize r v) /\ c_len c v = N.of_nat (rt_size r)) /\
     (forall bs, c_des c bs = rt_deserialize r bs)).
Proof.
  assert (F : Forall (fun r => fixed_rw (rt_size r) (rt_serialize r) (rt_deserialize r) /\
    (forall c, rt_field r = Some c ->
     (forall v, c_ser c v = Ok (rt_serialize r v) /\ c_len c v = N.of_nat (rt_size r)) /\
     (forall bs, c_des c bs = rt_deserialize r bs))) fixed_records).
  { repeat (apply Forall_cons; [split; [solve [eauto with fx nocore]
      | intros c E; first [discriminate E | injection E as <-; split; [intros v; split; reflexivity | reflexivity]]]|]). apply Forall_nil. }
  rewrite Forall_forall in F. intros r I. destruct (F r I) as [[L [R [Sh Ex]]] C].
  split; [exact L|]. split; [exact R|]. split; [exact Ex|]. split; [exact Sh | exact C].
Qed.
(** Where each number of a record is on the wire, for encoding and for decoding. *)
Theorem C22_layout : forall r, In r fixed_records ->
  tiles 0 (rt_size r) (rt_map r) /\
  (forall v, Forall (sent (rt_serialize r v) v) (rt_map r)) /\
  (forall bs v rest, rt_deserialize r bs = Ok (v, rest) -> Forall (received bs v) (rt_map r)).
Proof.
  assert (F : Forall (fun r => tilesb 0 (rt_size r) (map (fun e => (en_off e, en_width e)) (rt_map r)) = true) fixed_records).
  { repeat (apply Forall_cons; [vm_compute; reflexivity|]). apply Forall_nil. }
  assert (W : Forall (fun r => wire (rt_size r) (rt_map r) (rt_serialize r) (rt_deserialize r)) fixed_records).
  { repeat (apply Forall_cons; [solve [eauto with wr nocore]|]). apply Forall_nil. }
  rewrite Forall_forall in F, W. intros r I. split; [apply tilesb_ok, F, I|]. destruct (W r I) as [S D]. split.
  - intros v. apply S.
  - intros bs v rest E. apply (D _ _ _ E).
Qed.
Example C22_example : length fixed_records = 48%nat /\
  In (mk_record_type "EntityId"%string EntityId 6 EntityId_serialize EntityId_deserialize (Some EntityId_codec) EntityId_map) fixed_records /\
  map uval (EntityId_serialize (EntityId_new (as_u16 1) (as_u16 2) (as_u16 0x0304))) = [0; 1; 0; 2; 3; 4].
Proof. split; [reflexivity|]. split; [apply (nth_error_In _ 9); reflexivity | vm_compute; reflexivity]. Qed.

(** ** C40: containers *)
Theorem C40_vec : forall T (c : codec T),
  (forall a b, c_len (vec_codec c) (a ++ b) = c_len (vec_codec c) a + c_len (vec_codec c) b) /\
  (forall x, c_len (vec_codec c) [x] = c_len c x) /\ c_len (vec_codec c) [] = 0 /\
  (forall (w : T -> bytes) l, (forall x, In x l -> c_ser c x = Ok (w x)) -> c_ser (vec_codec c) l = Ok (List.concat (map w l))) /\
  (forall l x e, In x l -> c_ser c x = Panic e -> exists e', c_ser (vec_codec c) l = Panic e') /\
  (forall bs, c_des (vec_codec c) bs = Ok ([], bs)).
Proof.
  intros T c. cbn [vec_codec c_len c_ser c_des]. split; [|split; [|split; [|split; [|split]]]].
  - intros a b. induction a as [|x a IH]; [reflexivity|]. cbn [app map sumN]. rewrite IH. lia.
  - intros x. cbn [map sumN]. lia.
  - reflexivity.
  - intros w l. induction l as [|x l IH]; intros H; [reflexivity|]. cbn [map wconcat List.concat].
    rewrite (H x (or_introl eq_refl)), IH by (intros y Y; apply H; right; exact Y). reflexivity.
  - intros l. induction l as [|y l IH]; intros x e I P; [destruct I|]. cbn [map wconcat]. destruct I as [->|I].
    + rewrite P. exists e. reflexivity.
    + destruct (c_ser c y) as [b|e']; [|exists e'; reflexivity]. cbn [wapp].
      destruct (IH x e I P) as [e' ->]. exists e'. reflexivity.
  - reflexivity.
Qed.
Theorem C40_option : forall T (c : codec T),
  (forall x, c_ser (option_codec c) (Some x) = c_ser c x /\ c_len (option_codec c) (Some x) = c_len c x) /\
  c_ser (option_codec c) None = Ok [] /\ c_len (option_codec c) None = 0 /\
  (forall bs, c_des (option_codec c) bs = Ok (None, bs)) /\
  (forall r bs, option_deserialize_with_len r 0 bs = Ok (@None T, bs)) /\
  (forall (r : N -> reader T) n bs x rest, n <> 0 -> r n bs = Ok (x, rest) -> option_deserialize_with_len r n bs = Ok (Some x, rest)).
Proof.
  intros T c. split; [intros x; split; reflexivity|]. split; [reflexivity|]. split; [reflexivity|]. split; [reflexivity|].
  split; [reflexivity|]. intros r n bs x rest H E. unfold option_deserialize_with_len. apply N.eqb_neq in H. rewrite H.
  exact (bind_ok _ _ _ (fun x => ret (Some x)) _ _ _ E).
Qed.
Theorem C40_string : (forall v, c_ser string_codec v = Ok v /\ c_len string_codec v = N.of_nat (length v)) /\
  (forall bs, c_des string_codec bs = Ok ([], bs)).
Proof. split; [intros v; split; reflexivity | reflexivity]. Qed.
Example C40_example : match c_ser (vec_codec u16_codec) [as_u16 1; as_u16 515] with Ok b => map uval b | _ => [] end = [0; 1; 2; 3].
Proof. vm_compute. reflexivity. Qed.

(** What the theorems above rest on (one traversal for all of them; not part of the model). *)
Definition Prop_Types_theorems : True :=
  let _ := @C41_primitives in
  let _ := @C18_table in
  let _ := @C18_codes in
  let _ := @C18_values in
  let _ := @C18_decode in
  let _ := @C18_fields in
  let _ := @C21_from_bits in
  let _ := @C21_field_decoding in
  let _ := @C22_records in
  let _ := @C22_layout in
  let _ := @C40_vec in
  let _ := @C40_option in
  let _ := @C40_string in
  I.
Print Assumptions Prop_Types_theorems.
