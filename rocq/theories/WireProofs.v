(** * Composition of wire maps (proofs only). *)
From Verif Require Import Base BaseFacts EnumModel Enums EnumFacts Fixed Header PduMacro PduMacroFacts DataTypes Bitflags BitflagsFacts Spec RecordFacts Wire.

(** ** Big-endian numbers *)
Lemma big_endian_eq w : forall n, big_endian w n = be_encode w n.
Proof.
  induction w as [|w IH]; intros n; [reflexivity|].
  assert (G : forall w n, be_encode (S w) n = be_encode w (n / 256) ++ [as_u8 n]).
  { clear. induction w as [|w IH]; intros n.
    - cbn. rewrite N.div_1_r. reflexivity.
    - change (be_encode (S (S w)) n) with (as_u8 (n / 256 ^ N.of_nat (S w)) :: be_encode (S w) n).
      rewrite IH. change (be_encode (S w) (n / 256)) with (as_u8 (n / 256 / 256 ^ N.of_nat w) :: be_encode w (n / 256)).
      rewrite N.div_div by (try apply N.pow_nonzero; discriminate). rewrite pow256_S. reflexivity. }
  rewrite G. cbn [big_endian]. rewrite IH. f_equal. f_equal. apply uint_eq. unfold B, as_u8, as_uint. cbn [uval].
  change (256 ^ N.of_nat 1) with 256. now rewrite N.mod_mod.
Qed.
Lemma number_eq bs : number bs = be_decode bs.
Proof.
  unfold number, be_decode. generalize 0. induction bs as [|b bs IH]; intros a; [reflexivity|]. cbn [fold_left be_decode_acc]. apply IH.
Qed.
Lemma skipn_add {A} n m (l : list A) : skipn n (skipn m l) = skipn (n + m) l.
Proof.
  revert l. induction m as [|m IH]; intros l; [now rewrite Nat.add_0_r|].
  destruct l as [|x l]; [now rewrite !skipn_nil|]. rewrite Nat.add_succ_r. cbn [skipn]. apply IH.
Qed.

(** ** Maps relative to a field *)
Definition sub_name (p n : string) : string := match n with EmptyString => p | _ => append p (append "."%string n) end.
Definition place {S T} (ren : string -> string) (k : nat) (g : S -> T) (es : list (entry T)) : list (entry S) :=
  map (fun e => mk_entry (ren (en_name e)) (k + en_off e) (en_width e) (en_norm e) (fun v => en_put e (g v)) (fun v => en_get e (g v))) es.
Definition part {S T} (p : string) (k : nat) (g : S -> T) (es : list (entry T)) : list (entry S) := place (sub_name p) k g es.

Definition uint_map (k : nat) : list (entry (uint k)) := [num 0 k ""%string (fun v => uval v)].
Definition lost_map (k : nat) : list (entry (uint k)) := [lost 0 k ""%string (fun v => uval v)].
Definition enum_map (k : nat) (e : enum_spec) : list (entry (enum e)) := [cod 0 k e ""%string (fun v => code v)].
Definition flags_map (k : nat) (d : N) {D} : list (entry (flags k D)) := [flg 0 k d ""%string (fun v => uval (bits v))].
Definition array_map (n : nat) : list (entry (array (uint 1) n)) :=
  map (fun i => num i 1 ""%string (fun v => uval (nth i (elems v) (B 0)))) (seq 0 n).
Definition lost_array_map (n : nat) : list (entry (array (uint 1) n)) :=
  map (fun i => lost i 1 ""%string (fun v => uval (nth i (elems v) (B 0)))) (seq 0 n).

(** ** Writers and readers that follow a map *)
Definition wser {T} (n : nat) (es : list (entry T)) (w : T -> bytes) : Prop :=
  forall v, length (w v) = n /\ Forall (sent (w v) v) es.
Definition wdes {T} (n : nat) (es : list (entry T)) (r : reader T) : Prop :=
  forall bs v rest, r bs = Ok (v, rest) -> rest = skipn n bs /\ (n <= length bs)%nat /\ Forall (received bs v) es.
Definition wire {T} (n : nat) (es : list (entry T)) (w : T -> bytes) (r : reader T) : Prop := wser n es w /\ wdes n es r.

Lemma slice_uint {k} (u : uint k) : slice 0 k (put_uint u) = big_endian k (uval u).
Proof. unfold slice. rewrite big_endian_eq. cbn [skipn]. rewrite firstn_all2; [reflexivity|]. now rewrite put_uint_length. Qed.

Lemma get_uint_inv k bs (v : uint k) rest : get_uint k bs = Ok (v, rest) ->
  rest = skipn k bs /\ (k <= length bs)%nat /\ uval v = number (slice 0 k bs).
Proof.
  intros H. destruct (Nat.ltb_spec (length bs) k) as [L|L]; [rewrite get_uint_short in H by exact L; discriminate|].
  destruct (put_get_uint k bs L) as [u [G [_ V]]]. rewrite G in H. injection H as -> <-.
  split; [reflexivity|]. split; [exact L|]. rewrite number_eq. exact V.
Qed.

Lemma uint_wire k : wire k (uint_map k) (@put_uint k) (get_uint k).
Proof.
  split.
  - intros v. split; [apply put_uint_length|]. constructor; [|constructor]. apply slice_uint.
  - intros bs v rest H. apply get_uint_inv in H. destruct H as [E [L V]]. split; [exact E|]. split; [exact L|]. constructor; [exact V | constructor].
Qed.
Lemma enum_wire k e : e_bytes e = k -> wire k (enum_map k e) (fun x : enum e => put_uint (as_uint k (code x))) (enum_deserialize e).
Proof.
  intros <-. split.
  - intros v. split; [apply put_uint_length|]. constructor; [|constructor]. unfold sent, cod. cbn [en_off en_width en_put].
    rewrite slice_uint. now rewrite as_uint_val by apply enum_fits.
  - intros bs v rest H. destruct (Nat.ltb_spec (length bs) (e_bytes e)) as [L|L].
    { unfold enum_deserialize, bind in H. rewrite get_uint_short in H by exact L. discriminate. }
    destruct (enum_deserialize_spec e bs L) as [x [D C]]. rewrite D in H. injection H as -> <-.
    split; [reflexivity|]. split; [exact L|]. constructor; [|constructor]. unfold received, cod. cbn [en_off en_width en_get en_norm].
    rewrite C, number_eq. reflexivity.
Qed.
Lemma lost_wser k : wser k (lost_map k) (fun _ : uint k => put_uint (as_uint k 0)).
Proof.
  intros v. split; [apply put_uint_length|]. constructor; [|constructor]. unfold sent, lost. cbn [en_off en_width en_put].
  rewrite slice_uint. now rewrite as_uint_val by apply pow256_pos.
Qed.
Lemma lost_wdes k : wdes k (lost_map k) (get_uint k).
Proof.
  intros bs v rest H. apply get_uint_inv in H. destruct H as [E [L V]]. split; [exact E|]. split; [exact L|]. constructor; [exact V | constructor].
Qed.

Lemma slice_one (l : bytes) i : (i < length l)%nat -> slice i 1 l = [nth i l (B 0)].
Proof.
  revert i. induction l as [|x l IH]; intros i H; [cbn in H; lia|]. destruct i as [|i]; [reflexivity|].
  unfold slice. cbn [skipn nth]. apply IH. cbn in H. lia.
Qed.
Lemma big_endian_1 (b : byte) : big_endian 1 (uval b) = [b].
Proof. rewrite big_endian_eq. apply (put_u8_single b). Qed.
Lemma number_1 (b : byte) : number [b] = uval b.
Proof. unfold number. cbn [fold_left]. lia. Qed.

Lemma repeat_get_u8_inv n bs l rest : repeat_read n get_u8 bs = Ok (l, rest) ->
  l = firstn n bs /\ rest = skipn n bs /\ (n <= length bs)%nat.
Proof.
  intros H. destruct (Nat.ltb_spec (length bs) n) as [L|L]; [rewrite repeat_get_u8_short in H by exact L; discriminate|].
  assert (E := repeat_get_u8 (firstn n bs) (skipn n bs)). rewrite firstn_length, Nat.min_l, firstn_skipn in E by exact L.
  rewrite E in H. injection H as <- <-. repeat split; exact L.
Qed.

Lemma array_wser n : wser n (array_map n) (fun a : array (uint 1) n => List.concat (map put_uint (elems a))).
Proof.
  intros v. change (@put_uint 1) with put_u8. rewrite concat_put_u8. split; [apply array_length|].
  apply Forall_forall. intros e He. apply in_map_iff in He. destruct He as [i [<- Hi]]. apply in_seq in Hi.
  unfold sent, num. cbn [en_off en_width en_put]. rewrite slice_one by (rewrite array_length; lia). now rewrite big_endian_1.
Qed.
Lemma array_received n bs (a : array (uint 1) n) : (n <= length bs)%nat -> elems a = firstn n bs ->
  forall i, (i < n)%nat -> uval (nth i (elems a) (B 0)) = number (slice i 1 bs).
Proof.
  intros L E i Hi. rewrite slice_one by exact (Nat.lt_le_trans _ _ _ Hi L). rewrite number_1, E. f_equal.
  rewrite <- (firstn_skipn n bs) at 2. rewrite app_nth1; [reflexivity|]. rewrite firstn_length. apply Nat.min_glb_lt; [exact Hi | exact (Nat.lt_le_trans _ _ _ Hi L)].
Qed.
Lemma read_array_inv n bs (a : array (uint 1) n) rest : read_array n (as_uint 1 0) (get_uint 1) bs = Ok (a, rest) ->
  elems a = firstn n bs /\ rest = skipn n bs /\ (n <= length bs)%nat.
Proof.
  unfold read_array, bind, ret. destruct (repeat_read n (get_uint 1) bs) as [[l r]|] eqn:E; [|discriminate].
  intros H. injection H as <- <-. apply repeat_get_u8_inv in E. destruct E as [-> [-> L]].
  split; [|split; [reflexivity | exact L]]. unfold to_array.
  destruct (Bool.bool_dec _ _) as [K|K]; [reflexivity|]. exfalso. apply K. apply Nat.eqb_eq. rewrite firstn_length. lia.
Qed.
Lemma array_wdes n : wdes n (array_map n) (read_array n (as_uint 1 0) (get_uint 1)).
Proof.
  intros bs v rest H. apply read_array_inv in H. destruct H as [E [-> L]]. split; [reflexivity|]. split; [exact L|].
  apply Forall_forall. intros e He. apply in_map_iff in He. destruct He as [i [<- Hi]]. apply in_seq in Hi.
  apply (array_received n bs v L E). lia.
Qed.
Lemma lost_array_wser n : wser n (lost_array_map n) (fun _ : array (uint 1) n => zero_bytes n).
Proof.
  intros v. split; [apply repeat_length|].
  apply Forall_forall. intros e He. apply in_map_iff in He. destruct He as [i [<- Hi]]. apply in_seq in Hi.
  unfold sent, lost. cbn [en_off en_width en_put]. unfold zero_bytes. rewrite slice_one by (rewrite repeat_length; lia).
  rewrite nth_repeat. symmetry. exact (big_endian_1 (B 0)).
Qed.
Lemma lost_array_wdes n : wdes n (lost_array_map n) (read_array n (as_uint 1 0) (get_uint 1)).
Proof.
  intros bs v rest H. apply read_array_inv in H. destruct H as [E [-> L]]. split; [reflexivity|]. split; [exact L|].
  apply Forall_forall. intros e He. apply in_map_iff in He. destruct He as [i [<- Hi]]. apply in_seq in Hi.
  apply (array_received n bs v L E). lia.
Qed.

(** ** Placing a part *)
Lemma slice_app_l off w a b : (off + w <= length a)%nat -> slice off w (a ++ b) = slice off w a.
Proof.
  intros H. unfold slice. rewrite skipn_app, firstn_app, skipn_length.
  replace (w - (length a - off))%nat with 0%nat by lia. cbn [firstn]. apply app_nil_r.
Qed.
Lemma slice_app_r k off w a b : length a = k -> slice (k + off) w (a ++ b) = slice off w b.
Proof.
  intros <-. unfold slice. rewrite skipn_app, skipn_all2 by lia. cbn [app]. do 2 f_equal. lia.
Qed.
Lemma slice_skip k off w bs : slice off w (skipn k bs) = slice (k + off) w bs.
Proof. unfold slice. rewrite skipn_add. do 2 f_equal. lia. Qed.

(** A correctly sent entry lies inside the bytes. *)
Lemma sent_fits {T} bs (v : T) e : sent bs v e -> (en_width e = 0 \/ en_off e + en_width e <= length bs)%nat.
Proof.
  unfold sent, slice. intros H. apply (f_equal (@length _)) in H. rewrite big_endian_eq, be_encode_length, firstn_length, skipn_length in H. lia.
Qed.
Lemma slice_0 off bs : slice off 0 bs = [].
Proof. reflexivity. Qed.

Lemma sent_place {S T} ren k (g : S -> T) es pre b post (v : S) : length pre = k ->
  Forall (sent b (g v)) es -> Forall (sent (pre ++ b ++ post) v) (place ren k g es).
Proof.
  intros L F. apply Forall_forall. intros e He. apply in_map_iff in He. destruct He as [e0 [<- He]].
  rewrite Forall_forall in F. specialize (F _ He). assert (W := sent_fits _ _ _ F). unfold sent in *. cbn [en_off en_width en_put].
  rewrite slice_app_r by exact L. destruct W as [W|W].
  - rewrite W in *. reflexivity.
  - rewrite slice_app_l by exact W. exact F.
Qed.
Lemma sent_part {S T} p k (g : S -> T) es pre b post (v : S) : length pre = k ->
  Forall (sent b (g v)) es -> Forall (sent (pre ++ b ++ post) v) (part p k g es).
Proof. apply sent_place. Qed.
Lemma received_place {S T} ren k (g : S -> T) es bs (v : S) :
  Forall (received (skipn k bs) (g v)) es -> Forall (received bs v) (place ren k g es).
Proof.
  intros F. apply Forall_forall. intros e He. apply in_map_iff in He. destruct He as [e0 [<- He]].
  rewrite Forall_forall in F. specialize (F _ He). unfold received in *. cbn [en_off en_width en_get en_norm].
  rewrite F, slice_skip. reflexivity.
Qed.

Lemma received_part {S T} p k (g : S -> T) es bs (v : S) :
  Forall (received (skipn k bs) (g v)) es -> Forall (received bs v) (part p k g es).
Proof. apply received_place. Qed.

Create HintDb wr.
#[export] Hint Resolve lost_wser lost_wdes lost_array_wser lost_array_wdes array_wser array_wdes : wr.
Lemma wire_ser {T} n es (w : T -> bytes) r : wire n es w r -> wser n es w.
Proof. intros [H _]; exact H. Qed.
Lemma wire_des {T} n es (w : T -> bytes) r : wire n es w r -> wdes n es r.
Proof. intros [_ H]; exact H. Qed.

(** ** Tactics for records *)

(** Sending: [Forall (sent (pre ++ w1 ++ w2 ++ ...) v) (part .. ++ part .. ++ ...)]. *)
Lemma sent_step {S T} p k (g : S -> T) es n w (v : S) (pre post : bytes) L :
  wser n es w -> length pre = k ->
  Forall (sent ((pre ++ w (g v)) ++ post) v) L ->
  Forall (sent (pre ++ w (g v) ++ post) v) (part p k g es ++ L).
Proof.
  intros W Hk F. apply Forall_app. split.
  - apply sent_part; [exact Hk | apply W].
  - now rewrite app_assoc.
Qed.
Lemma sent_last {S T} p k (g : S -> T) es n w (v : S) (pre : bytes) :
  wser n es w -> length pre = k -> Forall (sent (pre ++ w (g v)) v) (part p k g es).
Proof.
  intros W Hk. rewrite <- (app_nil_r (w (g v))). apply sent_part; [exact Hk | apply W].
Qed.
Lemma received_step {S T} p k (g : S -> T) es bs (v : S) L :
  Forall (received (skipn k bs) (g v)) es -> Forall (received bs v) L -> Forall (received bs v) (part p k g es ++ L).
Proof. intros F G. apply Forall_app. split; [apply received_part, F | exact G]. Qed.

Ltac wfind_ser :=
  lazymatch goal with
  | |- wser _ (uint_map ?k) _ => exact (wire_ser _ _ _ _ (uint_wire k))
  | |- wser _ (enum_map ?k ?e) _ => exact (wire_ser _ _ _ _ (enum_wire k e eq_refl))
  | |- wser _ (lost_map ?k) _ => exact (lost_wser k)
  | |- wser _ (array_map ?k) _ => exact (array_wser k)
  | |- wser _ (lost_array_map ?k) _ => exact (lost_array_wser k)
  | |- _ => eapply wire_ser; solve [eauto with wr nocore]
  end.
Ltac wfind_des :=
  lazymatch goal with
  | |- wdes _ (uint_map ?k) _ => exact (wire_des _ _ _ _ (uint_wire k))
  | |- wdes _ (enum_map ?k ?e) _ => exact (wire_des _ _ _ _ (enum_wire k e eq_refl))
  | |- wdes _ (lost_map ?k) _ => exact (lost_wdes k)
  | |- wdes _ (array_map ?k) _ => exact (array_wdes k)
  | |- wdes _ (lost_array_map ?k) _ => exact (lost_array_wdes k)
  | |- _ => eapply wire_des; solve [eauto with wr nocore]
  end.
Lemma zero_bytes_length n : length (zero_bytes n) = n.
Proof. apply repeat_length. Qed.
Ltac len_pre := rewrite ?app_length; repeat first [fx_len1 | rewrite zero_bytes_length]; reflexivity.
Ltac ser_steps :=
  lazymatch goal with
  | |- Forall (sent _ _) (part _ _ _ ?M ++ _) =>
      let W := fresh "W" in eassert (W : wser _ M _) by wfind_ser;
      refine (sent_step _ _ _ _ _ _ _ _ _ _ W _ _); [clear W; len_pre | clear W; ser_steps]
  | |- Forall (sent _ _) (part _ _ _ ?M) =>
      let W := fresh "W" in eassert (W : wser _ M _) by wfind_ser;
      refine (sent_last _ _ _ _ _ _ _ _ W _); clear W; len_pre
  end.
Ltac wser_tac parts ser :=
  let v := fresh "v" in intros v; split; [unfold ser; fx_expose; len_pre|];
  rewrite parts; unfold ser; fx_expose;
  match goal with |- Forall (sent ?b _) _ => change b with ([] ++ b) end; ser_steps.

(** Where a reader stops. *)
Lemma exact_inv {A} (r : reader A) n bs a rest : exact_reader r n -> r bs = Ok (a, rest) -> rest = skipn n bs /\ (n <= length bs)%nat.
Proof.
  intros [S E] H. destruct (Nat.ltb_spec (length bs) n) as [L|L]; [rewrite S in H by exact L; discriminate|].
  destruct (E (firstn n bs)) as [v Hv]; [rewrite firstn_length; lia|].
  specialize (Hv (skipn n bs)). rewrite firstn_skipn, H in Hv. injection Hv as _ ->. split; [reflexivity | exact L].
Qed.
Ltac des_rest :=
  match goal with
  | E : ?r ?b = Ok (?x, ?b') |- _ => is_var b';
      let X := fresh "X" in eassert (X : exact_reader r _) by fx_exact1;
      let R := fresh "R" in let L := fresh "L" in
      destruct (exact_inv _ _ _ _ _ X E) as [R L]; clear X; subst b'
  end.
Ltac des_steps :=
  lazymatch goal with
  | |- Forall (received _ _) (part _ _ _ _ ++ _) => apply received_step; [des_one | des_steps]
  | |- Forall (received _ _) (part _ _ _ _) => apply received_part; des_one
  end
with des_one :=
  lazymatch goal with
  | |- Forall (received ?b ?y) ?M =>
      match goal with
      | E : ?r ?c = Ok (?x, _) |- _ =>
          let W := fresh "W" in eassert (W : wdes _ M r) by wfind_des;
          exact (proj2 (proj2 (W _ _ _ E)))
      end
  end.

Ltac fx_expose_in H :=
  unfold as_u8, as_u16, as_u32, as_u64, put_u8, put_u16, put_u32, put_u64, put_i8, put_i16, put_i32, put_i64, put_f32, put_f64,
             get_u8, get_u16, get_u32, get_u64, get_i8, get_i16, get_i32, get_i64, get_f32, get_f64 in H.
Ltac wdes_tac parts des :=
  let bs := fresh "bs" in let v := fresh "v" in let rest := fresh "rest" in let H := fresh "H" in
  let X := fresh "X" in let R := fresh "R" in let L := fresh "L" in
  intros bs v rest H;
  eassert (X : exact_reader des _) by first [solve [fx_exact1] | unfold des; fx_expose; fx_exact1];
  destruct (exact_inv _ _ _ _ _ X H) as [R L]; clear X;
  split; [exact R|]; split; [exact L|]; clear R L;
  rewrite parts; unfold des in H; fx_expose_in H; read_inv H; injection H as <- _;
  repeat des_rest; rewrite ?skipn_add in *; cbn [Nat.add] in *;
  change bs with (skipn 0 bs) in *; des_steps.
Ltac wire_tac parts ser des := split; [wser_tac parts ser | wdes_tac parts des].

(** ** Field codecs and PDU bodies *)
Definition wcodec {T} (n : nat) (M : list (entry T)) (c : codec T) : Prop :=
  (forall v b, c_ser c v = Ok b -> length b = n /\ Forall (sent b v) M) /\ wdes n M (c_des c).
Definition wprefix {T} (M : list (entry T)) (c : codec T) : Prop :=
  (forall v b, c_ser c v = Ok b -> Forall (sent b v) M) /\
  (forall bs v rest, c_des c bs = Ok (v, rest) -> Forall (received bs v) M).
Definition wbody (fs : list field) (M : list (entry (values fs))) : Prop :=
  (forall v b, body_serialize fs v = Ok b -> Forall (sent b v) M) /\
  (forall env bs v rest, body_deserialize env fs bs = Ok (v, rest) -> Forall (received bs v) M).

Lemma wcodec_of_wire {T} n M (w : T -> bytes) r l : wire n M w r -> wcodec n M (mk_codec (fun v => Ok (w v)) r l).
Proof. intros [S D]. split; [|exact D]. cbn [c_ser]. intros v b [= <-]. apply S. Qed.

Lemma wbody_nil fs : wbody fs [].
Proof. split; intros; constructor. Qed.
Definition vhead {f fs} (v : values (f :: fs)) : f_type f := fst v.
Definition vtail {f fs} (v : values (f :: fs)) : values fs := snd v.
Lemma field_no_attr env f : f_len_attr f = None -> field_deserialize env f = c_des (f_codec f).
Proof. intros A. unfold field_deserialize. now rewrite A. Qed.
Lemma wbody_cons f fs n M L : f_len_attr f = None -> wcodec n M (f_codec f) -> wbody fs L ->
  wbody (f :: fs) (part (f_name f) 0 vhead M ++ place (fun s => s) n vtail L).
Proof.
  intros A [S D] [S' D']. split.
  - intros v b E. cbn [body_serialize] in E. apply wapp_ok in E. destruct E as [x [y [Ex [Ey ->]]]].
    destruct (S _ _ Ex) as [Lx Fx]. apply Forall_app. split.
    + change (x ++ y) with ([] ++ x ++ y). apply sent_part; [reflexivity | exact Fx].
    + rewrite <- (app_nil_r y). apply sent_place; [exact Lx | apply S', Ey].
  - intros env bs v rest E. cbn [body_deserialize] in E. rewrite field_no_attr in E by exact A.
    apply bind_inv in E. destruct E as [x [bs' [Ex E]]]. apply bind_inv in E. destruct E as [xs [bs'' [Es E]]].
    injection E as <- <-. destruct (D _ _ _ Ex) as [-> [Ln F]]. apply Forall_app. split.
    + apply received_part. exact F.
    + apply received_place. eapply D', Es.
Qed.
Lemma wbody_prefix f fs M : f_len_attr f = None -> wprefix M (f_codec f) -> wbody (f :: fs) (part (f_name f) 0 vhead M).
Proof.
  intros A [S D]. split.
  - intros v b E. cbn [body_serialize] in E. apply wapp_ok in E. destruct E as [x [y [Ex [Ey ->]]]].
    change (x ++ y) with ([] ++ x ++ y). apply sent_part; [reflexivity | exact (S _ _ Ex)].
  - intros env bs v rest E. cbn [body_deserialize] in E. rewrite field_no_attr in E by exact A.
    apply bind_inv in E. destruct E as [x [bs' [Ex E]]]. apply bind_inv in E. destruct E as [xs [bs'' [Es E]]].
    injection E as <- <-. apply received_part. exact (D _ _ _ Ex).
Qed.

(** Flags. *)
Lemma flags_wdes k (D mask : N) : (forall n, n < 256 ^ N.of_nat k -> (N.ldiff n D =? 0) = (N.land n mask =? n)) ->
  wdes k (@flags_map k mask D) (let* b := get_uint k in ret (flags_or_default (flags_from_bits D b))).
Proof.
  intros HM bs v rest H. apply bind_inv in H. destruct H as [x [bs' [Ex H]]]. unfold ret in H. injection H as <- <-.
  apply get_uint_inv in Ex. destruct Ex as [-> [L V]]. split; [reflexivity|]. split; [exact L|]. constructor; [|constructor].
  unfold received, flg. cbn [en_get en_norm en_off en_width]. rewrite <- V.
  unfold flags_from_bits. rewrite HM by apply uint_lt. destruct (_ =? _); [reflexivity|].
  cbn [flags_or_default flags_empty bits]. rewrite as_uint_val by apply pow256_pos. reflexivity.
Qed.
Lemma ldiff_land n D : (N.ldiff n D =? 0) = (N.land n D =? n).
Proof.
  apply eq_true_iff_eq. rewrite !N.eqb_eq. split; intros H.
  - apply N.bits_inj. intros i. apply (f_equal (fun x => N.testbit x i)) in H. rewrite N.ldiff_spec, N.bits_0 in H. rewrite N.land_spec.
    destruct (N.testbit n i), (N.testbit D i); cbn in *; congruence.
  - apply N.bits_inj. intros i. apply (f_equal (fun x => N.testbit x i)) in H. rewrite N.land_spec in H. rewrite N.ldiff_spec, N.bits_0.
    destruct (N.testbit n i), (N.testbit D i); cbn in *; congruence.
Qed.
Lemma flags_wire k D : wire k (@flags_map k D D) (fun v => put_uint (bits v)) (let* b := get_uint k in ret (flags_or_default (flags_from_bits D b))).
Proof.
  split; [|apply flags_wdes; intros; apply ldiff_land].
  intros v. split; [apply put_uint_length|]. constructor; [|constructor]. apply slice_uint.
Qed.
Lemma FrozenBehavior_wc : wcodec 1 (flags_map 1 7) FrozenBehavior_codec.
Proof. apply (wcodec_of_wire _ _ _ _ _ (flags_wire 1 FrozenBehavior_declared)). Qed.
Lemma ObjectStateAppearanceGeneral_wc : wcodec 2 (flags_map 2 32001) ObjectStateAppearanceGeneral_codec.
Proof. apply (wcodec_of_wire _ _ _ _ _ (flags_wire 2 ObjectStateAppearanceGeneral_declared)). Qed.
