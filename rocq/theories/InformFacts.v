(** * Datagrams determine PDUs: facts for C56 (proofs only). *)
From Verif Require Import Base BaseFacts EnumModel Enums EnumFacts Fixed Header HeaderFacts PduMacro PduMacroFacts
  DataTypes DataTypesFacts Bitflags BitflagsFacts Pdus PduFields Spec Wire SpecDatum RecordFacts PdusFacts ClassFacts PduProofs
  WireProofs DatumFacts SpecInform.

(** The encoding of a value satisfying [P] is recognised in front of anything. *)
Definition det {T} (P : T -> Prop) (c : codec T) : Prop := forall v w b b' r r', P v -> P w ->
  c_ser c v = Ok b -> c_ser c w = Ok b' -> b ++ r = b' ++ r' -> v = w /\ r = r'.
Definition always {T} (_ : T) : Prop := True.
Definition nonempty_ser {T} (c : codec T) : Prop := forall v b, c_ser c v = Ok b -> b <> [].

Lemma det_weaken {T} (P Q : T -> Prop) c : det P c -> (forall v, Q v -> P v) -> det Q c.
Proof. intros D H v w b b' r r' Hv Hw. apply D; auto. Qed.
Lemma det_reader {T} (P : T -> Prop) c (d : reader T) :
  (forall v b rest, P v -> c_ser c v = Ok b -> d (b ++ rest) = Ok (v, rest)) -> det P c.
Proof.
  intros H v w b b' r r' Hv Hw Sv Sw E. assert (Ev := H v b r Hv Sv). rewrite E in Ev.
  rewrite (H w b' r' Hw Sw) in Ev. now injection Ev as -> ->.
Qed.
Lemma det_fixed {T} n (c : codec T) : fixed_codec n idn c -> det always c.
Proof.
  intros F. apply (det_reader _ _ (c_des c)). intros v b rest _ S. destruct (fc_ser _ _ _ F v) as [b' [S' [_ R]]].
  rewrite S in S'. injection S' as <-. apply R.
Qed.
Lemma nonempty_fixed {T} n nf (c : codec T) : fixed_codec (S n) nf c -> nonempty_ser c.
Proof.
  intros F v b Hb. destruct (fc_ser _ _ _ F v) as [b' [S' [L _]]]. rewrite Hb in S'. injection S' as <-.
  intros ->. discriminate L.
Qed.

(** Lists: of the same length, or at the end. *)
Lemma det_vec {T} (P : T -> Prop) c : det P c -> forall l l' b b' r r', Forall P l -> Forall P l' -> length l = length l' ->
  c_ser (vec_codec c) l = Ok b -> c_ser (vec_codec c) l' = Ok b' -> b ++ r = b' ++ r' -> l = l' /\ r = r'.
Proof.
  intros D. cbn [c_ser vec_codec]. induction l as [|x l IH]; intros [|y l'] b b' r r' F F' L; try discriminate L; cbn [map wconcat].
  - intros [= <-] [= <-]. auto.
  - intros S S'. apply wapp_ok in S as [b1 [b2 [S1 [S2 ->]]]]. apply wapp_ok in S' as [b1' [b2' [S1' [S2' ->]]]].
    rewrite <- !app_assoc. intros E.
    destruct (D _ _ _ _ _ _ (Forall_inv F) (Forall_inv F') S1 S1' E) as [-> E'].
    injection L as L. destruct (IH l' b2 b2' r r' (Forall_inv_tail F) (Forall_inv_tail F')) as [-> ->]; auto.
Qed.
Lemma last_vec {T} (P : T -> Prop) c : det P c -> nonempty_ser c -> forall l l' b, Forall P l -> Forall P l' ->
  c_ser (vec_codec c) l = Ok b -> c_ser (vec_codec c) l' = Ok b -> l = l'.
Proof.
  intros D N. cbn [c_ser vec_codec]. induction l as [|x l IH]; intros [|y l'] b F F'; cbn [map wconcat].
  - reflexivity.
  - intros [= <-] S'. apply wapp_ok in S' as [b1 [b2 [S1 [S2 E]]]]. exfalso. apply (N _ _ S1). now destruct b1.
  - intros S' [= <-]. apply wapp_ok in S' as [b1 [b2 [S1 [S2 E]]]]. exfalso. apply (N _ _ S1). now destruct b1.
  - intros S S'. apply wapp_ok in S as [b1 [b2 [S1 [S2 ->]]]]. apply wapp_ok in S' as [b1' [b2' [S1' [S2' E]]]].
    destruct (D _ _ _ _ _ _ (Forall_inv F) (Forall_inv F') S1 S1' E) as [-> ->]. f_equal. exact (IH _ _ (Forall_inv_tail F) (Forall_inv_tail F') S2 S2').
Qed.
Lemma det_option {T} (P : T -> Prop) c : det P c ->
  det (fun o => match o with Some x => P x | None => False end) (option_codec c).
Proof.
  intros D [v|] [w|] b b' r r'; cbn [c_ser option_codec]; try contradiction.
  intros Hv Hw S S' E. destruct (D _ _ _ _ _ _ Hv Hw S S' E) as [-> ->]. auto.
Qed.

(** ** Bodies *)
(** Two bodies with the same encoding are equal. *)
Definition agree (fs : list field) (v w : values fs) : Prop :=
  forall b, body_serialize fs v = Ok b -> body_serialize fs w = Ok b -> v = w.

Lemma agree_nil v w : agree [] v w.
Proof. intros b _ _. destruct v, w. reflexivity. Qed.
Lemma agree_step f fs (v w : values (f :: fs)) :
  (forall b b' r r', c_ser (f_codec f) (fst v) = Ok b -> c_ser (f_codec f) (fst w) = Ok b' ->
     b ++ r = b' ++ r' -> fst v = fst w /\ r = r') ->
  (fst v = fst w -> agree fs (snd v) (snd w)) -> agree (f :: fs) v w.
Proof.
  intros D A b Sv Sw. cbn [body_serialize] in Sv, Sw.
  apply wapp_ok in Sv as [b1 [b2 [S1 [S2 ->]]]]. apply wapp_ok in Sw as [b1' [b2' [S1' [S2' E]]]].
  destruct (D _ _ _ _ S1 S1' E) as [E1 ->]. assert (E2 := A E1 _ S2 S2').
  rewrite (surjective_pairing v), (surjective_pairing w), E1, E2. reflexivity.
Qed.
Lemma agree_det f fs (P : f_type f -> Prop) (v w : values (f :: fs)) : det P (f_codec f) -> P (fst v) -> P (fst w) ->
  (fst v = fst w -> agree fs (snd v) (snd w)) -> agree (f :: fs) v w.
Proof. intros D H H'. apply agree_step. intros b b' r r' S S' E. eapply D; eauto. Qed.
Lemma agree_fixed f fs n (v w : values (f :: fs)) : fixed_codec n idn (f_codec f) ->
  (fst v = fst w -> agree fs (snd v) (snd w)) -> agree (f :: fs) v w.
Proof. intros F. apply (agree_det _ _ always); [eapply det_fixed, F | exact I | exact I]. Qed.
Lemma agree_vec nm T (P : T -> Prop) (c : codec T) d fs (v w : values (plain nm (vec_codec c) d :: fs)) :
  det P c -> Forall P (fst v) -> Forall P (fst w) -> length (fst v) = length (fst w) ->
  (fst v = fst w -> agree fs (snd v) (snd w)) -> agree (plain nm (vec_codec c) d :: fs) v w.
Proof. intros D F F' L. apply agree_step. intros b b' r r' S S' E. eapply (det_vec P c D); eauto. Qed.
Lemma Forall_always {T} (l : list T) : Forall always l.
Proof. induction l; constructor; [exact I | assumption]. Qed.
Lemma agree_vec_fixed nm T (c : codec T) n d fs (v w : values (plain nm (vec_codec c) d :: fs)) :
  fixed_codec n idn c -> length (fst v) = length (fst w) ->
  (fst v = fst w -> agree fs (snd v) (snd w)) -> agree (plain nm (vec_codec c) d :: fs) v w.
Proof. intros F. apply (agree_vec _ _ always); [eapply det_fixed, F | apply Forall_always | apply Forall_always]. Qed.
(** The last field. *)
Lemma agree_end f (v w : values [f]) :
  (forall b, c_ser (f_codec f) (fst v) = Ok b -> c_ser (f_codec f) (fst w) = Ok b -> fst v = fst w) -> agree [f] v w.
Proof.
  intros D b Sv Sw. cbn [body_serialize] in Sv, Sw.
  apply wapp_ok in Sv as [b1 [b2 [S1 [[= <-] ->]]]]. apply wapp_ok in Sw as [b1' [b2' [S1' [[= <-] E]]]].
  rewrite !app_nil_r in E. subst b1'. destruct v as [v []], w as [w []]. cbn [fst] in D, S1, S1'.
  f_equal. exact (D _ S1 S1').
Qed.
Lemma agree_last nm T (P : T -> Prop) (c : codec T) d (v w : values [plain nm (vec_codec c) d]) :
  det P c -> nonempty_ser c -> Forall P (fst v) -> Forall P (fst w) -> agree [plain nm (vec_codec c) d] v w.
Proof. intros D N F F'. apply agree_end. intros b S S'. exact (last_vec P c D N _ _ b F F' S S'). Qed.
Lemma agree_last_fixed nm T (c : codec T) n d (v w : values [plain nm (vec_codec c) d]) :
  fixed_codec (S n) idn c -> agree [plain nm (vec_codec c) d] v w.
Proof. intros F. apply (agree_last _ _ always); [eapply det_fixed, F | eapply nonempty_fixed, F | apply Forall_always | apply Forall_always]. Qed.

(** ** Classes *)
Lemma serialize_out m c (I : In c (all_pdus m)) p buf p' out : serialize c p buf = Ok (ROk tt, p', buf ++ out) ->
  exists fields, out = PduHeader_serialize (header p') ++ fields /\ body p' = prep_body (cls_fields c) (body p) /\
    body_serialize (cls_fields c) (body p') = Ok fields.
Proof.
  intros S. destruct (serialize_spec m c I _ _ _ _ S) as [fs [E [_ [_ [_ [B Sr]]]]]].
  apply app_inv_head in E. eauto.
Qed.
Lemma class_determined m c (I : In c (all_pdus m)) (P : pdu c -> Prop) :
  (forall p q, P p -> P q -> agree (cls_fields c) (prep_body (cls_fields c) (body p)) (prep_body (cls_fields c) (body q))) ->
  datagram_determines c P.
Proof.
  intros D p q p' q' buf1 buf2 out Hp Hq Sp Sq.
  destruct (serialize_out m c I _ _ _ _ Sp) as [f [E [B S]]]. destruct (serialize_out m c I _ _ _ _ Sq) as [f' [E' [B' S']]].
  assert (K := header_rt (header p') f). rewrite <- E, E', header_rt in K. injection K as K1 K2. subst f'.
  destruct p' as [h v], q' as [h' w]. cbn [header body] in *. subst h' v w. f_equal. exact (D p q Hp Hq _ S S').
Qed.
Lemma plain_determined m c (I : In c (all_pdus m)) (P : pdu c -> Prop) : no_len_attr (cls_fields c) = true ->
  (forall p q, P p -> P q -> agree (cls_fields c) (body p) (body q)) -> datagram_determines c P.
Proof. intros A D. apply (class_determined m c I). intros p q Hp Hq. rewrite !no_len_prep by exact A. apply D; assumption. Qed.
(** Field by field, remembering what is known of the fields already read. *)
Definition bdet (fs : list field) (R : values fs -> values fs -> Prop) : Prop := forall v w, R v w -> agree fs v w.
Lemma bdet_nil R : bdet [] R.
Proof. intros v w _. apply agree_nil. Qed.
Lemma bdet_det f fs (P : f_type f -> Prop) (R : values (f :: fs) -> values (f :: fs) -> Prop) : det P (f_codec f) ->
  (forall x y v w, R (x, v) (y, w) -> P x /\ P y) -> (forall x, bdet fs (fun v w => R (x, v) (x, w))) -> bdet (f :: fs) R.
Proof.
  intros D H B [x v] [y w] K. destruct (H _ _ _ _ K). apply (agree_det f fs P); cbn [fst snd]; [exact D | assumption .. |].
  intros <-. exact (B x v w K).
Qed.
Lemma bdet_fixed f fs n (R : values (f :: fs) -> values (f :: fs) -> Prop) : fixed_codec n idn (f_codec f) ->
  (forall x, bdet fs (fun v w => R (x, v) (x, w))) -> bdet (f :: fs) R.
Proof. intros F. apply (bdet_det f fs always); [eapply det_fixed, F | intros; split; exact I]. Qed.
(** A run of fixed-size fields at once: [glue] puts them in front. *)
Inductive front : forall (fs gs : list field) (H : Type), (H -> values gs -> values fs) -> Prop :=
| fr_nil gs : front gs gs unit (fun _ v => v)
| fr_cons f fs gs H glue n : fixed_codec n idn (f_codec f) -> front fs gs H glue ->
    front (f :: fs) gs (f_type f * H) (fun x v => (fst x, glue (snd x) v)).
Lemma bdet_front fs gs H glue : front fs gs H glue -> forall R : values fs -> values fs -> Prop,
  (forall x, bdet gs (fun v w => R (glue x v) (glue x w))) -> bdet fs R.
Proof.
  induction 1 as [gs|f fs gs H glue n F _ IH]; intros R B.
  - exact (B tt).
  - apply (bdet_fixed f fs n); [exact F|]. intros x. apply IH. intros h. exact (B (x, h)).
Qed.
Lemma bdet_split fs gs H glue (R : values fs -> values fs -> Prop) (R' : values gs -> values gs -> Prop) : front fs gs H glue ->
  (forall x v w, R (glue x v) (glue x w) -> R' v w) -> bdet gs R' -> bdet fs R.
Proof. intros F W B. apply (bdet_front _ _ _ _ F). intros x v w K. apply B, (W x), K. Qed.
(** Nothing is known. *)
Definition unknown {A} (_ _ : A) : Prop := True.
Lemma bdet_unknown_fixed f fs n : fixed_codec n idn (f_codec f) -> bdet fs unknown -> bdet (f :: fs) unknown.
Proof. intros F B. apply (bdet_fixed f fs n); [exact F|]. intros x v w _. apply B. exact I. Qed.
Lemma bdet_unknown_det f fs : det always (f_codec f) -> bdet fs unknown -> bdet (f :: fs) unknown.
Proof. intros F B. apply (bdet_det f fs always); [exact F | intros; split; exact I|]. intros x v w _. apply B. exact I. Qed.
Lemma bdet_unknown_last nm T (c : codec T) n d : fixed_codec (S n) idn c -> bdet [plain nm (vec_codec c) d] unknown.
Proof. intros F v w _. apply (agree_last_fixed nm T c n d v w F). Qed.
(** Lists. *)
Lemma bdet_vec nm T (P : T -> Prop) (c : codec T) d fs (R : values (plain nm (vec_codec c) d :: fs) -> values (plain nm (vec_codec c) d :: fs) -> Prop) :
  det P c -> (forall x y v w, R (x, v) (y, w) -> Forall P x /\ Forall P y /\ length x = length y) ->
  (forall x, bdet fs (fun v w => R (x, v) (x, w))) -> bdet (plain nm (vec_codec c) d :: fs) R.
Proof.
  intros D H B [x v] [y w] K. destruct (H _ _ _ _ K) as [F [F' L]]. apply (agree_vec nm T P c); cbn [fst snd]; [exact D | assumption .. |].
  intros <-. exact (B x v w K).
Qed.
Lemma bdet_vec_fixed nm T (c : codec T) n d fs (R : values (plain nm (vec_codec c) d :: fs) -> values (plain nm (vec_codec c) d :: fs) -> Prop) :
  fixed_codec n idn c -> (forall x y v w, R (x, v) (y, w) -> length x = length y) ->
  (forall x, bdet fs (fun v w => R (x, v) (x, w))) -> bdet (plain nm (vec_codec c) d :: fs) R.
Proof.
  intros F H. apply (bdet_vec nm T always); [eapply det_fixed, F|]. intros x y v w K.
  split; [apply Forall_always|]. split; [apply Forall_always | exact (H _ _ _ _ K)].
Qed.
Lemma bdet_last nm T (P : T -> Prop) (c : codec T) d (R : values [plain nm (vec_codec c) d] -> values [plain nm (vec_codec c) d] -> Prop) :
  det P c -> nonempty_ser c -> (forall x y v w, R (x, v) (y, w) -> Forall P x /\ Forall P y) -> bdet [plain nm (vec_codec c) d] R.
Proof.
  intros D N H [x v] [y w] K. destruct (H _ _ _ _ K) as [F F']. apply (agree_last nm T P c); assumption.
Qed.
Lemma bdet_last_fixed nm T (c : codec T) n d (R : values [plain nm (vec_codec c) d] -> values [plain nm (vec_codec c) d] -> Prop) :
  fixed_codec (S n) idn c -> bdet [plain nm (vec_codec c) d] R.
Proof. intros F v w _. apply (agree_last_fixed nm T c n d v w F). Qed.
Lemma bdet_plain m c (I : In c (all_pdus m)) (P : pdu c -> Prop) : no_len_attr (cls_fields c) = true ->
  (forall h h', bdet (cls_fields c) (fun v w => P (mk_pdu h v) /\ P (mk_pdu h' w))) -> datagram_determines c P.
Proof.
  intros A D. apply (plain_determined m c I); [exact A|]. intros [h v] [h' w] Hp Hq. apply (D h h'). split; assumption.
Qed.

(** Usual ends of a body. *)
Definition same_length {A} (l l' : list A) : Prop := length l = length l'.
Lemma end_lists2 n1 n2 T1 T2 (c1 : codec T1) (c2 : codec T2) d1 d2 k1 k2 : fixed_codec k1 idn c1 -> fixed_codec (S k2) idn c2 ->
  bdet [plain n1 (vec_codec c1) d1; plain n2 (vec_codec c2) d2] (fun v w => same_length (fst v) (fst w)).
Proof.
  intros F1 F2. eapply bdet_vec_fixed; [exact F1 | intros x y v w K; exact K|]. intros x. eapply bdet_last_fixed, F2.
Qed.
Lemma end_lists3 n1 n2 n3 T1 T2 T3 (c1 : codec T1) (c2 : codec T2) (c3 : codec T3) d1 d2 d3 k1 k2 k3 :
  fixed_codec k1 idn c1 -> fixed_codec k2 idn c2 -> fixed_codec (S k3) idn c3 ->
  bdet [plain n1 (vec_codec c1) d1; plain n2 (vec_codec c2) d2; plain n3 (vec_codec c3) d3]
    (fun v w => same_length (fst v) (fst w) /\ same_length (fst (snd v)) (fst (snd w))).
Proof.
  intros F1 F2 F3. eapply bdet_vec_fixed; [exact F1 | intros x y v w K; exact (proj1 K)|]. intros x.
  eapply bdet_vec_fixed; [exact F2 | intros y z v w K; exact (proj2 K)|]. intros y. eapply bdet_last_fixed, F3.
Qed.
Lemma end_last nm T (P : T -> Prop) (c : codec T) d : det P c -> nonempty_ser c ->
  bdet [plain nm (vec_codec c) d] (fun v w => Forall P (fst v) /\ Forall P (fst w)).
Proof. intros D N. apply (bdet_last nm T P c d _ D N). intros x y v w K. exact K. Qed.
Lemma end_lists_last n1 n2 T1 T2 (P : T2 -> Prop) (c1 : codec T1) (c2 : codec T2) d1 d2 k1 : fixed_codec k1 idn c1 -> det P c2 -> nonempty_ser c2 ->
  bdet [plain n1 (vec_codec c1) d1; plain n2 (vec_codec c2) d2]
    (fun v w => same_length (fst v) (fst w) /\ Forall P (fst (snd v)) /\ Forall P (fst (snd w))).
Proof.
  intros F1 D N. eapply bdet_vec_fixed; [exact F1 | intros x y v w K; exact (proj1 K)|]. intros x.
  apply (bdet_last _ _ P); [exact D | exact N|]. intros y z v w K. exact (proj2 K).
Qed.
Lemma end_det nm T (P : T -> Prop) (c : codec T) d : det P c -> bdet [plain nm c d] (fun v w => P (fst v) /\ P (fst w)).
Proof. intros D. apply (bdet_det (plain nm c d) [] P); [exact D | intros x y v w K; exact K|]. intros x. apply bdet_nil. Qed.

(** ** Peeling encodings off the front *)
Lemma peel {A} (x y r r' : list A) : length x = length y -> x ++ r = y ++ r' -> x = y /\ r = r'.
Proof.
  revert y. induction x as [|a x IH]; intros [|b y] L E; try discriminate L; [auto|].
  injection E as -> E. injection L as L. destruct (IH y L E) as [-> ->]. auto.
Qed.
Lemma peel_uint k (a b : uint k) r r' : put_uint a ++ r = put_uint b ++ r' -> a = b /\ r = r'.
Proof.
  intros E. assert (K := get_put_uint k a r). rewrite E in K.
  assert (K' := eq_trans (eq_sym (get_put_uint k b r')) K). now injection K' as -> ->.
Qed.
Lemma peel_uints k (l l' : list (uint k)) : forall r r', length l = length l' ->
  List.concat (map put_uint l) ++ r = List.concat (map put_uint l') ++ r' -> l = l' /\ r = r'.
Proof.
  revert l'. induction l as [|a l IH]; intros [|b l'] r r' L; try discriminate L; cbn [map List.concat]; [auto|].
  rewrite <- !app_assoc. intros E. apply peel_uint in E as [-> E]. injection L as L. destruct (IH _ _ _ L E) as [-> ->]. auto.
Qed.
Lemma peel_enum k e (x y : enum e) r r' : (e_bytes e <= k)%nat ->
  put_uint (as_uint k (code x)) ++ r = put_uint (as_uint k (code y)) ++ r' -> x = y /\ r = r'.
Proof.
  intros K E. apply peel_uint in E as [E ->]. split; [|reflexivity]. apply enum_eq.
  assert (Q : 256 ^ N.of_nat (e_bytes e) <= 256 ^ N.of_nat k) by (apply N.pow_le_mono_r; lia).
  assert (Fx := enum_fits e x). assert (Fy := enum_fits e y).
  apply (f_equal uval) in E. rewrite !as_uint_val in E by lia. exact E.
Qed.
Lemma counts_len k A B (n : uint k) (l : list A) (l' : list B) : counts n l -> counts n l' -> length l = length l'.
Proof. unfold counts. intros H H'. apply Nat2N.inj. now rewrite <- H, <- H'. Qed.
Lemma aligns_eq a u p p' : aligns a u p -> aligns a u p' -> p = p'.
Proof.
  intros [L M] [L' M']. apply Nat.mod_divide in M as [q M]; [|lia]. apply Nat.mod_divide in M' as [q' M']; [|lia].
  assert (q = q') by nia. subst q'. lia.
Qed.

(** ** Record types *)
Lemma FrozenBehavior_det : det always FrozenBehavior_codec.
Proof.
  intros [v] [w] b b' r r' _ _ [= <-] [= <-] E. apply peel_uint in E as [E ->]. cbn in E. now rewrite E.
Qed.
Lemma ObjectStateAppearanceGeneral_det : det always ObjectStateAppearanceGeneral_codec.
Proof.
  intros [v] [w] b b' r r' _ _ [= <-] [= <-] E. apply peel_uint in E as [E ->]. cbn in E. now rewrite E.
Qed.
Lemma SimulationIdentifier_det : det no_reference SimulationIdentifier_codec.
Proof.
  apply (det_reader _ _ (c_des SimulationIdentifier_codec)). intros v b rest H S.
  destruct (fc_ser _ _ _ SimulationIdentifier_fc v) as [b' [S' [_ R]]]. rewrite S in S'. injection S' as <-.
  rewrite R. do 2 f_equal. destruct v as [a n]. unfold drop_reference. cbn in *. f_equal. apply uint_eq. symmetry. exact H.
Qed.
Lemma DeadReckoningParameters_det : det (fun v => elems (DeadReckoningParameters_dead_reckoning_other_parameters v) = repeat (B 0) 15)
  DeadReckoningParameters_codec.
Proof.
  apply (det_reader _ _ (c_des DeadReckoningParameters_codec)). intros v b rest H S.
  destruct (fc_ser _ _ _ DeadReckoningParameters_fc v) as [b' [S' [_ R]]]. rewrite S in S'. injection S' as <-.
  rewrite R. do 2 f_equal. destruct v as [a o l w]. unfold zero_other_parameters. cbn in *. f_equal.
  apply array_eq. rewrite H. reflexivity.
Qed.
Lemma EntityMarking_det : det (fun v => length (EntityMarking_entity_marking_string v) = 11%nat) EntityMarking_codec.
Proof.
  intros [x s] [y t] b b' r r' L L' [= <-] [= <-] E. cbn in L, L'. unfold EntityMarking_serialize in E.
  cbn [EntityMarking_entity_marking_character_set EntityMarking_entity_marking_string] in E. rewrite <- !app_assoc in E.
  apply (peel_enum 1) in E as [-> E]; [|cbn; lia]. apply peel in E as [-> ->]; [auto | congruence].
Qed.
Lemma VariableDatumRecord_det : det datum_exact VariableDatumRecord_codec.
Proof.
  intros [i l v] [j k w] b b' r r' H H' [= <-] [= <-] E. rewrite !datum_ser in E. unfold datum_exact in H, H'.
  cbn [VariableDatumRecord_datum_id VariableDatumRecord_length_bits VariableDatumRecord_value] in *.
  rewrite !WireProofs.big_endian_eq in E. rewrite <- !app_assoc in E.
  change (put_uint i ++ put_uint l ++ v ++ repeat (B 0) (N.to_nat (datum_padding (uval l))) ++ r =
          put_uint j ++ put_uint k ++ w ++ repeat (B 0) (N.to_nat (datum_padding (uval k))) ++ r') in E.
  apply peel_uint in E as [-> E]. apply peel_uint in E as [-> E].
  apply peel in E as [-> E]; [|apply Nat2N.inj; exact (eq_trans H (eq_sym H'))]. apply app_inv_head in E. auto.
Qed.
Lemma AttributeRecordSet_det : det counted_AttributeRecordSet AttributeRecordSet_codec.
Proof. apply (det_reader _ _ AttributeRecordSet_deserialize). intros v b rest H [= <-]. apply AttributeRecordSet_rt, H. Qed.
Lemma EmissionSystemData_det : det counted_EmissionSystemData ElectromagneticEmissionSystemData_codec.
Proof. apply (det_reader _ _ ElectromagneticEmissionSystemData_deserialize). intros v b rest H [= <-]. apply EmissionSystemData_rt, H. Qed.
Lemma StandardVariableSpecification_det : det counted_StandardVariableSpecification StandardVariableSpecification_codec.
Proof.
  apply (det_reader _ _ StandardVariableSpecification_deserialize). intros v b rest H S.
  change (StandardVariableSpecification_serialize_field v = Ok b) in S. rewrite StandardVariableSpecification_ser_field in S.
  injection S as <-. apply StandardVariableSpecification_rt, H.
Qed.
Lemma RecordSpecification_det m : det (specification_exact m) (RecordSpecification_codec m).
Proof.
  apply (det_reader _ _ (RecordSpecification_deserialize m)). intros v b rest H S.
  change (RecordSpecification_serialize m v = Ok b) in S. rewrite specification_ser_exact in S by apply H.
  injection S as <-. apply specification_rt_exact, H.
Qed.
Lemma VariableTransmitterParameters_det : det transmitter_parameter_counted VariableTransmitterParameters_codec.
Proof.
  intros [t n l] [u k l'] b b' r r' H H' [= <-] [= <-] E. unfold transmitter_parameter_counted in H, H'.
  unfold VariableTransmitterParameters_serialize in E.
  cbn [VariableTransmitterParameters_record_type VariableTransmitterParameters_record_length VariableTransmitterParameters_record_specific_fields] in *.
  rewrite <- !app_assoc in E. apply (peel_enum 4) in E as [-> E]; [|cbn; lia]. apply peel_uint in E as [-> E].
  apply peel_uints in E as [-> ->]; [auto | eapply counts_len; eassumption].
Qed.
Lemma GridAxisDescriptor_det : det axis_honest GridAxisDescriptor_codec.
Proof.
  intros [a1 a2 a3 a4 ty d] [b1 b2 b3 b4 ty' d'] b b' r r' H H' [= <-] [= <-] E. unfold axis_honest in H, H'.
  unfold GridAxisDescriptor_serialize in E.
  cbn [GridAxisDescriptor_domain_initial GridAxisDescriptor_domain_final GridAxisDescriptor_domain_points
       GridAxisDescriptor_interleaf_factor GridAxisDescriptor_axis_type GridAxisDescriptor_data] in *.
  rewrite <- !app_assoc in E. do 4 apply peel_uint in E as [-> E]. apply (peel_enum 1) in E as [-> E]; [|cbn; lia].
  destruct d as [n i|n i s o xs pad], d' as [n' i'|n' i' s' o' xs' pad'];
    [| exfalso; apply (proj1 H'), H | exfalso; apply (proj1 H), H' |].
  - rewrite <- !app_assoc in E. do 2 apply peel_uint in E as [-> E]. auto.
  - destruct H as [_ [C A]], H' as [_ [C' A']]. rewrite <- !app_assoc in E. do 4 apply peel_uint in E as [-> E].
    assert (L := counts_len _ _ _ _ _ _ C C'). apply peel_uints in E as [-> E]; [|exact L].
    apply peel_uints in E as [-> E]; [|exact (aligns_eq _ _ _ _ A A')]. auto.
Qed.
Lemma GridDataRecord_det : det grid_data_honest GridDataRecord_codec.
Proof.
  intros [t rp d] [t' rp' d'] b b' r r' H H' [= <-] [= <-] E. unfold grid_data_honest in H, H'.
  unfold GridDataRecord_serialize in E.
  cbn [GridDataRecord_sample_type GridDataRecord_data_representation GridDataRecord_data] in *.
  rewrite <- !app_assoc in E. apply (peel_enum 2) in E as [-> E]; [|cbn; lia]. apply (peel_enum 2) in E as [-> E]; [|cbn; lia].
  destruct d as [n l p|s o n l p|n p l], d' as [n' l' p'|s' o' n' l' p'|n' p' l'];
    destruct H as [Hr H], H' as [Hr' H']; try (exfalso; rewrite Hr in Hr'; discriminate Hr').
  - destruct H as [C A], H' as [C' A']. rewrite <- !app_assoc in E. apply peel_uint in E as [-> E].
    assert (L := counts_len _ _ _ _ _ _ C C'). apply peel_uints in E as [-> E]; [|exact L].
    apply peel_uints in E as [-> E]; [|exact (aligns_eq _ _ _ _ A A')]. auto.
  - destruct H as [C A], H' as [C' A']. rewrite <- !app_assoc in E. do 3 apply peel_uint in E as [-> E].
    assert (L := counts_len _ _ _ _ _ _ C C'). apply peel_uints in E as [-> E]; [|exact L].
    apply peel_uints in E as [-> E]; [|exact (aligns_eq _ _ _ _ A A')]. auto.
  - rewrite <- !app_assoc in E. do 2 apply peel_uint in E as [-> E].
    apply peel_uints in E as [-> E]; [|exact (counts_len _ _ _ _ _ _ H H')]. auto.
Qed.

(** No encoding is empty. *)
Lemma nonempty_len {T} (c : codec T) (w : T -> bytes) : (forall v, c_ser c v = Ok (w v)) -> (forall v, (0 < length (w v))%nat) -> nonempty_ser c.
Proof. intros H L v b E Z. rewrite H in E. injection E as <-. specialize (L v). rewrite Z in L. inversion L. Qed.
Lemma datum_nonempty : nonempty_ser VariableDatumRecord_codec.
Proof.
  eapply nonempty_len; [reflexivity|]. intros v. cbn beta. unfold VariableDatumRecord_serialize. cbv zeta.
  rewrite app_length. unfold put_u32. rewrite put_uint_length. lia.
Qed.
Lemma same_counts k A B (n n' : uint k) (l : list A) (l' : list B) : counts n l -> counts n' l' -> n = n' -> length l = length l'.
Proof. intros H H' E. subst n'. exact (counts_len _ _ _ _ _ _ H H'). Qed.

Lemma emission_nonempty : nonempty_ser ElectromagneticEmissionSystemData_codec.
Proof.
  eapply nonempty_len; [reflexivity|]. intros v. cbn beta. unfold ElectromagneticEmissionSystemData_serialize.
  rewrite app_length. unfold put_u8. rewrite put_uint_length. lia.
Qed.
Lemma attribute_nonempty : nonempty_ser AttributeRecordSet_codec.
Proof.
  eapply nonempty_len; [reflexivity|]. intros v. cbn beta. unfold AttributeRecordSet_serialize.
  rewrite !app_length. unfold put_u16. rewrite put_uint_length. lia.
Qed.
Lemma transmitter_nonempty : nonempty_ser VariableTransmitterParameters_codec.
Proof.
  eapply nonempty_len; [reflexivity|]. intros v. cbn beta. unfold VariableTransmitterParameters_serialize.
  rewrite app_length. unfold put_u32. rewrite put_uint_length. lia.
Qed.
Lemma grid_data_nonempty : nonempty_ser GridDataRecord_codec.
Proof.
  eapply nonempty_len; [reflexivity|]. intros v. cbn beta. unfold GridDataRecord_serialize.
  rewrite app_length. unfold put_u16. rewrite put_uint_length. lia.
Qed.

(** ** Ends of particular classes *)
Lemma end_entity_state n1 n2 n3 n4 d1 d2 d3 d4 :
  bdet [plain n1 DeadReckoningParameters_codec d1; plain n2 EntityMarking_codec d2; plain n3 EntityCapabilities_codec d3;
        plain n4 (vec_codec VariableParameter_codec) d4]
    (fun v w => (elems (DeadReckoningParameters_dead_reckoning_other_parameters (fst v)) = repeat (B 0) 15 /\
                 elems (DeadReckoningParameters_dead_reckoning_other_parameters (fst w)) = repeat (B 0) 15) /\
                (length (EntityMarking_entity_marking_string (fst (snd v))) = 11%nat /\
                 length (EntityMarking_entity_marking_string (fst (snd w))) = 11%nat)).
Proof.
  eapply bdet_det; [exact DeadReckoningParameters_det | intros x y v w K; exact (proj1 K)|]. intros x.
  eapply bdet_det; [exact EntityMarking_det | intros y z v w K; exact (proj2 K)|]. intros y.
  eapply bdet_fixed; [exact EntityCapabilities_fc|]. intros z. eapply bdet_last_fixed. exact VariableParameter_fc.
Qed.
(** A relation for the first field and one for the rest. *)
Definition andr {f : field} {fs} (r : f_type f -> f_type f -> Prop) (R : values fs -> values fs -> Prop)
  (v w : values (f :: fs)) : Prop := r (fst v) (fst w) /\ R (snd v) (snd w).
Lemma bdet_andr f fs (r : f_type f -> f_type f -> Prop) (R : values fs -> values fs -> Prop) :
  (forall x y b b' s s', r x y -> c_ser (f_codec f) x = Ok b -> c_ser (f_codec f) y = Ok b' -> b ++ s = b' ++ s' -> x = y /\ s = s') ->
  bdet fs R -> bdet (f :: fs) (andr r R).
Proof.
  intros D B [x v] [y w] [K K']. apply agree_step; [intros b b' s s'; apply D, K|]. intros _. apply B, K'.
Qed.
Lemma and_list nm T (c : codec T) n d fs (R : values fs -> values fs -> Prop) : fixed_codec n idn c -> bdet fs R ->
  bdet (plain nm (vec_codec c) d :: fs) (@andr (plain nm (vec_codec c) d) fs same_length R).
Proof.
  intros F. apply bdet_andr. intros x y b b' s s' L. apply (det_vec always c (det_fixed n c F)); [apply Forall_always | apply Forall_always | exact L].
Qed.
Lemma and_fixed f fs n (R : values fs -> values fs -> Prop) : fixed_codec n idn (f_codec f) -> bdet fs R ->
  bdet (f :: fs) (andr unknown R).
Proof. intros F. apply bdet_andr. intros x y b b' s s' _. apply (det_fixed n _ F); exact I. Qed.
Definition both {A} (P : A -> Prop) (x y : A) : Prop := P x /\ P y.
Lemma end_gridded n1 n2 d1 d2 : bdet [plain n1 (vec_codec GridAxisDescriptor_codec) d1; plain n2 (vec_codec GridDataRecord_codec) d2]
  (fun v w => (Forall axis_honest (fst v) /\ Forall axis_honest (fst w) /\ same_length (fst v) (fst w)) /\
     Forall grid_data_honest (fst (snd v)) /\ Forall grid_data_honest (fst (snd w))).
Proof.
  apply (bdet_vec _ _ axis_honest); [exact GridAxisDescriptor_det | intros ? ? ? ? K; exact (proj1 K)|]. intros ?.
  apply (bdet_last _ _ grid_data_honest); [exact GridDataRecord_det | exact grid_data_nonempty|].
  intros ? ? ? ? K. exact (proj2 K).
Qed.

(** Minefield data: one entry per mine in every list. *)
Definition filled {A} (l l' : list (option A)) : Prop :=
  Forall (fun x => x <> None) l /\ Forall (fun x => x <> None) l' /\ length l = length l'.
Lemma det_some {T} n (c : codec T) : fixed_codec n idn c -> det (fun o : option T => o <> None) (option_codec c).
Proof.
  intros F. apply (det_weaken (fun o => match o with Some x => always x | None => False end)); [apply det_option; eapply det_fixed, F|].
  intros [x|] H; [exact I | now apply H].
Qed.
Lemma and_filled nm T (c : codec T) n d fs (R : values fs -> values fs -> Prop) : fixed_codec n idn c -> bdet fs R ->
  bdet (plain nm (vec_codec (option_codec c)) d :: fs) (@andr (plain nm (vec_codec (option_codec c)) d) fs filled R).
Proof.
  intros F. apply bdet_andr. intros x y b b' s s' [A [B L]]. exact (det_vec _ _ (det_some n c F) x y b b' s s' A B L).
Qed.
Lemma vertices_det {T} n (c : codec T) : fixed_codec n idn c -> forall (ns : list (option u8)) l l' b b' r r',
  Forall2 vertices_counted ns l -> Forall2 vertices_counted ns l' ->
  c_ser (vec_codec (option_codec (vec_codec c))) l = Ok b -> c_ser (vec_codec (option_codec (vec_codec c))) l' = Ok b' ->
  b ++ r = b' ++ r' -> l = l' /\ r = r'.
Proof.
  intros F. assert (D := det_fixed n c F). cbn [c_ser vec_codec].
  induction ns as [|k ns IH]; intros l l' b b' r r' H H'.
  - inversion H. inversion H'. subst. cbn [map wconcat]. intros [= <-] [= <-]. auto.
  - inversion H as [|? x ? t Cx Hx]; subst. inversion H' as [|? y ? u Cy Hy]; subst. cbn [map wconcat].
    intros S S'. apply wapp_ok in S as [b1 [b2 [S1 [S2 ->]]]]. apply wapp_ok in S' as [b1' [b2' [S1' [S2' ->]]]].
    rewrite <- !app_assoc. intros E. destruct k as [k|], x as [x|], y as [y|]; try contradiction.
    cbn [option_codec c_ser] in S1, S1'.
    destruct (det_vec always c D x y b1 b1' _ _ (Forall_always _) (Forall_always _) (counts_len _ _ _ _ _ _ Cx Cy) S1 S1' E) as [-> E'].
    destruct (IH _ _ _ _ _ _ Hx Hy S2 S2' E') as [-> ->]. auto.
Qed.
Lemma end_vertices n1 n2 d1 d2 :
  bdet [plain n1 (vec_codec (option_codec u8_codec)) d1; plain n2 (vec_codec (option_codec (vec_codec EntityCoordinateVector_codec))) d2]
    (fun v w => filled (fst v) (fst w) /\ Forall2 vertices_counted (fst v) (fst (snd v)) /\ Forall2 vertices_counted (fst w) (fst (snd w))).
Proof.
  intros [x [y []]] [x' [y' []]] [[A [B L]] K]. cbn [fst snd] in *.
  apply agree_step; [intros b b' s s'; exact (det_vec _ _ (det_some 1 _ u8_fc) x x' b b' s s' A B L)|]. cbn [fst snd].
  intros <-. apply agree_end. cbn [fst]. intros b S S'.
  destruct (vertices_det _ _ EntityCoordinateVector_fc x y y' b b [] [] (proj1 K) (proj2 K) S S' eq_refl) as [E _]. exact E.
Qed.
Lemma and_det f fs (P : f_type f -> Prop) (R : values fs -> values fs -> Prop) : det P (f_codec f) -> bdet fs R ->
  bdet (f :: fs) (andr (both P) R).
Proof. intros F. apply bdet_andr. intros x y b b' s s' [A B]. apply F; assumption. Qed.

(** Transmitters: modulation parameters and antenna pattern. *)
Definition same_modulation (x y : option ModulationParameters) : Prop :=
  match x, y with
  | None, None => True
  | Some a, Some b => same_length (ModulationParameters_record_specific_fields a) (ModulationParameters_record_specific_fields b)
  | _, _ => False
  end.
Definition same_antenna (x y : option AntennaPattern) : Prop :=
  match x, y with
  | None, None => True
  | Some a, Some b => same_length (AntennaPattern_record_specific_fields a) (AntennaPattern_record_specific_fields b)
  | _, _ => False
  end.
Lemma end_transmitter n1 n2 n3 d1 d2 d3 l r :
  bdet [len_field n1 (option_codec ModulationParameters_codec) d1 l r; plain n2 (option_codec AntennaPattern_codec) d2;
        plain n3 (vec_codec VariableTransmitterParameters_codec) d3]
    (fun v w => same_modulation (fst v) (fst w) /\ same_antenna (fst (snd v)) (fst (snd w)) /\
       Forall transmitter_parameter_counted (fst (snd (snd v))) /\ Forall transmitter_parameter_counted (fst (snd (snd w)))).
Proof.
  intros [x [y [z []]]] [x' [y' [z' []]]] [A [B C]]. cbn [fst snd] in *.
  apply agree_step; cbn [fst snd].
  { intros b b' s s'. cbn [f_codec len_field c_ser option_codec ModulationParameters_codec].
    destruct x as [[x]|], x' as [[x']|]; try contradiction; intros [= <-] [= <-] E; [|auto].
    unfold ModulationParameters_serialize in E. cbn [ModulationParameters_record_specific_fields] in E.
    apply peel_uints in E as [-> ->]; [auto | exact A]. }
  intros _. apply agree_step; cbn [fst snd].
  { intros b b' s s'. cbn [f_codec plain c_ser option_codec AntennaPattern_codec].
    destruct y as [[y]|], y' as [[y']|]; try contradiction; intros [= <-] [= <-] E; [|auto].
    unfold AntennaPattern_serialize in E. cbn [AntennaPattern_record_specific_fields] in E.
    apply peel_uints in E as [-> ->]; [auto | exact B]. }
  intros _. apply (agree_last _ _ transmitter_parameter_counted); [exact VariableTransmitterParameters_det | exact transmitter_nonempty | exact (proj1 C) | exact (proj2 C)].
Qed.
