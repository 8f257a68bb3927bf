(** * C89: histories of status record setters; generated methods. Vocabulary in [SpecStatus]. *)
From Verif Require Import Base BaseFacts EnumModel Enums EnumFacts Header HeaderFacts HeaderProofs Spec Prop_Header Status SpecStatus.

(** ** One call *)
Lemma mem_str_In x l : mem_string x l = true <-> In x l.
Proof.
  unfold mem_string. rewrite existsb_exists. split; [intros [y [H E]]; apply String.eqb_eq in E; now subst | intros H; exists x; split; [exact H | apply String.eqb_refl]].
Qed.
Lemma bits_of_testbit s lo w i : i < w -> N.testbit (bits_of s lo w) i = bit s (lo + i).
Proof.
  intros H. unfold bits_of, bit, sr_to_u8. rewrite N.mod_pow2_bits_low by exact H.
  rewrite <- N.shiftr_div_pow2, N.shiftr_spec'. f_equal. lia.
Qed.
Lemma set_bits v s : uval v < 4 -> exists s', sr_set_bit4_5 v s = Ok s' /\ only_bits 4 2 s s' /\ bits_of s' 4 2 = uval v /\ sr_bit4_5 s' = v.
Proof.
  intros H.
  assert (C : forallb (fun n => forallb (fun s => match sr_set_bit4_5 (as_u8 n) s with
    | Ok s' => (N.ldiff (uval (status_byte s')) (mask 4 2) =? N.ldiff (uval (status_byte s)) (mask 4 2)) &&
               (bits_of s' 4 2 =? n) && (uval (sr_bit4_5 s') =? n)
    | Panic _ => false end) all_status) [0; 1; 2; 3] = true) by (vm_compute; reflexivity).
  rewrite forallb_forall in C. specialize (C (uval v)).
  assert (I : In (uval v) [0; 1; 2; 3]) by (cbn; lia).
  specialize (C I). rewrite forallb_forall in C. specialize (C s (all_status_all s)).
  replace (as_u8 (uval v)) with v in C by (symmetry; apply as_uint_id).
  destruct (sr_set_bit4_5 v s) as [s'|]; [|discriminate]. exists s'. split; [reflexivity|].
  apply andb_true_iff in C as [C G]. apply andb_true_iff in C as [C1 C2].
  split; [apply only_bits_mask, N.eqb_eq, C1|]. split; [apply N.eqb_eq, C2|]. apply uint_eq, N.eqb_eq, G.
Qed.
Lemma one_call op s : allowed op -> exists s', apply op s = Ok s' /\ reads op s' /\
  let '(lo, w, v) := slot op in only_bits lo w s s' /\ bits_of s' lo w = v.
Proof.
  intros A. destruct op as [x|x|x|x|x|x|x|x|x|v]; cbn [apply slot reads allowed] in *.
  - destruct (C20_set_tei x s) as [a [b c]]. eexists. split; [reflexivity|]. auto.
  - destruct (C20_set_lvc x s) as [a [b c]]. eexists. split; [reflexivity|]. auto.
  - destruct (C20_set_cei x s) as [a [b c]]. eexists. split; [reflexivity|]. auto.
  - destruct (C20_set_dti x s) as [s' [E [a [b c]]]]. exists s'. auto.
  - destruct (C20_set_rai x s) as [s' [E [a [b c]]]]. exists s'. auto.
  - destruct (C20_set_iai x s) as [s' [E [a [b c]]]]. exists s'. auto.
  - destruct (C20_set_fti x s) as [s' [E [a [b c]]]]. exists s'. auto.
  - destruct (C20_set_ism x s) as [s' [E [a [b c]]]]. exists s'. auto.
  - destruct (C20_set_aii x s) as [s' [E [a [b c]]]]. exists s'. auto.
  - destruct (set_bits v s A) as [s' [E [a [b c]]]]. exists s'. auto.
Qed.
Lemma one_bit op s : allowed op -> exists s', apply op s = Ok s' /\ reads op s' /\
  forall i, bit s' i = match puts op i with Some b => b | None => bit s i end.
Proof.
  intros A. destruct (one_call op s A) as [s' [E [R H]]]. exists s'. split; [exact E|]. split; [exact R|]. intros i. unfold puts.
  destruct (slot op) as [[lo w] v]. destruct H as [O V].
  destruct ((lo <=? i) && (i <? lo + w)) eqn:C.
  - apply andb_true_iff in C as [C1 C2]. apply N.leb_le in C1. apply N.ltb_lt in C2.
    rewrite <- V, bits_of_testbit by lia. f_equal. lia.
  - apply O. intros [C1 C2]. apply N.leb_le in C1. apply N.ltb_lt in C2. rewrite C1, C2 in C. discriminate.
Qed.

(** ** Any history of calls *)
Theorem C89_histories : forall ops s, Forall allowed ops ->
  exists s', run ops s = Ok s' /\ forall i, bit s' i = last_put ops i (bit s i).
Proof.
  induction ops as [|op ops IH]; intros s F.
  { exists s. split; reflexivity. }
  apply Forall_cons_iff in F as [A F]. destruct (one_bit op s A) as [s1 [E [_ B]]]. cbn [run last_put]. rewrite E.
  destruct (IH s1 F) as [s' [R H]]. exists s'. split; [exact R|]. intros i. rewrite H, B. reflexivity.
Qed.
(** Only the bits count: histories that put the same bits last make the same record. *)
Lemma status_eq s s' : (forall i, bit s i = bit s' i) -> s = s'.
Proof. intros H. destruct s as [b], s' as [b']. f_equal. apply uint_eq, N.bits_inj. exact H. Qed.
Theorem C89_same_bits : forall ops ops' s, Forall allowed ops -> Forall allowed ops' ->
  (forall i, last_put ops i (bit s i) = last_put ops' i (bit s i)) -> run ops s = run ops' s.
Proof.
  intros ops ops' s F F' H. destruct (C89_histories ops s F) as [a [E A]], (C89_histories ops' s F') as [b [E' B]].
  rewrite E, E'. f_equal. apply status_eq. intros i. rewrite A, B. apply H.
Qed.
(** Calls that write no bit in common can change places. *)
Theorem C89_order : forall before a b after s, Forall allowed (before ++ a :: b :: after) -> apart a b ->
  run (before ++ a :: b :: after) s = run (before ++ b :: a :: after) s.
Proof.
  intros before a b after s F D. apply C89_same_bits; [exact F| |].
  { apply Forall_app in F as [F1 F]. apply Forall_cons_iff in F as [Fa F]. apply Forall_cons_iff in F as [Fb F].
    apply Forall_app. split; [exact F1|]. repeat (apply Forall_cons; [assumption|]). exact F. }
  intros i. generalize (bit s i). clear F. induction before as [|op before IH]; intros x; cbn [app last_put]; [|apply IH].
  destruct (D i) as [E|E]; rewrite E; destruct (puts _ i); reflexivity.
Qed.

(** ** Reading after a history: what was set last, if nothing wrote into its bits since *)
Lemma kept op : forall post s, Forall allowed post -> Forall (apart op) post -> reads op s ->
  exists s', run post s = Ok s' /\ forall i, puts op i <> None -> bit s' i = bit s i.
Proof.
  intros post s F D _. destruct (C89_histories post s F) as [s' [E B]]. exists s'. split; [exact E|].
  intros i P. rewrite B. generalize (bit s i). clear - D P. induction D as [|op' post H D IH]; intros x; [reflexivity|].
  cbn [last_put]. destruct (H i) as [X|X]; [contradiction|]. rewrite X. apply IH.
Qed.
Lemma same_bits_of s s' lo w : (forall i, lo <= i < lo + w -> bit s' i = bit s i) -> bits_of s' lo w = bits_of s lo w.
Proof.
  intros H. apply N.bits_inj. intros i. destruct (N.lt_ge_cases i w) as [L|L].
  - rewrite !bits_of_testbit by exact L. apply H. lia.
  - unfold bits_of. rewrite !N.mod_pow2_bits_high by exact L. reflexivity.
Qed.
Lemma same_read op s s' : (let '(lo, w, _) := slot op in bits_of s' lo w = bits_of s lo w) -> reads op s -> reads op s'.
Proof.
  destruct (C20_getters s) as [[y1 [T1 T]] [[y2 [L1 L]] [[y3 [C1 C]] [D [R [I [F [M A]]]]]]]].
  destruct (C20_getters s') as [[y1' [T1' T']] [[y2' [L1' L']] [[y3' [C1' C']] [D' [R' [I' [F' [M' A']]]]]]]].
  destruct op as [x|x|x|x|x|x|x|x|x|v]; cbn [slot reads]; intros H Q.
  1: rewrite T1'; rewrite T1 in Q; injection Q as <-; f_equal; apply enum_eq; congruence.
  1: rewrite L1'; rewrite L1 in Q; injection Q as <-; f_equal; apply enum_eq; congruence.
  1: rewrite C1'; rewrite C1 in Q; injection Q as <-; f_equal; apply enum_eq; congruence.
  1-6: subst x; apply enum_eq.
  1: rewrite D', D, H; reflexivity.
  1: rewrite R', R, H; reflexivity.
  1: rewrite I', I, H; reflexivity.
  1: rewrite F', F, H; reflexivity.
  1: rewrite M', M, H; reflexivity.
  1: rewrite A', A, H; reflexivity.
  - rewrite <- Q. unfold sr_bit4_5, bits_get. unfold bits_of in H.
    rewrite !N.land_ones, !N.shiftr_div_pow2, H. reflexivity.
Qed.
Theorem C89_last_read : forall pre op post s, Forall allowed (pre ++ op :: post) -> Forall (apart op) post ->
  exists s', run (pre ++ op :: post) s = Ok s' /\ reads op s'.
Proof.
  intros pre op post s F D. apply Forall_app in F as [F1 F]. apply Forall_cons_iff in F as [Fo F].
  destruct (C89_histories pre s F1) as [s1 [E1 _]]. destruct (one_bit op s1 Fo) as [s2 [E2 [R _]]].
  destruct (kept op post s2 F D R) as [s' [E3 K]]. exists s'. split.
  - clear - E1 E2 E3. revert s E1. induction pre as [|p pre IH]; intros s E1; cbn [app run] in *.
    + injection E1 as ->. rewrite E2. exact E3.
    + destruct (apply p s); [exact (IH _ E1) | discriminate].
  - refine (same_read op s2 s' _ R). destruct (slot op) as [[lo w] v] eqn:Eo. apply same_bits_of. intros i Li. apply K.
    unfold puts. rewrite Eo. replace ((lo <=? i) && (i <? lo + w)) with true; [discriminate|].
    symmetry. apply andb_true_iff. split; [apply N.leb_le | apply N.ltb_lt]; lia.
Qed.

(** ** The bits that several indicators share *)
(** FTI, ISM and AII are halves of what DTI, RAI and IAI read, so a record says something about all of
    them at once; together FTI = 1 and AII = 1 make the pattern 3, which the others read as 0. *)
Theorem C89_shared : forall s,
  let two := fun b => if b =? 3 then 0 else b in
  let f := code (sr_get_fti s) in let a := code (sr_get_aii s) in
  code (sr_get_ism s) = f /\ uval (sr_bit4_5 s) = f + 2 * a /\
  code (sr_get_dti s) = two (f + 2 * a) /\ code (sr_get_rai s) = two (f + 2 * a) /\ code (sr_get_iai s) = two (f + 2 * a).
Proof.
  intros s.
  assert (C : forallb (fun s => let two := fun b => if b =? 3 then 0 else b in
    let f := code (sr_get_fti s) in let a := code (sr_get_aii s) in
    (code (sr_get_ism s) =? f) && (uval (sr_bit4_5 s) =? f + 2 * a) && (code (sr_get_dti s) =? two (f + 2 * a)) &&
    (code (sr_get_rai s) =? two (f + 2 * a)) && (code (sr_get_iai s) =? two (f + 2 * a))) all_status = true) by (vm_compute; reflexivity).
  rewrite forallb_forall in C. specialize (C s (all_status_all s)). cbv zeta in C |- *.
  repeat (apply andb_true_iff in C as [C ?]). repeat split; now apply N.eqb_eq.
Qed.
(** So the three-valued indicators cannot be told from the one-bit ones: after setting DTI, FTI and AII
    read its binary digits. *)
Theorem C89_dti_seen : forall x s s', sr_set_dti x s = Ok s' ->
  code (sr_get_fti s') = code x mod 2 /\ code (sr_get_aii s') = code x / 2.
Proof.
  intros x s s' E. destruct (C20_set_dti x s) as [s1 [E1 [_ [B _]]]]. rewrite E in E1. injection E1 as <-.
  destruct (C20_getters s') as [_ [_ [_ [_ [_ [_ [F [_ A]]]]]]]]. rewrite F, A. rewrite <- B. unfold bits_of.
  generalize (uval (status_byte s')). intros n. change (2 ^ 4) with 16. change (2 ^ 1) with 2. change (2 ^ 2) with 4. change (2 ^ 5) with 32.
  assert (E4 : (n / 16) mod 4 = (n / 16) mod 2 + 2 * ((n / 32) mod 2)).
  { replace (n / 32) with (n / 16 / 2) by (rewrite N.div_div by discriminate; reflexivity). generalize (n / 16). intros k.
    change 4 with (2 * 2). rewrite N.mod_mul_r by discriminate. lia. }
  rewrite E4. assert (X := N.mod_lt (n / 16) 2 ltac:(discriminate)). split.
  - apply N.mod_unique with ((n / 32) mod 2); [exact X | lia].
  - apply N.div_unique with ((n / 16) mod 2); [exact X | lia].
Qed.

(** ** Generated methods *)
(** The raw setter panics, and the checked one refuses and leaves the record alone, exactly when the
    value needs more than two bits. *)
Theorem C89_checked : forall v s,
  (uval v < 4 -> exists s', sr_set_bit4_5 v s = Ok s' /\ sr_with_bit4_5 s v = Ok s' /\ sr_set_bit4_5_checked v s = (ROk tt, s')) /\
  (4 <= uval v -> (exists e, sr_set_bit4_5 v s = Panic e /\ sr_with_bit4_5 s v = Panic e) /\ sr_set_bit4_5_checked v s = (RErr tt, s)).
Proof.
  intros v s. unfold sr_with_bit4_5, sr_set_bit4_5, sr_set_bit4_5_checked. split; intros H.
  - replace (uval v <? 4) with true by (symmetry; now apply N.ltb_lt). eauto.
  - replace (uval v <? 4) with false by (symmetry; now apply N.ltb_ge). eauto.
Qed.
(** The getters that can report an error never do, and agree with those that could panic; the builders
    set what the setters set; the bytes are the byte. *)
Theorem C89_generated : forall s,
  (exists x, sr_tei_or_err s = ROk x /\ sr_tei s = Ok x) /\
  (exists x, sr_lvc_or_err s = ROk x /\ sr_lvc s = Ok x) /\
  (exists x, sr_cei_or_err s = ROk x /\ sr_cei s = Ok x) /\
  (forall t l c, exists s', run [SetTei t; SetLvc l; SetCei c] s = Ok s' /\ sr_with_cei (sr_with_lvc (sr_with_tei s t) l) c = s') /\
  sr_into_bytes s = [sr_to_u8 s] /\ (forall b, sr_into_bytes (sr_from_bytes b) = [b]) /\ sr_from_bytes (sr_to_u8 s) = s.
Proof.
  intros s.
  assert (G : forall e lo w, (forall s, exists y, bits_get_enum e lo w s = Ok y /\ code y = bits_of s lo w) ->
    exists x, bits_or_err e lo w s = ROk x /\ bits_get_enum e lo w s = Ok x).
  { intros e lo w H. destruct (H s) as [y [E _]]. exists y. split; [|exact E]. unfold bits_get_enum in E.
    unfold bits_or_err, Specifier_from_bytes. 
    assert (U : uval (as_u8 (bits_get lo w (status_byte s))) = bits_get lo w (status_byte s)).
    { change (uval (as_u8 ?n)) with (n mod 256). apply N.mod_small. unfold bits_get.
      apply N.le_lt_trans with (uval (status_byte s)).
      - apply N.le_trans with (N.shiftr (uval (status_byte s)) lo).
        + rewrite N.land_ones. apply N.mod_le, N.pow_nonzero. discriminate.
        + rewrite N.shiftr_div_pow2. apply N.div_le_upper_bound; [apply N.pow_nonzero; discriminate|].
          assert (1 <= 2 ^ lo) by (apply N.lt_pred_le, N.neq_0_lt_0, N.pow_nonzero; discriminate). nia.
      - exact (uint_lt 1 (status_byte s)). }
    rewrite U. destruct (enum_from e _); [now injection E as -> | discriminate]. }
  split; [apply (G _ 0 1); intros t; apply (C20_getters t)|].
  split; [apply (G _ 1 2); intros t; apply (C20_getters t)|].
  split; [apply (G _ 3 1); intros t; apply (C20_getters t)|].
  split; [intros t l c; eexists; split; reflexivity|].
  split; [reflexivity|]. split; [reflexivity|]. destruct s. reflexivity.
Qed.
(** The nine enumerations as bit fields: every variant fits, survives, and a pattern is refused
    exactly if no variant has it, which within the declared bits happens for 3 in the three two-bit
    indicators with three variants only; [deserialize] reads those as the default instead. *)
Theorem C89_specifiers :
  map (fun x => (e_name (fst x), snd x)) specifier_enums =
    [("TransferredEntityIndicator", 1); ("LVCIndicator", 2); ("CoupledExtensionIndicator", 1); ("FireTypeIndicator", 1);
     ("DetonationTypeIndicator", 2); ("RadioAttachedIndicator", 2); ("IntercomAttachedIndicator", 2);
     ("PduStatusIFFSimulationMode", 1); ("ActiveInterrogationIndicator", 1)]%string /\
  Forall (fun x => let '(e, w) := x in
    (forall v : enum e, code v < 2 ^ w /\ exists b, Specifier_into_bytes v = ROk b /\ uval b = code v /\ Specifier_from_bytes e b = ROk v) /\
    (forall b, (exists v, Specifier_from_bytes e b = ROk v /\ code v = uval b) \/
       (Specifier_from_bytes e b = RErr b /\ (forall v : enum e, code v <> uval b) /\ enum_deserialize e [b] = Ok (enum_default e, []))) /\
    (forall b, uval b < 2 ^ w ->
       (Specifier_from_bytes e b = RErr b <->
        In (e_name e) ["DetonationTypeIndicator"; "RadioAttachedIndicator"; "IntercomAttachedIndicator"]%string /\ uval b = 3)))
    specifier_enums.
Proof.
  split; [reflexivity|]. apply Forall_forall. intros [e w] I. 
  assert (Fit : forall v : enum e, code v < 2 ^ w /\ code v < 256).
  { assert (K : forallb (fun x => forallb (fun c => (c <? 2 ^ snd x) && (c <? 256)) (e_codes (fst x))) specifier_enums = true) by reflexivity.
    rewrite forallb_forall in K. specialize (K _ I). intros v. cbn [fst snd] in K.
    assert (X := all_codes e (fun c => (c <? 2 ^ w) && (c <? 256)) K v). cbv beta in X.
    apply andb_true_iff in X as [X Y]. apply N.ltb_lt in X, Y. auto. }
  assert (Dec : forall b, (exists v, Specifier_from_bytes e b = ROk v /\ code v = uval b /\ enum_from e (uval b) = Some v) \/
     (Specifier_from_bytes e b = RErr b /\ (forall v : enum e, code v <> uval b) /\ enum_from e (uval b) = None)).
  { intros b. unfold Specifier_from_bytes. destruct (enum_from e (uval b)) as [v|] eqn:E.
    - left. exists v. split; [reflexivity|]. split; [|reflexivity]. unfold enum_from in E.
      destruct (Bool.bool_dec _ _); [|discriminate]. injection E as <-. reflexivity.
    - right. split; [reflexivity|]. split; [|reflexivity]. intros v C. rewrite <- C, enum_from_code in E. discriminate. }
  split; [|split].
  - intros v. destruct (Fit v) as [F1 F2]. split; [exact F1|]. exists (as_u8 (code v)). split; [reflexivity|].
    assert (U : uval (as_u8 (code v)) = code v).
    { change (uval (as_u8 (code v))) with (code v mod 256). now apply N.mod_small. }
    split; [exact U|]. unfold Specifier_from_bytes. rewrite U, enum_from_code. reflexivity.
  - intros b. destruct (Dec b) as [[v [E [C _]]]|[E [C N]]]; [left; eauto|right]. split; [exact E|]. split; [exact C|].
    assert (W : e_bytes e = 1%nat).
    { assert (K : forallb (fun x => (e_bytes (fst x) =? 1)%nat) specifier_enums = true) by reflexivity.
      rewrite forallb_forall in K. exact (proj1 (Nat.eqb_eq _ _) (K _ I)). }
    unfold enum_deserialize. rewrite W. 
    assert (G : get_uint 1 [b] = Ok (b, [])).
    { change (get_uint 1 [b]) with (@Ok (uint 1 * bytes) (as_uint 1 (uval b), [])). now rewrite as_uint_id. }
    unfold bind. rewrite G. unfold ret. now rewrite N.
  - intros b L.
    assert (K : forallb (fun x => forallb (fun n => Bool.eqb (memb n (e_codes (fst x))) (negb (mem_string (e_name (fst x))
       ["DetonationTypeIndicator"; "RadioAttachedIndicator"; "IntercomAttachedIndicator"]%string && (n =? 3))))
       (map N.of_nat (seq 0 (N.to_nat (2 ^ snd x))))) specifier_enums = true) by reflexivity.
    rewrite forallb_forall in K. specialize (K _ I). cbn [fst snd] in K. rewrite forallb_forall in K. specialize (K (uval b)).
    assert (Ib : In (uval b) (map N.of_nat (seq 0 (N.to_nat (2 ^ w))))).
    { apply in_map_iff. exists (N.to_nat (uval b)). split; [lia|]. apply in_seq. lia. }
    specialize (K Ib). apply Bool.eqb_prop in K. unfold Specifier_from_bytes, enum_from.
    destruct (Bool.bool_dec (memb (uval b) (e_codes e)) true) as [M|M].
    + rewrite M in K. symmetry in K. apply negb_true_iff in K. split; [discriminate|]. intros [X Y]. exfalso.
      apply andb_false_iff in K as [K|K]; [|apply N.eqb_neq in K; contradiction].
      apply mem_str_In in X. congruence.
    + apply not_true_is_false in M. rewrite M in K. symmetry in K. apply negb_false_iff in K.
      apply andb_true_iff in K as [K1 K2]. split; [|reflexivity]. intros _. split; [now apply mem_str_In | now apply N.eqb_eq].
Qed.

(** ** The hypotheses are met *)
Example C89_example :
  let fti := SetFti (variant FireTypeIndicator_spec 1 eq_refl) in
  let aii := SetAii (variant ActiveInterrogationIndicator_spec 1 eq_refl) in
  let lvc := SetLvc (variant LVCIndicator_spec 2 eq_refl) in
  let dti := SetDti (variant DetonationTypeIndicator_spec 2 eq_refl) in
  Forall allowed [dti; lvc; fti; aii; SetBits (B 3)] /\ apart lvc fti /\ apart fti aii /\ ~ apart dti fti /\
  match run [dti; lvc; fti; aii] sr_new_zero with
  | Ok s => (uval (sr_to_u8 s), code (sr_get_dti s), code (sr_get_fti s), code (sr_get_aii s)) = (52, 0, 1, 1)
  | Panic _ => False
  end.
Proof.
  assert (A : forall a b, fst (fst (slot a)) + snd (fst (slot a)) <= fst (fst (slot b)) \/ fst (fst (slot b)) + snd (fst (slot b)) <= fst (fst (slot a)) -> apart a b).
  { intros a b. unfold apart, puts. destruct (slot a) as [[la wa] va], (slot b) as [[lb wb] vb]. cbn [fst snd]. intros H i.
    destruct (N.leb_spec la i), (N.ltb_spec i (la + wa)), (N.leb_spec lb i), (N.ltb_spec i (lb + wb)); cbn [andb]; auto; lia. }
  cbv zeta. split; [repeat apply Forall_cons; try apply Forall_nil; cbn; try exact I; lia|].
  split; [refine (A _ _ _); cbn; lia|]. split; [refine (A _ _ _); cbn; lia|]. split; [|vm_compute; reflexivity].
  intros H. destruct (H 4) as [X|X]; discriminate X.
Qed.

(** What the theorems above rest on (one traversal for all of them; not part of the model). *)
Definition Prop_Status_theorems : True :=
  let _ := @C89_histories in
  let _ := @C89_same_bits in
  let _ := @C89_order in
  let _ := @C89_last_read in
  let _ := @C89_shared in
  let _ := @C89_dti_seen in
  let _ := @C89_checked in
  let _ := @C89_generated in
  let _ := @C89_specifiers in
  I.
Print Assumptions Prop_Status_theorems.
