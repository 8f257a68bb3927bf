(** * Facts about enumerations (proofs only). *)
From Verif Require Import Base BaseFacts EnumModel Enums.

Lemma enum_eq e (a b : enum e) : code a = code b -> a = b.
Proof.
  destruct a as [a pa], b as [b pb]; cbn; intros ->.
  f_equal. apply (Eqdep_dec.UIP_dec bool_dec).
Qed.

Lemma memb_In n l : memb n l = true <-> In n l.
Proof.
  unfold memb. rewrite existsb_exists. split.
  - intros [x [Hx Hn]]. apply N.eqb_eq in Hn. subst. exact Hx.
  - intros H. exists n. split; [exact H | apply N.eqb_refl].
Qed.

Lemma enum_fits e (x : enum e) : code x < 256 ^ N.of_nat (e_bytes e).
Proof.
  assert (F := e_fits e). rewrite forallb_forall in F.
  apply N.ltb_lt, F, memb_In, code_ok.
Qed.

Lemma enum_from_code e (x : enum e) : enum_from e (code x) = Some x.
Proof.
  unfold enum_from. destruct (bool_dec (memb (code x) (e_codes e)) true) as [H|H].
  - f_equal. apply enum_eq; reflexivity.
  - contradict H. apply code_ok.
Qed.

Lemma enum_from_some e n x : enum_from e n = Some x -> code x = n.
Proof.
  unfold enum_from. destruct (bool_dec (memb n (e_codes e)) true); [|discriminate].
  intros [= <-]; reflexivity.
Qed.

Lemma enum_from_none e n : enum_from e n = None <-> ~ In n (e_codes e).
Proof.
  unfold enum_from. destruct (bool_dec (memb n (e_codes e)) true) as [H|H].
  - split; [discriminate|]. intros C. contradict C. apply memb_In, H.
  - split; [|reflexivity]. intros _ C. apply H, memb_In, C.
Qed.

Lemma enum_from_known e n : In n (e_codes e) -> exists x, enum_from e n = Some x /\ code x = n.
Proof.
  intros H. destruct (enum_from e n) as [x|] eqn:E.
  - exists x. split; [reflexivity | eapply enum_from_some, E].
  - apply enum_from_none in E. contradiction.
Qed.

(** Decoding what was encoded. *)
Lemma enum_rt_gen e (x : enum e) rest :
  enum_deserialize e (put_uint (as_uint (e_bytes e) (code x)) ++ rest) = Ok (x, rest).
Proof.
  unfold enum_deserialize. rewrite (bind_ok _ _ _ _ _ _ _ (get_put_uint _ _ _)).
  rewrite as_uint_val by apply enum_fits. rewrite enum_from_code. reflexivity.
Qed.

Lemma enum_rt_k k e (x : enum e) rest : e_bytes e = k ->
  enum_deserialize e (put_uint (as_uint k (code x)) ++ rest) = Ok (x, rest).
Proof. intros <-. apply enum_rt_gen. Qed.

Lemma enum_exact e : exact_reader (enum_deserialize e) (e_bytes e).
Proof.
  unfold enum_deserialize. rewrite <- (Nat.add_0_r (e_bytes e)).
  apply exact_bind; [rewrite Nat.add_0_r; apply exact_get_uint | intros; apply exact_ret].
Qed.

(** What decoding arbitrary bytes gives: the variant with that code or the default. *)
Lemma enum_deserialize_spec e bs : (e_bytes e <= length bs)%nat ->
  exists x, enum_deserialize e bs = Ok (x, skipn (e_bytes e) bs) /\
    code x = (let n := be_decode (firstn (e_bytes e) bs) in if memb n (e_codes e) then n else e_default e).
Proof.
  intros H. destruct (put_get_uint _ bs H) as [u [Hg [_ Hv]]].
  unfold enum_deserialize. rewrite (bind_ok _ _ _ _ _ _ _ Hg).
  eexists; split; [reflexivity|]. rewrite Hv.
  set (n := be_decode _). cbn zeta. destruct (memb n (e_codes e)) eqn:M.
  - destruct (enum_from_known e n) as [x [Hx Hc]]; [apply memb_In, M|]. rewrite Hx. exact Hc.
  - assert (E : enum_from e n = None).
    { apply enum_from_none. intros C. apply memb_In in C. congruence. }
    rewrite E. reflexivity.
Qed.
