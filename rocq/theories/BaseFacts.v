(** * Facts about the base layer (proofs only). *)
From Verif Require Import Base.
From Coq Require Import ZifyBool ZifyNat ZifyN.
Ltac Zify.zify_post_hook ::= Z.div_mod_to_equations.
Arguments N.pow : simpl never.
Arguments N.modulo : simpl never.
Arguments N.div : simpl never.
Arguments N.mul : simpl never.
Arguments N.add : simpl never.

Lemma pow256_pos k : 0 < 256 ^ k.
Proof. apply N.neq_0_lt_0, N.pow_nonzero; discriminate. Qed.

Lemma pow256_S k : 256 ^ N.of_nat (S k) = 256 * 256 ^ N.of_nat k.
Proof. rewrite Nat2N.inj_succ, N.pow_succ_r'; reflexivity. Qed.

Lemma be_encode_length k n : length (be_encode k n) = k.
Proof. induction k as [|k IH]; cbn; [reflexivity | now rewrite IH]. Qed.

Lemma be_decode_acc_encode k : forall n acc,
  be_decode_acc acc (be_encode k n) = 256 ^ N.of_nat k * acc + n mod 256 ^ N.of_nat k.
Proof.
  induction k as [|k IH]; intros n acc.
  - cbn. change (256 ^ 0) with 1. rewrite N.mod_1_r. lia.
  - cbn [be_encode be_decode_acc]. rewrite IH.
    rewrite pow256_S.
    unfold as_u8, as_uint; cbn [uval].
    change (256 ^ N.of_nat 1) with 256.
    assert (Hp := pow256_pos (N.of_nat k)).
    set (p := 256 ^ N.of_nat k) in *.
    assert (E : n mod (256 * p) = p * ((n / p) mod 256) + n mod p).
    { rewrite (N.mul_comm 256 p). rewrite N.mod_mul_r by lia. lia. }
    rewrite E. rewrite N.mul_add_distr_l. lia.
Qed.

Lemma be_decode_encode k n : be_decode (be_encode k n) = n mod 256 ^ N.of_nat k.
Proof. unfold be_decode. rewrite be_decode_acc_encode. lia. Qed.

Lemma be_decode_acc_app l1 : forall acc l2,
  be_decode_acc acc (l1 ++ l2) = be_decode_acc (be_decode_acc acc l1) l2.
Proof. induction l1 as [|x l1 IH]; intros; cbn; [reflexivity | apply IH]. Qed.

Lemma be_decode_acc_val l : forall acc,
  be_decode_acc acc l = 256 ^ N.of_nat (length l) * acc + be_decode l.
Proof.
  unfold be_decode.
  induction l as [|x l IH]; intros acc.
  - cbn. change (256 ^ 0) with 1. lia.
  - cbn [be_decode_acc length]. rewrite IH, (IH (256 * 0 + uval x)).
    rewrite pow256_S. lia.
Qed.

Lemma be_decode_cons x l : be_decode (x :: l) = 256 ^ N.of_nat (length l) * uval x + be_decode l.
Proof. unfold be_decode at 1. cbn [be_decode_acc]. rewrite be_decode_acc_val. rewrite N.mul_0_r, N.add_0_l. reflexivity. Qed.

Lemma be_decode_lt l : be_decode l < 256 ^ N.of_nat (length l).
Proof.
  induction l as [|x l IH].
  - cbn. reflexivity.
  - rewrite be_decode_cons. cbn [length]. rewrite pow256_S.
    assert (H := uint_lt 1 x). change (256 ^ N.of_nat 1) with 256 in H.
    set (p := 256 ^ N.of_nat (length l)) in *.
    assert (p * uval x <= p * 255) by (apply N.mul_le_mono_l; lia).
    lia.
Qed.

Lemma be_encode_mod k : forall n, be_encode k (n mod 256 ^ N.of_nat k) = be_encode k n.
Proof.
  assert (G : forall k j n, (k <= j)%nat -> be_encode k (n mod 256 ^ N.of_nat j) = be_encode k n).
  { clear k. induction k as [|k IH]; intros j n Hj; [reflexivity|].
    cbn [be_encode]. f_equal.
    - apply uint_eq. unfold as_u8, as_uint; cbn [uval]. change (256 ^ N.of_nat 1) with 256.
      assert (Hj' : N.of_nat j = N.of_nat k + 1 + (N.of_nat j - N.of_nat k - 1)) by lia.
      rewrite Hj', !N.pow_add_r. change (256 ^ 1) with 256.
      set (p := 256 ^ N.of_nat k). set (q := 256 ^ (N.of_nat j - N.of_nat k - 1)).
      assert (Hp : 0 < p) by apply pow256_pos. assert (Hq : 0 < q) by apply pow256_pos.
      rewrite <- N.mul_assoc, N.mod_mul_r by lia.
      assert (E : (n mod p + p * ((n / p) mod (256 * q))) / p = (n / p) mod (256 * q)).
      { rewrite N.add_comm, N.mul_comm, N.div_add_l by lia.
        rewrite (N.div_small (n mod p) p) by (apply N.mod_lt; lia). lia. }
      rewrite E. rewrite N.mod_mul_r by lia.
      rewrite (N.mul_comm 256 (_ mod _)), N.mod_add by lia. apply N.mod_mod; lia.
    - apply IH; lia. }
  intros n; apply G; lia.
Qed.

Lemma be_encode_decode l : be_encode (length l) (be_decode l) = l.
Proof.
  induction l as [|x l IH]; [reflexivity|].
  cbn [length be_encode]. rewrite be_decode_cons.
  assert (Hlt := be_decode_lt l). assert (Hp := pow256_pos (N.of_nat (length l))).
  set (p := 256 ^ N.of_nat (length l)) in *.
  f_equal.
  - apply uint_eq. unfold as_u8, as_uint; cbn [uval]. change (256 ^ N.of_nat 1) with 256.
    rewrite (N.mul_comm p), N.div_add_l by lia. rewrite N.div_small by lia.
    rewrite N.add_0_r. apply N.mod_small. apply (uint_lt 1 x).
  - rewrite <- be_encode_mod. fold p.
    rewrite (N.mul_comm p), N.add_comm, N.mod_add by lia.
    rewrite N.mod_small by lia. exact IH.
Qed.

Lemma put_uint_length k (u : uint k) : length (put_uint u) = k.
Proof. apply be_encode_length. Qed.

(** Reading back what was written. *)
Lemma get_put_uint k (u : uint k) rest : get_uint k (put_uint u ++ rest) = Ok (u, rest).
Proof.
  unfold get_uint. rewrite app_length, put_uint_length.
  replace (Nat.leb k (k + length rest)) with true by (symmetry; apply Nat.leb_le; lia).
  do 2 f_equal.
  - rewrite firstn_app, put_uint_length, Nat.sub_diag, firstn_O, app_nil_r.
    rewrite firstn_all2 by (rewrite put_uint_length; lia).
    apply uint_eq. unfold put_uint. cbn [uval as_uint]. rewrite be_decode_encode, N.mod_mod by (assert (Hp := pow256_pos (N.of_nat k)); lia).
    apply N.mod_small, uint_lt.
  - rewrite skipn_app, put_uint_length, Nat.sub_diag. cbn [skipn].
    rewrite skipn_all2 by (rewrite put_uint_length; lia). reflexivity.
Qed.

(** Writing what was read. *)
Lemma put_get_uint k bs : (k <= length bs)%nat ->
  exists u, get_uint k bs = Ok (u, skipn k bs) /\ put_uint u = firstn k bs /\ uval u = be_decode (firstn k bs).
Proof.
  intros H. unfold get_uint.
  replace (Nat.leb k (length bs)) with true by (symmetry; apply Nat.leb_le; lia).
  eexists; split; [reflexivity|].
  assert (L : length (firstn k bs) = k) by (rewrite firstn_length; lia).
  assert (V : uval (as_uint k (be_decode (firstn k bs))) = be_decode (firstn k bs)).
  { apply as_uint_val. rewrite <- L at 2. apply be_decode_lt. }
  split; [|exact V].
  unfold put_uint. rewrite V. rewrite <- L at 1. apply be_encode_decode.
Qed.

Lemma get_uint_short k bs : (length bs < k)%nat -> get_uint k bs = Panic Underflow.
Proof. intros H. unfold get_uint. replace (Nat.leb k (length bs)) with false; [reflexivity|]. symmetry; apply Nat.leb_gt; lia. Qed.

(** ** Reader composition *)

Lemma bind_ok A B (r : reader A) (k : A -> reader B) bs a rest :
  r bs = Ok (a, rest) -> bind r k bs = k a rest.
Proof. unfold bind; intros ->; reflexivity. Qed.

Lemma bind_panic A B (r : reader A) (k : A -> reader B) bs p :
  r bs = Panic p -> bind r k bs = Panic p.
Proof. unfold bind; intros ->; reflexivity. Qed.

Lemma ret_ok A (a : A) bs : ret a bs = Ok (a, bs).
Proof. reflexivity. Qed.

(** A reader takes exactly [n] bytes: it succeeds iff [n] are available, leaves
    the rest, and its result depends on those [n] bytes only. *)
Definition exact_reader {A} (r : reader A) (n : nat) : Prop :=
  (forall bs, (length bs < n)%nat -> r bs = Panic Underflow) /\
  (forall pre, length pre = n -> exists a, forall rest, r (pre ++ rest) = Ok (a, rest)).

Lemma exact_get_uint k : exact_reader (get_uint k) k.
Proof.
  split; [apply get_uint_short|].
  intros pre Hl. exists (as_uint k (be_decode pre)). intros rest.
  unfold get_uint. rewrite app_length.
  replace (Nat.leb k (length pre + length rest)) with true by (symmetry; apply Nat.leb_le; lia).
  rewrite firstn_app, skipn_app, <- Hl, Nat.sub_diag, firstn_O, app_nil_r, firstn_all, skipn_all. reflexivity.
Qed.

Lemma exact_ret A (a : A) : exact_reader (ret a) 0.
Proof.
  split; [intros; lia|]. intros pre H. destruct pre; [|discriminate]. exists a. reflexivity.
Qed.

Lemma exact_bind A B (r : reader A) (k : A -> reader B) n m :
  exact_reader r n -> (forall a, exact_reader (k a) m) -> exact_reader (bind r k) (n + m).
Proof.
  intros [Rs Rl] K. split.
  - intros bs Hb. destruct (Nat.lt_ge_cases (length bs) n) as [L|L].
    + apply bind_panic, Rs, L.
    + destruct (Rl (firstn n bs)) as [a Ha]; [rewrite firstn_length; lia|].
      rewrite <- (firstn_skipn n bs). rewrite (bind_ok _ _ _ _ _ _ _ (Ha (skipn n bs))).
      apply (K a). rewrite skipn_length; lia.
  - intros pre Hp. destruct (Rl (firstn n pre)) as [a Ha]; [rewrite firstn_length; lia|].
    destruct (K a) as [_ Kl]. destruct (Kl (skipn n pre)) as [b Hb]; [rewrite skipn_length; lia|].
    exists b. intros rest.
    rewrite <- (firstn_skipn n pre) at 1. rewrite <- app_assoc.
    rewrite (bind_ok _ _ _ _ _ _ _ (Ha (skipn n pre ++ rest))). apply Hb.
Qed.

Lemma exact_repeat A (r : reader A) n k : exact_reader r n -> exact_reader (repeat_read k r) (k * n).
Proof.
  intros H. induction k as [|k IH]; cbn [repeat_read Nat.mul].
  - apply exact_ret.
  - apply exact_bind; [exact H|]. intros a. replace (k * n)%nat with (k * n + 0)%nat by lia.
    apply exact_bind; [exact IH|]. intros; apply exact_ret.
Qed.

Lemma exact_read_array A n d (r : reader A) m : exact_reader r m -> exact_reader (read_array n d r) (n * m).
Proof.
  intros H. unfold read_array. replace (n * m)%nat with (n * m + 0)%nat by lia.
  apply exact_bind; [apply exact_repeat, H | intros; apply exact_ret].
Qed.

(** Repeated reads give back a concatenation. *)
Lemma repeat_read_concat A (r : reader A) (w : A -> bytes) :
  (forall a rest, r (w a ++ rest) = Ok (a, rest)) ->
  forall l rest, repeat_read (length l) r (List.concat (map w l) ++ rest) = Ok (l, rest).
Proof.
  intros H l; induction l as [|x l IH]; intros rest; cbn [length repeat_read map List.concat].
  - reflexivity.
  - rewrite <- app_assoc. rewrite (bind_ok _ _ _ _ _ _ _ (H x _)).
    rewrite (bind_ok _ _ _ _ _ _ _ (IH rest)). reflexivity.
Qed.

Lemma repeat_read_length A (r : reader A) n : forall bs l rest,
  repeat_read n r bs = Ok (l, rest) -> length l = n.
Proof.
  induction n as [|n IH]; intros bs l rest; cbn [repeat_read].
  - intros [= <- _]; reflexivity.
  - unfold bind at 1. destruct (r bs) as [[a bs']|p]; [|discriminate].
    unfold bind. destruct (repeat_read n r bs') as [[l' bs'']|p] eqn:E; [|discriminate].
    intros [= <- _]. cbn. f_equal. eapply IH, E.
Qed.

Lemma to_array_elems A n d (a : array A n) : to_array n d (elems a) = a.
Proof.
  unfold to_array. destruct (bool_dec (Nat.eqb (length (elems a)) n) true) as [H|H].
  - apply array_eq; reflexivity.
  - contradict H. apply elems_ok.
Qed.

Lemma read_array_put A n d (r : reader A) (w : A -> bytes) :
  (forall a rest, r (w a ++ rest) = Ok (a, rest)) ->
  forall (a : array A n) rest, read_array n d r (List.concat (map w (elems a)) ++ rest) = Ok (a, rest).
Proof.
  intros H a rest. unfold read_array.
  assert (E := repeat_read_concat A r w H (elems a) rest). rewrite array_length in E.
  rewrite (bind_ok _ _ _ _ _ _ _ E). unfold ret. rewrite to_array_elems. reflexivity.
Qed.

Lemma concat_put_length A (w : A -> bytes) n : (forall a, length (w a) = n) ->
  forall l, length (List.concat (map w l)) = (length l * n)%nat.
Proof.
  intros H l; induction l as [|x l IH]; cbn; [reflexivity|]. rewrite app_length, H, IH. reflexivity.
Qed.

(** [get_u8] n times is the same as taking n bytes. *)
Lemma put_u8_single (b : byte) : put_u8 b = [b].
Proof.
  unfold put_u8, put_uint. cbn [be_encode]. f_equal. apply uint_eq.
  unfold as_u8, as_uint. cbn [uval]. change (256 ^ N.of_nat 0) with 1. rewrite N.div_1_r.
  apply N.mod_small, uint_lt.
Qed.

Lemma concat_put_u8 (l : bytes) : List.concat (map put_u8 l) = l.
Proof. induction l as [|b l IH]; [reflexivity|]. cbn [map List.concat]. rewrite put_u8_single, IH. reflexivity. Qed.

Lemma get_u8_cons b rest : get_u8 (b :: rest) = Ok (b, rest).
Proof. assert (H := get_put_uint 1 b rest). change (@put_uint 1 b) with (put_u8 b) in H. rewrite put_u8_single in H. exact H. Qed.

Lemma repeat_get_u8 l rest : repeat_read (length l) get_u8 (l ++ rest) = Ok (l, rest).
Proof.
  induction l as [|b l IH]; cbn [length repeat_read app]; [reflexivity|].
  rewrite (bind_ok _ _ _ _ _ _ _ (get_u8_cons b _)), (bind_ok _ _ _ _ _ _ _ IH). reflexivity.
Qed.

Lemma repeat_get_u8_short n bs : (length bs < n)%nat -> repeat_read n get_u8 bs = Panic Underflow.
Proof.
  intros H. destruct (exact_repeat _ get_u8 1 n (exact_get_uint 1)) as [S _]. apply S. lia.
Qed.

Lemma lenN_app A (a b : list A) : lenN (a ++ b) = lenN a + lenN b.
Proof. unfold lenN. rewrite app_length. lia. Qed.

Lemma lenN_put k (u : uint k) : lenN (put_uint u) = N.of_nat k.
Proof. unfold lenN. now rewrite put_uint_length. Qed.

Lemma wapp_ok a b c : wapp a b = Ok c -> exists x y, a = Ok x /\ b = Ok y /\ c = x ++ y.
Proof. destruct a, b; cbn; try discriminate. intros [= <-]. eauto. Qed.

(** Inversion of reads. *)
Lemma bind_inv A B (r : reader A) (k : A -> reader B) bs b rest :
  bind r k bs = Ok (b, rest) -> exists a bs', r bs = Ok (a, bs') /\ k a bs' = Ok (b, rest).
Proof. unfold bind. destruct (r bs) as [[a bs']|p]; [eauto | discriminate]. Qed.

Lemma repeat_read_concat_P A (P : A -> Prop) (r : reader A) (w : A -> bytes) :
  (forall a rest, P a -> r (w a ++ rest) = Ok (a, rest)) ->
  forall l rest, Forall P l -> repeat_read (length l) r (List.concat (map w l) ++ rest) = Ok (l, rest).
Proof.
  intros H l rest F; revert rest; induction F as [|x l Px _ IH]; intros rest; cbn [length repeat_read map List.concat].
  - reflexivity.
  - rewrite <- app_assoc. rewrite (bind_ok _ _ _ _ _ _ _ (H x _ Px)).
    rewrite (bind_ok _ _ _ _ _ _ _ (IH rest)). reflexivity.
Qed.

Lemma repeat_read_Forall A (P : A -> Prop) (r : reader A) :
  (forall bs a rest, r bs = Ok (a, rest) -> P a) ->
  forall n bs l rest, repeat_read n r bs = Ok (l, rest) -> Forall P l.
Proof.
  intros H n; induction n as [|n IH]; intros bs l rest; cbn [repeat_read].
  - intros [= <- _]; constructor.
  - intros E. apply bind_inv in E. destruct E as [a [bs' [Ha E]]].
    apply bind_inv in E. destruct E as [l' [bs'' [Hl E]]]. injection E as <- _.
    constructor; [eapply H, Ha | eapply IH, Hl].
Qed.

Lemma lenN_concat A (w : A -> bytes) (f : A -> N) : (forall a, lenN (w a) = f a) ->
  forall l, lenN (List.concat (map w l)) = fold_right N.add 0 (map f l).
Proof.
  intros H l; induction l as [|x l IH]; cbn [map List.concat fold_right]; [reflexivity|].
  rewrite lenN_app, H, IH. reflexivity.
Qed.
