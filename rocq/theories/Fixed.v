(** * Fixed-size writers/readers (proofs only): the notion used for record types. *)
From Verif Require Import Base BaseFacts EnumModel EnumFacts.

(** [w] always writes [n] bytes, [r] reads them back and reads exactly [n] bytes. *)
Definition fixed_rw {T} (n : nat) (w : T -> bytes) (r : reader T) : Prop :=
  (forall v, length (w v) = n) /\
  (forall v rest, r (w v ++ rest) = Ok (v, rest)) /\
  exact_reader r n.

Create HintDb fx.

Lemma fx_len {T} n (w : T -> bytes) r v : fixed_rw n w r -> length (w v) = n.
Proof. intros H; apply H. Qed.
Lemma fx_rt {T} n (w : T -> bytes) r v rest : fixed_rw n w r -> r (w v ++ rest) = Ok (v, rest).
Proof. intros H; apply H. Qed.
Lemma fx_exact {T} n (w : T -> bytes) r : fixed_rw n w r -> exact_reader r n.
Proof. intros H; apply H. Qed.

Lemma fixed_uint k : fixed_rw k (@put_uint k) (get_uint k).
Proof. split; [apply put_uint_length | split; [apply get_put_uint | apply exact_get_uint]]. Qed.

Lemma fixed_enum e k : e_bytes e = k -> fixed_rw k (fun x : enum e => put_uint (as_uint k (code x))) (enum_deserialize e).
Proof.
  intros <-. split; [intros; apply put_uint_length|]. split; [apply enum_rt_gen | apply enum_exact].
Qed.

Lemma fixed_array {T} n m d (w : T -> bytes) r : fixed_rw m w r ->
  fixed_rw (n * m) (fun a : array T n => List.concat (map w (elems a))) (read_array n d r).
Proof.
  intros [L [R E]]. split; [|split].
  - intros v. rewrite (concat_put_length _ _ _ L), array_length. reflexivity.
  - apply read_array_put, R.
  - apply exact_read_array, E.
Qed.

Lemma exact_eq {T} (r : reader T) n m : exact_reader r n -> n = m -> exact_reader r m.
Proof. intros H <-; exact H. Qed.

#[export] Hint Extern 1 (fixed_rw _ put_u8 get_u8) => apply fixed_uint : fx.
#[export] Hint Extern 1 (fixed_rw _ put_u16 get_u16) => apply fixed_uint : fx.
#[export] Hint Extern 1 (fixed_rw _ put_u32 get_u32) => apply fixed_uint : fx.
#[export] Hint Extern 1 (fixed_rw _ put_u64 get_u64) => apply fixed_uint : fx.
#[export] Hint Extern 1 (fixed_rw _ put_i8 get_i8) => apply fixed_uint : fx.
#[export] Hint Extern 1 (fixed_rw _ put_i16 get_i16) => apply fixed_uint : fx.
#[export] Hint Extern 1 (fixed_rw _ put_i32 get_i32) => apply fixed_uint : fx.
#[export] Hint Extern 1 (fixed_rw _ put_i64 get_i64) => apply fixed_uint : fx.
#[export] Hint Extern 1 (fixed_rw _ put_f32 get_f32) => apply fixed_uint : fx.
#[export] Hint Extern 1 (fixed_rw _ put_f64 get_f64) => apply fixed_uint : fx.

(** Tactics for records: the reader [let* x := r in k x] against the writer
    [w (p v) ++ w']. *)
Ltac fx_expose :=
  unfold as_u8, as_u16, as_u32, as_u64, put_u8, put_u16, put_u32, put_u64, put_i8, put_i16, put_i32, put_i64, put_f32, put_f64,
             get_u8, get_u16, get_u32, get_u64, get_i8, get_i16, get_i32, get_i64, get_f32, get_f64.
Ltac fx_read1 :=
  lazymatch goal with
  | |- bind (enum_deserialize ?e) _ (_ ++ _) = _ =>
      refine (eq_trans (bind_ok _ _ _ _ _ _ _ (enum_rt_k _ e _ _ eq_refl)) _)
  | |- bind (get_uint _) _ (_ ++ _) = _ =>
      refine (eq_trans (bind_ok _ _ _ _ _ _ _ (get_put_uint _ _ _)) _)
  | |- bind (read_array _ _ _) _ (_ ++ _) = _ =>
      refine (eq_trans (bind_ok _ _ _ _ _ _ _ (read_array_put _ _ _ _ _ (get_put_uint _) _ _)) _)
  | |- bind _ _ (_ ++ _) = _ =>
      etransitivity; [eapply bind_ok; eapply fx_rt; eauto with fx nocore|]
  end; cbv beta.
Ltac fx_exact1 :=
  lazymatch goal with
  | |- exact_reader (ret _) _ => apply exact_ret
  | |- exact_reader (bind _ _) _ => eapply exact_bind; [fx_exact1 | intros; fx_exact1]
  | |- exact_reader (enum_deserialize _) _ => apply enum_exact
  | |- exact_reader (get_uint _) _ => apply exact_get_uint
  | |- exact_reader (read_array _ _ _) _ => apply exact_read_array; fx_exact1
  | |- exact_reader _ _ => eapply fx_exact; eauto with fx nocore
  end.
Ltac fx_len1 :=
  first [ rewrite put_uint_length
        | match goal with |- context [length (List.concat (map ?w ?l))] =>
            erewrite (concat_put_length _ w) by (intros; apply put_uint_length) end
        | rewrite array_length
        | erewrite fx_len by eauto with fx nocore ].
(** [fixed_rw] for a record with writer [ser] and reader [des]. *)
Ltac fixed_tac ser des :=
  split; [ intros v; unfold ser; fx_expose; rewrite ?app_length; repeat fx_len1; reflexivity
         | split; [ intros v rest; unfold ser, des; fx_expose; rewrite <- ?app_assoc;
                    repeat fx_read1; unfold ret; destruct v; reflexivity
                  | eapply exact_eq; [unfold des; fx_expose; fx_exact1 | reflexivity]] ].
