(** * Facts about bit-flag fields (proofs only). *)
From Verif Require Import Base BaseFacts Fixed Header PduMacro PduMacroFacts Bitflags.

(** What decoding makes of a flag value. *)
Definition flags_norm {k d} (v : flags k d) : flags k d := flags_or_default (flags_from_bits d (bits v)).

Lemma flags_norm_id k d (v : flags k d) : N.ldiff (uval (bits v)) d = 0 -> flags_norm v = v.
Proof. intros H. unfold flags_norm, flags_from_bits. rewrite H. destruct v; reflexivity. Qed.
Lemma flags_norm_empty k d (v : flags k d) : N.ldiff (uval (bits v)) d <> 0 -> flags_norm v = flags_empty.
Proof. intros H. unfold flags_norm, flags_from_bits. apply N.eqb_neq in H. rewrite H. reflexivity. Qed.

Lemma FrozenBehavior_fc : fixed_codec 1 flags_norm FrozenBehavior_codec.
Proof.
  split; cbn [c_ser c_des c_len FrozenBehavior_codec ObjectStateAppearanceGeneral_codec].
  - intros v. eexists. split; [reflexivity|]. split; [apply put_uint_length|]. intros rest.
    refine (eq_trans (bind_ok _ _ _ _ _ _ _ (get_put_uint _ _ _)) _). reflexivity.
  - reflexivity.
  - apply (exact_bind _ _ _ _ 1 0); [apply exact_get_uint | intros; apply exact_ret].
Qed.
Lemma ObjectStateAppearanceGeneral_fc : fixed_codec 2 flags_norm ObjectStateAppearanceGeneral_codec.
Proof.
  split; cbn [c_ser c_des c_len FrozenBehavior_codec ObjectStateAppearanceGeneral_codec].
  - intros v. eexists. split; [reflexivity|]. split; [apply put_uint_length|]. intros rest.
    refine (eq_trans (bind_ok _ _ _ _ _ _ _ (get_put_uint _ _ _)) _). reflexivity.
  - reflexivity.
  - apply (exact_bind _ _ _ _ 2 0); [apply exact_get_uint | intros; apply exact_ret].
Qed.
